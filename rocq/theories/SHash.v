(* What the theorems assume about the digest functions passed to the model: the
   output widths of SHA-256, RIPEMD-160, BLAKE-256 and BLAKE2b, and that outputs
   are bytes.  Nothing else: no collision resistance. *)
From Verif Require Import Py LBase SNet MUtils.
Open Scope Z_scope.

Definition hashes_ok (H : hashes) : Prop :=
  (forall m, zlen (h_sha256 H m) = 32 /\ is_bytes (h_sha256 H m)) /\
  (forall m, zlen (h_rmd160 H m) = 20 /\ is_bytes (h_rmd160 H m)) /\
  (forall m, zlen (h_blake256 H m) = 32 /\ is_bytes (h_blake256 H m)) /\
  (forall p n m, 1 <= n <= 64 -> zlen (h_blake2b H p n m) = n /\ is_bytes (h_blake2b H p n m)).

(* a toy record that satisfies hashes_ok, for examples *)
Definition toy_digest (n : Z) (m : bytes) : bytes :=
  to_le (Z.to_nat n) (fold_left (fun a b => a * 257 + b + 1) m 7).
Definition toy : hashes :=
  {| h_sha256 := toy_digest 32; h_rmd160 := toy_digest 20;
     h_blake256 := toy_digest 32; h_blake2b := fun p n m => toy_digest n (p ++ m) |}.

(* double SHA-256, double BLAKE-256 *)
Definition sha256d (H : hashes) (m : bytes) : bytes := h_sha256 H (h_sha256 H m).
Definition blake256d (H : hashes) (m : bytes) : bytes := h_blake256 H (h_blake256 H m).

(* the hash of transactions and digests *)
Definition double_hash (H : hashes) (name : str) : bytes -> bytes :=
  if in_dec list_eq_dec_Z name decred_names then blake256d H else sha256d H.
