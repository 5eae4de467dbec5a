(* Specification vocabulary for numbers on the wire.  Independent of the model:
   only lists of integers. *)
From Coq Require Import List ZArith.
Import ListNotations.
Open Scope Z_scope.

(* every element is a byte *)
Definition all_bytes (l : list Z) : Prop := Forall (fun b => 0 <= b < 256) l.

Definition len (l : list Z) : Z := Z.of_nat (length l).

(* the number a little-endian byte string stands for: sum of b_i * 256^i *)
Fixpoint le_value (l : list Z) : Z :=
  match l with
  | [] => 0
  | b :: t => b + 256 * le_value t
  end.

(* the k-byte little-endian string of n: its i-th byte is the i-th digit *)
Definition le_bytes (k : nat) (n : Z) : list Z :=
  map (fun i => (n / 256 ^ Z.of_nat i) mod 256) (seq 0 k).

(* two's complement reading *)
Definition twos_value (l : list Z) : Z :=
  if last l 0 <? 128 then le_value l else le_value l - 256 ^ len l.

(** * Bitcoin Script numbers (CScriptNum in Bitcoin Core's script.h) *)

(* set_vch: little endian, the top bit of the last byte is the sign *)
Definition scriptnum_value (l : list Z) : Z :=
  if last l 0 <? 128 then le_value l
  else - (le_value l - 128 * 256 ^ (len l - 1)).

(* the minimality rule of the CScriptNum constructor: the last byte carries more
   than the sign bit, unless the sign bit does not fit in the byte before it *)
Definition scriptnum_minimal (l : list Z) : Prop :=
  l = [] \/ (last l 0) mod 128 <> 0 \/
  (exists p x y, l = p ++ [x; y] /\ 128 <= x).

(** * CompactSize *)

(* the wire encodings of n, canonical or not *)
Inductive compactsize_of : list Z -> Z -> Prop :=
  | cs1 n : 0 <= n <= 252 -> compactsize_of [n] n
  | cs3 x : all_bytes x -> length x = 2%nat -> compactsize_of (253 :: x) (le_value x)
  | cs5 x : all_bytes x -> length x = 4%nat -> compactsize_of (254 :: x) (le_value x)
  | cs9 x : all_bytes x -> length x = 8%nat -> compactsize_of (255 :: x) (le_value x).

(* the canonical one *)
Definition compactsize (n : Z) : list Z :=
  if n <? 253 then [n]
  else if n <? 2 ^ 16 then 253 :: le_bytes 2 n
  else if n <? 2 ^ 32 then 254 :: le_bytes 4 n
  else 255 :: le_bytes 8 n.

(* number of bytes announced by the first byte of a CompactSize *)
Definition compactsize_width (first : Z) : Z :=
  if first <? 253 then 1 else if first =? 253 then 3 else if first =? 254 then 5 else 9.
