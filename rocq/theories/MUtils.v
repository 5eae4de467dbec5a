(* riemann/utils.py *)
From Coq Require Import String.
From Verif Require Import Py MNet.
Open Scope Z_scope.

(* Digest functions.  sha256, rmd160 and blake2b are Python's hashlib, outside
   the repository; blake256 is riemann/blake256.py, modelled in MBlake.v and
   plugged in there.  Everything below takes a record of such functions, and
   theorems are proved for every record. *)
Record hashes := {
  h_sha256 : bytes -> bytes;
  h_rmd160 : bytes -> bytes;
  h_blake256 : bytes -> bytes;
  h_blake2b : bytes -> Z -> bytes -> bytes   (* person, digest_size, data *)
}.

(* utils.py:6-17 *)
Definition i2le (number : Z) : res bytes :=
  if number =? 0 then Ok [0]
  else to_bytes number ((bit_length number + 7) / 8) false false.

(* utils.py:20-30 *)
Definition i2le_padded (number length : Z) : res bytes :=
  to_bytes number length false false.

(* utils.py:33-53; the loop tries length = start, start + 1, ..., 519 *)
Fixpoint i2le_script_loop (number : Z) (start : Z) (n : nat) : res str :=
  match n with
  | O => Err ValueError
  | S n' =>
      match to_bytes number start false true with
      | Ok b => Ok (hex b)
      | Err OverflowError => i2le_script_loop number (start + 1) n'
      | Err e => Err e
      end
  end.
(* utils.py:33-53 *)
Definition i2le_script (number : Z) : res str :=
  if number =? 0 then Ok (lit "00")
  else i2le_script_loop number 0 520.

(* utils.py:56-66 *)
Definition le2i (b : bytes) (signed : bool) : Z := from_bytes false signed b.

(* utils.py:69-79 *)
Definition be2i (b : bytes) (signed : bool) : Z := from_bytes true signed b.

(* utils.py:82-93 *)
Definition i2be (number : Z) : res bytes :=
  if number =? 0 then Ok [0]
  else to_bytes number ((bit_length number + 7) / 8) true false.

(* utils.py:96-106 *)
Definition i2be_padded (number length : Z) : res bytes :=
  to_bytes number length true false.

(* utils.py:109-111 *)
Definition change_endianness (b : bytes) : bytes := rev b.

Section Hashing.
  Context (H : hashes) (net : network).

  (* utils.py:114-120 *)
  Definition rmd160 (m : bytes) : bytes := h_rmd160 H m.
  (* utils.py:123-125 *)
  Definition sha256 (m : bytes) : bytes := h_sha256 H m.
  (* utils.py:145-147 *)
  Definition blake256 (m : bytes) : bytes := h_blake256 H m.

  (* utils.py:128-135 *)
  Definition hash160 (m : bytes) : bytes :=
    if contains (get_current_network_name net) (lit "decred")
    then h_rmd160 H (blake256 m)
    else h_rmd160 H (sha256 m).

  (* utils.py:138-142 *)
  Definition hash256 (m : bytes) : bytes :=
    if contains (get_current_network_name net) (lit "decred")
    then blake256 (blake256 m)
    else h_sha256 H (h_sha256 H m).

  (* utils.py:150-154, for the keyword arguments the code uses
     (digest_size and person) *)
  Definition blake2b (data : bytes) (digest_size : Z) (person : bytes) : bytes :=
    h_blake2b H person digest_size data.
End Hashing.
