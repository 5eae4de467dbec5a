(* Base58, specified by number: the text is the number written with 58 digits. *)
From Coq Require Import String.
From Verif Require Import Py.
Open Scope list_scope.
Open Scope Z_scope.

(* the Bitcoin alphabet, value 0 first *)
Definition b58_digits : str :=
  lit "123456789ABCDEFGHJKLMNPQRSTUVWXYZabcdefghijkmnopqrstuvwxyz".

(* number written with the given digits, most significant first *)
Definition be_num (base : Z) (ds : list Z) : Z := fold_left (fun v d => v * base + d) ds 0.

(* how many times z stands at the front of the list *)
Fixpoint leading (z : Z) (l : list Z) : nat :=
  match l with
  | x :: t => if x =? z then S (leading z t) else O
  | [] => O
  end.

(* position of a character in the alphabet *)
Definition b58_char (d : Z) : Z := nth (Z.to_nat d) b58_digits 0.

(* s is the Base58 text of the bytes b: the same number, with one '1' for each
   leading zero byte *)
Definition base58_of (b : list Z) (s : str) : Prop :=
  exists ds, Forall (fun d => 0 <= d < 58) ds /\ s = map b58_char ds /\
             be_num 58 ds = be_num 256 b /\ leading 0 ds = leading 0 b.
