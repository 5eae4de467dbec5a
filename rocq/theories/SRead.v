(* C93: words for the positions in byte strings *)
From Coq Require Import String.
From Verif Require Import Py SNum.
Open Scope list_scope.
Open Scope Z_scope.

(* p is in b at position k *)
Definition occurs (p b : bytes) (k : Z) : Prop := exists pre post, b = pre ++ p ++ post /\ len pre = k.
(* s is the part of b from position i up to, not including, position j *)
Definition part_of (b : bytes) (i j : Z) (s : bytes) : Prop :=
  exists pre post, b = pre ++ s ++ post /\ len pre = i /\ len s = j - i.

(* c is the hexadecimal digit of value d *)
Definition digit (c d : Z) : Prop := 0 <= d /\
  (nth_error (lit "0123456789abcdef") (Z.to_nat d) = Some c \/ nth_error (lit "0123456789ABCDEF") (Z.to_nat d) = Some c).
(* s is b in hexadecimal: two digits a byte, space, tab and line ends (codes 9 to
   13) allowed before, between and after the bytes *)
Inductive hex_text : str -> bytes -> Prop :=
  | hex_end : hex_text [] []
  | hex_space c s b : c = 32 \/ 9 <= c <= 13 -> hex_text s b -> hex_text (c :: s) b
  | hex_byte c d h l s b : digit c h -> digit d l -> hex_text s b -> hex_text (c :: d :: s) (16 * h + l :: b).

(* s, between quotes q after a b, is a Python literal for the bytes b *)
Inductive literal (q : Z) : str -> bytes -> Prop :=
  | literal_end : literal q [] []
  | literal_plain c s b : 32 <= c < 127 -> c <> q -> c <> 92 -> literal q s b -> literal q (c :: s) (c :: b)
  | literal_hex c d h l s b : digit c h -> digit d l -> literal q s b -> literal q (lit "\x" ++ c :: d :: s) (16 * h + l :: b)
  | literal_escape c x s b : In (c, x) [(116, 9); (110, 10); (114, 13); (92, 92); (39, 39); (34, 34)] -> literal q s b ->
      literal q (92 :: c :: s) (x :: b).
