(* riemann/tx/shared.py: the methods of ByteData that MShared.v leaves out *)
From Coq Require Import String.
From Verif Require Import Py MShared.
Open Scope list_scope.
Open Scope Z_scope.

(* repr of a bytes object: the quote is the single one (39) unless the bytes have
   a single quote and no double quote (34); shared.py:94-98 *)
Definition repr_quote (b : bytes) : Z := if zmem 39 b && negb (zmem 34 b) then 34 else 39.
(* shared.py:94-98: one byte of the repr *)
Definition repr_byte (q c : Z) : str :=
  if (c =? q) || (c =? 92) then [92; c]
  else if c =? 9 then lit "\t"
  else if c =? 10 then lit "\n"
  else if c =? 13 then lit "\r"
  else if (c <? 32) || (127 <=? c) then lit "\x" ++ [hexdigit (c / 16); hexdigit (c mod 16)]
  else [c].
(* shared.py:94-98: the repr of the bytes *)
Definition bytes_repr (b : bytes) : str :=
  let q := repr_quote b in lit "b" ++ [q] ++ concat (map (repr_byte q) b) ++ [q].
(* str(self._bytes): bytes once immutable, a bytearray before; shared.py:94-98 *)
Definition inner_repr (self : bytedata) : str :=
  if bd_immutable self then bytes_repr (bd_bytes self)
  else lit "bytearray(" ++ bytes_repr (bd_bytes self) ++ lit ")".

(* shared.py:94-98; type(self).__name__ is a parameter *)
Definition bd_repr (class_name : str) (self : bytedata) : str :=
  class_name ++ lit ": " ++ inner_repr self.

(* shared.py:83-92; bytes.__format__ takes the empty format only *)
Definition bd_format (self : bytedata) (code : str) : res str :=
  if contains code (lit "x") then Ok (bd_hex self)
  else if contains code (lit "X") then Ok (upper (bd_hex self))
  else if leqb code [] then Ok (inner_repr self)
  else Err TypeError.

(* shared.py:29-30 *)
Definition bd_iter (self : bytedata) : list Z := bd_bytes self.

(* shared.py:119-126, when the argument is a ByteData *)
Definition bd_find_object (self substring : bytedata) : Z := bd_find self (bd_to_bytes substring).

(* shared.py:151-153 *)
Definition bd_from_hex (hex_string : str) : res bytedata :=
  b <- fromhex hex_string ;; bd_from_bytes b.

(* what the constructors do (e.g. shared.py:168-194): += each part, then
   _make_immutable *)
Fixpoint bd_iadd_all (self : bytedata) (parts : list pyvalue) : res bytedata :=
  match parts with
  | [] => Ok self
  | p :: ps => s <- bd_iadd self p ;; bd_iadd_all s ps
  end.
(* the pattern of the constructors, for example tx.py:36-42 *)
Definition bd_build (parts : list pyvalue) : res bytedata :=
  s <- bd_iadd_all bd_new parts ;; bd_make_immutable s.
