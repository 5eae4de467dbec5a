(* Specification of UTF-8 (RFC 3629, section 3), for text arguments *)
From Verif Require Import Py.
Open Scope Z_scope.

(* x is what the six free bits of a continuation byte hold *)
Definition bits6 (x : Z) : Prop := 0 <= x < 64.

(* bs are the octets of the code point c: the table of RFC 3629 with the shortest
   form, without the surrogates U+D800 to U+DFFF *)
Definition octets (c : Z) (bs : bytes) : Prop :=
  (bs = [c] /\ 0 <= c < 0x80) \/
  (exists x y, bs = [0xC0 + x; 0x80 + y] /\ 0 <= x < 32 /\ bits6 y /\ c = x * 2 ^ 6 + y /\ 0x80 <= c) \/
  (exists x y z, bs = [0xE0 + x; 0x80 + y; 0x80 + z] /\ 0 <= x < 16 /\ bits6 y /\ bits6 z /\ c = x * 2 ^ 12 + y * 2 ^ 6 + z /\ 0x800 <= c /\
     ~ 0xD800 <= c <= 0xDFFF) \/
  (exists x y z w, bs = [0xF0 + x; 0x80 + y; 0x80 + z; 0x80 + w] /\ 0 <= x < 8 /\ bits6 y /\ bits6 z /\ bits6 w /\
     c = x * 2 ^ 18 + y * 2 ^ 12 + z * 2 ^ 6 + w /\ 0x10000 <= c <= 0x10FFFF).

(* a Python str: code points *)
Definition code_point (c : Z) : Prop := 0 <= c <= 0x10FFFF.
