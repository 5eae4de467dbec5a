(* C106: what the operator in gives for Python's bytes, from the language reference *)
From Coq Require Import List ZArith.
From Verif Require Import Py MShared MMember SNum SRead.
Open Scope list_scope.
Open Scope Z_scope.

(* r is the result of x in b, b a bytes object: a byte value is looked for among the bytes, other numbers are refused; bytes are
   looked for at every position; other values are refused *)
Definition in_bytes (b : bytes) (x : sought) (r : res bool) : Prop :=
  match x with
  | QInt k => (0 <= k < 256 -> exists a, r = Ok a /\ (a = true <-> In k b)) /\ (k < 0 \/ 256 <= k -> r = Err ValueError)
  | QValue (VBytes p) => exists a, r = Ok a /\ (a = true <-> exists k, occurs p b k)
  | QValue _ => r = Err TypeError
  end.
