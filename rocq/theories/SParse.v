(* How a parser may end *)
From Verif Require Import Py.

(* it returns something with P, or raises one of the exceptions es *)
Definition ends {A} (es : list exn) (P : A -> Prop) (r : res A) : Prop :=
  match r with Ok x => P x | Err e => In e es end.
(* what reading bytes may raise *)
Definition parse_errors : list exn := [ValueError; IndexError; NotImplementedError].
