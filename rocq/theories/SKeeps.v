(* C107: the attributes of an object *)
From Coq Require Import String.
From Verif Require Import Py MClass.
Open Scope list_scope.
Open Scope Z_scope.

(* v.k is the value, for each of these names and values *)
Definition keeps (v : pv) (l : list (string * pv)) : Prop := Forall (fun p => attribute v (lit (fst p)) = Ok (snd p)) l.
(* v.k is a tuple of the items of the sequence s *)
Definition keeps_items (v : pv) (k : string) (s : pv) : Prop := exists vs, sequence s = Ok vs /\ attribute v (lit k) = Ok (PTuple vs).
(* whether s is an empty sequence *)
Definition empty (s : pv) : Prop := sequence s = Ok [].
(* v.k is the value, if the sequence s is not empty; otherwise None *)
Definition keeps_with (v : pv) (k : string) (x s : pv) : Prop :=
  (empty s -> attribute v (lit k) = Ok PNone) /\ (~ empty s -> attribute v (lit k) = Ok x).
