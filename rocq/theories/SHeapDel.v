(* Which objects can be reached from a value *)
From Coq Require Import String.
From Verif Require Import Py MHeap.
Open Scope list_scope.
Open Scope Z_scope.

Inductive reaches (h : heap) : val -> nat -> Prop :=
  | reaches_here : forall l, reaches h (VRef l) l
  | reaches_tuple : forall vs v l, In v vs -> reaches h v l -> reaches h (VTuple vs) l
  | reaches_item : forall l vs v l', nth_error h l = Some (CList vs) -> In v vs -> reaches h v l' -> reaches h (VRef l) l'
  | reaches_attribute : forall l i attrs k v l', nth_error h l = Some (CObj i attrs) -> In (k, v) attrs -> reaches h v l' ->
      reaches h (VRef l) l'.

(* an assignment to an attribute of the object is accepted *)
Definition can_write (h : heap) (l : nat) : Prop := exists k v h', setattr h l k v = Ok h'.
