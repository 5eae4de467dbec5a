(* What "copy with some fields replaced" means.  [None] is an argument that was
   not given. *)
From Verif Require Import Py.

(* a field after copying: the new value if one was given *)
Definition updated {A} (new : option A) (old : A) : A := match new with Some x => x | None => old end.
(* the same for a field that may be absent: it cannot be made absent *)
Definition updated_opt {A} (new old : option A) : option A := match new with Some x => Some x | None => old end.
(* P holds of the new value, if one was given *)
Definition if_given {A} (P : A -> Prop) (new : option A) : Prop := match new with Some x => P x | None => True end.
