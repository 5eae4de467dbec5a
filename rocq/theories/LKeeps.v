(* Tactics and lemmas for C107 *)
From Coq Require Import Lia.
From Verif Require Import Py MClass SKeeps LBase.
Open Scope list_scope.
Open Scope Z_scope.

(* the steps of a call that returned an object *)
Ltac parts E := repeat match type of E with (bind ?x _ = Ok _) => destruct x eqn:?; cbn [bind] in E; [|discriminate E] end.
(* each attribute is looked up *)
Ltac kept := repeat (apply Forall_cons; [reflexivity|]); apply Forall_nil.
Ltac items := eexists; (split; [eassumption|reflexivity]).

Lemma empty_or_not (vs : list pv) s : sequence s = Ok vs -> (empty s /\ (zlen vs =? 0) = true) \/ (~ empty s /\ (zlen vs =? 0) = false).
Proof.
  intros E. unfold empty. rewrite E. destruct vs as [|a vs]; [left; split; reflexivity|right; split; [discriminate|]]. apply Z.eqb_neq. unfold zlen. cbn [List.length]. lia.
Qed.
