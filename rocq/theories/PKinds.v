(* C77 and C92: the type of script_sig, and outputs with a version.  The calls are in MClass.v, [make_output] in MBuilder.v, [the_output] in
   STx.v, [dtxout_obj] in SDecred.v *)
From Coq Require Import String Lia.
From Verif Require Import Py SNum SNet STx SDecred MNet MUtils MShared MTx MDecred MClass MBuilder LBase LNet LTx LDecred LDecredTop LBuilder PDecred.
Open Scope list_scope.
Open Scope Z_scope.

(* C77: the attribute script_sig is of the type of the stack script: bytes, which cannot be changed, or a bytearray, which can.
   ByteData objects cannot be added and are refused *)
Theorem script_sig_type : forall s r,
  (forall o q v, call_TxIn o s r q = Ok v -> exists a b, byte_content r = Some b /\
     ((s = PBytes a /\ attribute v (lit "script_sig") = Ok (PBytes (a ++ b))) \/ (s = PArray a /\ attribute v (lit "script_sig") = Ok (PArray (a ++ b))))) /\
  (forall net x h i v, call_DecredInputWitness net x h i s r = Ok v -> exists a b, byte_content r = Some b /\
     ((s = PBytes a /\ attribute v (lit "script_sig") = Ok (PBytes (a ++ b))) \/ (s = PArray a /\ attribute v (lit "script_sig") = Ok (PArray (a ++ b))))).
Proof.
  assert (forall s r c, plus s r = Ok c -> exists a b, byte_content r = Some b /\ ((s = PBytes a /\ c = PBytes (a ++ b)) \/ (s = PArray a /\ c = PArray (a ++ b)))) as P.
  { intros s r c E. unfold plus in E. destruct s, r; try discriminate E; apply Ok_inj in E; subst c; do 2 eexists; split; try reflexivity; auto. }
  intros s r. split.
  - intros o q v E. unfold call_TxIn in E.
    repeat match type of E with (bind ?x _ = Ok _) => destruct x eqn:?; cbn [bind] in E; [|discriminate E] end.
    match goal with X : plus s r = Ok _ |- _ => destruct (P _ _ _ X) as [a' [b' [B C]]] end. exists a', b'. split; [exact B|]. apply Ok_inj in E. subst v.
    destruct C as [[-> ->]|[-> ->]]; [left|right]; split; reflexivity.
  - intros net x h i v E. unfold call_DecredInputWitness in E.
    repeat match type of E with (bind ?x _ = Ok _) => destruct x eqn:?; cbn [bind] in E; [|discriminate E] end.
    match goal with X : plus s r = Ok _ |- _ => destruct (P _ _ _ X) as [a' [b' [B C]]] end. exists a', b'. split; [exact B|]. apply Ok_inj in E. subst v.
    destruct C as [[-> ->]|[-> ->]]; [left|right]; split; reflexivity.
Qed.
Print Assumptions script_sig_type.
Example script_sig_type_ex : exists v, call_TxIn (PBytes (repeat 7 36)) (PArray [81]) (PBytes [82]) (PBytes (repeat 255 4)) = Ok v /\
  attribute v (lit "script_sig") = Ok (PArray [81; 82]).
Proof. eexists. split; [vm_compute; reflexivity|reflexivity]. Qed.

(* C92: _make_output.  On Decred it takes a version of two bytes; elsewhere the version is not looked at *)
Theorem make_output_exact : forall name net value script version, get_network name = Ok net ->
  (~ In name decred_names -> len value = 8 -> len script < 2 ^ 64 ->
     exists o, make_output net value script version = Ok (AnyOut o) /\ txout_obj o /\ to_value o = value /\ to_output_script o = script) /\
  (~ In name decred_names -> len value <> 8 \/ 2 ^ 64 <= len script -> make_output net value script version = Err ValueError) /\
  (In name decred_names -> forall v, version = Some v -> len value = 8 -> len v = 2 -> len script < 2 ^ 64 ->
     exists o, make_output net value script version = Ok (AnyDecredOut o) /\ dtxout_obj net o /\ dto_value o = value /\ dto_version o = v /\ dto_output_script o = script) /\
  (In name decred_names -> version = None \/ (exists v, version = Some v /\ len v <> 2) \/ len value <> 8 \/ 2 ^ 64 <= len script ->
     make_output net value script version = Err ValueError).
Proof.
  intros name net value script version En. unfold make_output. change len with (@zlen Z). split; [|split; [|split]].
  - intros N V L. rewrite (on_decred_false name net En N), TxOut_spec, V. destruct (Z.ltb_spec (zlen script) (2 ^ 64)); [|lia]. cbn [Z.eqb Pos.eqb andb bind].
    eexists. split; [reflexivity|]. split; [|split; reflexivity]. apply txout_obj_iff. cbn. auto.
  - intros N X. rewrite (on_decred_false name net En N), TxOut_spec. destruct (Z.eqb_spec (zlen value) 8), (Z.ltb_spec (zlen script) (2 ^ 64)); try lia; reflexivity.
  - intros I v -> V W L. rewrite (on_decred_true name net En I), (DecredTxOut_spec net (decred_only_Ok name net En I)), V, W. destruct (Z.ltb_spec (zlen script) (2 ^ 64)); [|lia].
    cbn [Z.eqb Pos.eqb andb bind]. eexists. split; [reflexivity|]. split; [|repeat split]. apply (dtxout_obj_iff net (decred_only_Ok name net En I)). cbn. auto.
  - intros I X. destruct version as [v|]; [|exact (eq_trans eq_refl (make_output_decred name net En value script I) : _)].
    rewrite (on_decred_true name net En I), (DecredTxOut_spec net (decred_only_Ok name net En I)).
    destruct (Z.eqb_spec (zlen value) 8), (Z.eqb_spec (zlen v) 2), (Z.ltb_spec (zlen script) (2 ^ 64)); try reflexivity.
    exfalso. destruct X as [X|[[w [X Y]]|X]]; [discriminate X|injection X as ->; lia|lia].
Qed.
Print Assumptions make_output_exact.
Example make_output_version_ex : exists o, make_output DecredMain (repeat 1 8) [81] (Some [0; 0]) = Ok (AnyDecredOut o) /\ dto_bytes o = repeat 1 8 ++ [0; 0; 1; 81].
Proof. eexists. split; [vm_compute; reflexivity|reflexivity]. Qed.
