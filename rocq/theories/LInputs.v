(* Lemmas for C92: the functions of tx_builder.py that make inputs, Decred
   witnesses and Decred transactions *)
From Coq Require Import String.
From Verif Require Import Py SNum SNet SHash SScript SBech32 SAddr MNet MUtils MShared MScript MTx MZcash MDecred MBuilder
  STx SZcash SDecred LBase LNet LUtils LVarint LScript LTx LTxParse LZcash LZcashTx LDecred LDecredTop LAddr LCopy LBuilder LBuilderTx.
Open Scope list_scope.
Open Scope Z_scope.

Section Inputs.
Variables (name : str) (net : network).
Hypothesis En : get_network name = Ok net.

Lemma witness_is_legacy o q : make_witness_input net o q = make_legacy_input net o [] [] q.
Proof. reflexivity. Qed.
Lemma legacy_foreign_decred o stack redeem q : In name decred_names -> 0 <= q < 2 ^ 32 ->
  make_legacy_input net (AnyOutpoint o) stack redeem q = Err ValueError.
Proof. intros I R. unfold make_legacy_input. rewrite padded4, word_Ok by (cbn; lia). cbn [bind]. rewrite (on_decred_true name net En I). reflexivity. Qed.
Lemma legacy_foreign_plain o stack redeem q : ~ In name decred_names -> 0 <= q < 2 ^ 32 ->
  make_legacy_input net (AnyDecredOutpoint o) stack redeem q = Err ValueError.
Proof. intros N R. unfold make_legacy_input. rewrite padded4, word_Ok by (cbn; lia). cbn [bind]. rewrite (on_decred_false name net En N). reflexivity. Qed.
Lemma legacy_decred_scripts o stack redeem q : In name decred_names ->
  make_legacy_input net o stack redeem q = make_decred_input net o q.
Proof. intros I. unfold make_legacy_input, make_decred_input. rewrite (on_decred_true name net En I). reflexivity. Qed.
Lemma decred_input_overflow o q : ~ 0 <= q < 2 ^ 32 -> make_decred_input net o q = Err OverflowError.
Proof. intros R. unfold make_decred_input. rewrite padded4, word_Err by (cbn; lia). reflexivity. Qed.
Lemma decred_input_elsewhere o q : ~ In name decred_names -> 0 <= q < 2 ^ 32 -> make_decred_input net o q = Err ValueError.
Proof.
  intros N R. unfold make_decred_input. rewrite padded4, word_Ok by (cbn; lia). cbn [bind]. unfold decred_in. destruct o as [o|o]; [reflexivity|].
  pose proof (top_elsewhere toy name net En N) as [_ [X _]].
  rewrite X. reflexivity.
Qed.
End Inputs.
