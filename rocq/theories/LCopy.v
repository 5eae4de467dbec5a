(* Copying objects *)
From Coq Require Import String.
From Verif Require Import Py SNum SNet SScript MNet MUtils MShared MTx MZcash MDecred STx SZcash SDecred SCopy LBase LUtils LTx LZcash LZcashTx LSapling LSprout LDecred.
Open Scope list_scope.
Open Scope Z_scope.

Lemma or_self_updated {A} (n : option A) o : or_self n o = updated n o.
Proof. reflexivity. Qed.

(** ** Bitcoin *)

Lemma outpoint_copy o a b : Outpoint_copy o a b = Outpoint (Some (updated a (op_tx_id o))) (Some (updated b (op_index o))).
Proof. reflexivity. Qed.
Lemma outpoint_fields a b o : Outpoint (Some a) (Some b) = Ok o -> op_tx_id o = a /\ op_index o = b /\ outpoint_obj o.
Proof.
  intros E. unfold outpoint_obj. enough (op_tx_id o = a /\ op_index o = b) as [<- <-] by auto.
  rewrite Outpoint_spec in E. destruct (_ && _)%bool; [|discriminate]. apply Ok_inj in E. subst o. auto.
Qed.
Lemma txin_fields o s r q i : TxIn o s r q = Ok i ->
  ti_outpoint i = o /\ ti_stack_script i = s /\ ti_redeem_script i = r /\ ti_sequence i = q /\
  (outpoint_obj o -> txin_obj i).
Proof.
  intros E. enough (ti_outpoint i = o /\ ti_stack_script i = s /\ ti_redeem_script i = r /\ ti_sequence i = q) as [<- [<- [<- <-]]].
  { repeat split; auto. }
  rewrite TxIn_spec in E. destruct (_ && _)%bool; [|discriminate]. apply Ok_inj in E. subst i. auto.
Qed.
Lemma txout_fields v s o : TxOut v s = Ok o -> to_value o = v /\ to_output_script o = s /\ txout_obj o.
Proof.
  intros E. unfold txout_obj. enough (to_value o = v /\ to_output_script o = s) as [<- <-] by auto.
  rewrite TxOut_spec in E. destruct (_ && _)%bool; [|discriminate]. apply Ok_inj in E. subst o. auto.
Qed.
Lemma witness_fields s w : InputWitness s = Ok w -> wit_stack w = s /\ (Forall witem_obj s -> witness_obj w).
Proof.
  intros E. enough (wit_stack w = s) as <- by (split; [reflexivity|split; auto]).
  rewrite InputWitness_spec in E. destruct (_ <? _); [|discriminate]. apply Ok_inj in E. subst w. auto.
Qed.

Section Bitcoin.
Variables (H : hashes) (net : network).
Lemma tx_fields v f ins outs ws lt t : Tx H net v f ins outs ws lt = Ok t ->
  tx_version t = v /\ tx_flag t = f /\ tx_tx_ins t = ins /\ tx_tx_outs t = outs /\ tx_tx_witnesses t = ws /\ tx_lock_time t = lt /\
  (Forall txin_obj ins -> Forall txout_obj outs -> match ws with Some l => Forall witness_obj l | None => True end -> tx_obj H net t).
Proof.
  intros E. enough (tx_version t = v /\ tx_flag t = f /\ tx_tx_ins t = ins /\ tx_tx_outs t = outs /\ tx_tx_witnesses t = ws /\ tx_lock_time t = lt)
    as [<- [<- [<- [<- [<- <-]]]]].
  { repeat split; auto. }
  apply Tx_Ok in E. destruct E as [_ ->]. unfold tx_of. cbn. auto 10.
Qed.

(** ** Zcash *)

Lemma overwinter_fields ins outs lock expiry js pk sg t : OverwinterTx H net ins outs lock expiry js pk sg = Ok t ->
  ow_tx_ins t = ins /\ ow_tx_outs t = outs /\ ow_lock_time t = lock /\ ow_expiry_height t = expiry /\
  ow_tx_joinsplits t = js /\ ow_joinsplit_pubkey t = needed js pk /\ ow_joinsplit_sig t = needed js sg /\
  (Forall txin_obj ins -> Forall txout_obj outs -> Forall (sprout_joinsplit_obj net) js -> overwinter_obj H net t).
Proof.
  intros E. pose proof (overwinter_idem _ _ _ _ _ _ _ _ _ _ E) as I. apply OverwinterTx_Ok in E. destruct E as [_ E].
  assert (ow_tx_ins t = ins /\ ow_tx_outs t = outs /\ ow_lock_time t = lock /\ ow_expiry_height t = expiry /\
    ow_tx_joinsplits t = js /\ ow_joinsplit_pubkey t = needed js pk /\ ow_joinsplit_sig t = needed js sg) as F.
  { subst t. unfold ow_of. cbn. destruct js; cbn; repeat split. }
  destruct F as [F1 [F2 [F3 [F4 [F5 [F6 F7]]]]]]. repeat (split; [assumption|]). intros. unfold overwinter_obj. rewrite F1, F2, F5 in *. auto.
Qed.

Lemma sapling_fields ins outs lock expiry vb sp so js pk sg bs t :
  SaplingTx H net ins outs lock expiry vb (Some sp) (Some so) (Some js) pk sg bs = Ok t ->
  sa_tx_ins t = ins /\ sa_tx_outs t = outs /\ sa_lock_time t = lock /\ sa_expiry_height t = expiry /\ sa_value_balance t = vb /\
  sa_tx_shielded_spends t = sp /\ sa_tx_shielded_outputs t = so /\
  sa_tx_joinsplits t = js /\ sa_joinsplit_pubkey t = needed js pk /\ sa_joinsplit_sig t = needed js sg /\
  sa_binding_sig t = (match sp, so with [], [] => None | _, _ => bs end) /\
  (Forall txin_obj ins -> Forall txout_obj outs -> Forall (spend_obj net) sp -> Forall (shielded_output_obj net) so ->
   Forall (sapling_joinsplit_obj net) js -> sapling_obj H net t).
Proof.
  intros E. pose proof (sapling_idem _ _ _ _ _ _ _ _ _ _ _ _ _ _ E) as I. apply SaplingTx_Ok in E. destruct E as [_ E].
  assert (sa_tx_ins t = ins /\ sa_tx_outs t = outs /\ sa_lock_time t = lock /\ sa_expiry_height t = expiry /\ sa_value_balance t = vb /\
    sa_tx_shielded_spends t = sp /\ sa_tx_shielded_outputs t = so /\
    sa_tx_joinsplits t = js /\ sa_joinsplit_pubkey t = needed js pk /\ sa_joinsplit_sig t = needed js sg /\
    sa_binding_sig t = (match sp, so with [], [] => None | _, _ => bs end)) as F.
  { subst t. unfold sa_of. cbn. repeat split.
    - destruct js; reflexivity.
    - destruct js; reflexivity.
    - pose proof (zlen_nonneg sp). pose proof (zlen_nonneg so).
      destruct sp as [|x sp], so as [|y so]; try reflexivity;
        rewrite ?zlen_cons, ?zlen_nil in *; destruct (Z.eqb_spec (zlen so + 1 + 0) 0) || idtac;
        match goal with |- (if negb (?a =? 0) then _ else _) = _ => destruct (Z.eqb_spec a 0) as [B|B]; [exfalso|reflexivity] end;
        pose proof (zlen_nonneg so); pose proof (zlen_nonneg sp); rewrite ?zlen_cons, ?zlen_nil in B; lia. }
  destruct F as [F1 [F2 [F3 [F4 [F5 [F6 [F7 [F8 [F9 [F10 F11]]]]]]]]]].
  repeat (split; [assumption|]). intros. unfold sapling_obj. rewrite F1, F2, F6, F7, F8 in *. auto 10.
Qed.

Lemma sprout_fields v ins outs lock js pk sg t : all_bytes v -> SproutTx H net (Some v) ins outs lock (Some js) pk sg = Ok t ->
  sp_version t = v /\ sp_tx_ins t = ins /\ sp_tx_outs t = outs /\ sp_lock_time t = lock /\ sp_tx_joinsplits t = Some js /\
  (v = [1; 0; 0; 0] /\ sp_joinsplit_pubkey t = None /\ sp_joinsplit_sig t = None \/
   v = [2; 0; 0; 0] /\ sp_joinsplit_pubkey t = pk /\ sp_joinsplit_sig t = sg) /\
  (Forall txin_obj ins -> Forall txout_obj outs -> Forall (sprout_joinsplit_obj net) js -> sprout_obj H net t).
Proof.
  intros B E. pose proof (proj1 (all_bytes_is_bytes _) B) as B'. pose proof (sprout_idem _ _ _ _ _ _ _ _ _ _ B' E) as I.
  apply SproutTx_Ok in E; [|exact B']. destruct E as [A E].
  assert (sp_version t = v /\ sp_tx_ins t = ins /\ sp_tx_outs t = outs /\ sp_lock_time t = lock /\ sp_tx_joinsplits t = Some js /\
  (v = [1; 0; 0; 0] /\ sp_joinsplit_pubkey t = None /\ sp_joinsplit_sig t = None \/
   v = [2; 0; 0; 0] /\ sp_joinsplit_pubkey t = pk /\ sp_joinsplit_sig t = sg)) as F.
  { subst t. unfold sp_of. cbn. repeat (split; [reflexivity|]). unfold sp_args_ok, sp_version_ok in A.
    destruct (leqb v v2) eqn:V2; [right; apply leqb_eq in V2; auto|].
    destruct (leqb v v1) eqn:V1; [left; apply leqb_eq in V1; auto|]. rewrite !andb_false_r in A. discriminate. }
  destruct F as [F1 [F2 [F3 [F4 [F5 F6]]]]].
  repeat (split; [assumption|]). intros. unfold sprout_obj. rewrite F1, F2, F3, F5 in *. auto 10.
Qed.

(** ** Decred *)
Ltac decred_case E := destruct (decred_only net) as [[]|e] eqn:D; [|exfalso; revert E;
  unfold DecredOutpoint, DecredTxIn, DecredTxOut, DecredInputWitness, DecredTx; rewrite D; discriminate].

Lemma doutpoint_fields a b c o : DecredOutpoint net a b c = Ok o ->
  dop_tx_id o = a /\ dop_index o = b /\ dop_tree o = c /\ doutpoint_obj net o.
Proof.
  intros E. unfold doutpoint_obj. enough (dop_tx_id o = a /\ dop_index o = b /\ dop_tree o = c) as [<- [<- <-]] by auto.
  decred_case E. rewrite (DecredOutpoint_spec net D) in E. destruct (_ && _)%bool; [|discriminate]. apply Ok_inj in E. subst o. auto.
Qed.
Lemma dtxin_fields o q i : DecredTxIn net o q = Ok i ->
  dti_outpoint i = o /\ dti_sequence i = q /\ (doutpoint_obj net o -> dtxin_obj net i).
Proof.
  intros E. unfold dtxin_obj. enough (dti_outpoint i = o /\ dti_sequence i = q) as [<- <-] by auto.
  decred_case E. rewrite (DecredTxIn_spec net D) in E. destruct (_ && _)%bool; [|discriminate]. apply Ok_inj in E. subst i. auto.
Qed.
Lemma dtxout_fields v w s o : DecredTxOut net v (Some w) s = Ok o ->
  dto_value o = v /\ dto_version o = w /\ dto_output_script o = s /\ dtxout_obj net o.
Proof.
  intros E. unfold dtxout_obj. enough (dto_value o = v /\ dto_version o = w /\ dto_output_script o = s) as [<- [<- <-]] by auto.
  decred_case E. rewrite (DecredTxOut_spec net D) in E. destruct (_ && _)%bool; [|discriminate]. apply Ok_inj in E. subst o. auto.
Qed.
Lemma dwitness_fields v h i s r w : DecredInputWitness net v h i s r = Ok w ->
  dw_value w = v /\ dw_height w = h /\ dw_index w = i /\ dw_stack_script w = s /\ dw_redeem_script w = r /\ dwitness_obj net w.
Proof.
  intros E. unfold dwitness_obj.
  enough (dw_value w = v /\ dw_height w = h /\ dw_index w = i /\ dw_stack_script w = s /\ dw_redeem_script w = r) as [<- [<- [<- [<- <-]]]] by auto 10.
  decred_case E. rewrite (DecredInputWitness_spec net D) in E. destruct (_ && _)%bool; [|discriminate]. apply Ok_inj in E. subst w. cbn. auto 10.
Qed.
Lemma dtx_fields v ins outs lt ex ws t : DecredTx H net v ins outs lt ex ws = Ok t ->
  dtx_version t = v /\ dtx_tx_ins t = ins /\ dtx_tx_outs t = outs /\ dtx_lock_time t = lt /\ dtx_expiry t = ex /\ dtx_tx_witnesses t = ws /\
  (Forall (dtxin_obj net) ins -> Forall (dtxout_obj net) outs -> Forall (dwitness_obj net) ws -> dtx_obj H net t).
Proof.
  intros E. unfold dtx_obj.
  enough (dtx_version t = v /\ dtx_tx_ins t = ins /\ dtx_tx_outs t = outs /\ dtx_lock_time t = lt /\ dtx_expiry t = ex /\ dtx_tx_witnesses t = ws)
    as [<- [<- [<- [<- [<- <-]]]]] by auto 15.
  decred_case E. rewrite (DecredTx_spec H net D) in E. destruct (dtx_args_ok _ _ _ _ _ _); [|discriminate]. apply Ok_inj in E. subst t. cbn. auto 10.
Qed.
End Bitcoin.
