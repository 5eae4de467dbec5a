(* Copying: the properties of C33, proved *)
From Coq Require Import String.
From Verif Require Import Py SNum SNet SScript MNet MUtils MShared MTx MZcash MDecred STx SZcash SDecred SCopy LBase LTx LZcashTx LSapling LSprout LDecred LCopy.
Open Scope list_scope.
Open Scope Z_scope.

Lemma copy_outpoint_L : forall o tx_id index, outpoint_obj o ->
  let r := Outpoint_copy o tx_id index in
  Outpoint_copy o None None = Ok o /\
  r = Outpoint (Some (updated tx_id (op_tx_id o))) (Some (updated index (op_index o))) /\
  forall o', r = Ok o' ->
    outpoint_obj o' /\ op_tx_id o' = updated tx_id (op_tx_id o) /\ op_index o' = updated index (op_index o).
Proof.
  intros o a b O r. split; [exact O|]. split; [reflexivity|]. intros o' E. apply outpoint_fields in E. tauto.
Qed.

Lemma copy_txin_L : forall i outpoint stack_script redeem_script sequence, txin_obj i ->
  let r := TxIn_copy i outpoint stack_script redeem_script sequence in
  TxIn_copy i None None None None = Ok i /\
  r = TxIn (updated outpoint (ti_outpoint i)) (updated stack_script (ti_stack_script i))
           (updated redeem_script (ti_redeem_script i)) (updated sequence (ti_sequence i)) /\
  forall i', r = Ok i' ->
    ti_outpoint i' = updated outpoint (ti_outpoint i) /\
    ti_stack_script i' = updated stack_script (ti_stack_script i) /\
    ti_redeem_script i' = updated redeem_script (ti_redeem_script i) /\
    ti_sequence i' = updated sequence (ti_sequence i) /\
    (if_given outpoint_obj outpoint -> txin_obj i').
Proof.
  intros i o s q n O r. split; [exact (proj2 O)|]. split; [reflexivity|]. intros i' E. apply txin_fields in E.
  destruct E as [A [B [C [D E]]]]. repeat (split; [assumption|]). intros G. apply E. destruct o; [exact G|exact (proj1 O)].
Qed.

Lemma copy_txout_L : forall o value output_script, txout_obj o ->
  let r := TxOut_copy o value output_script in
  TxOut_copy o None None = Ok o /\
  r = TxOut (updated value (to_value o)) (updated output_script (to_output_script o)) /\
  forall o', r = Ok o' ->
    txout_obj o' /\ to_value o' = updated value (to_value o) /\
    to_output_script o' = updated output_script (to_output_script o).
Proof.
  intros o a b O r. split; [exact O|]. split; [reflexivity|]. intros o' E. apply txout_fields in E. tauto.
Qed.

Lemma copy_witness_L : forall w stack, witness_obj w ->
  let r := InputWitness_copy w stack in
  InputWitness_copy w None = Ok w /\
  r = InputWitness (updated stack (wit_stack w)) /\
  forall w', r = Ok w' ->
    wit_stack w' = updated stack (wit_stack w) /\ (if_given (Forall witem_obj) stack -> witness_obj w').
Proof.
  intros w s O r. split; [exact (proj2 O)|]. split; [reflexivity|]. intros w' E. apply witness_fields in E.
  destruct E as [A B]. split; [assumption|]. intros G. apply B. destruct s; [exact G|exact (proj1 O)].
Qed.

Lemma copy_tx_L : forall H net t version flag tx_ins tx_outs tx_witnesses lock_time, tx_obj H net t ->
  let r := Tx_copy H net t version flag tx_ins tx_outs tx_witnesses lock_time in
  Tx_copy H net t None None None None None None = Ok t /\
  r = Tx H net (updated version (tx_version t)) (updated_opt flag (tx_flag t)) (updated tx_ins (tx_tx_ins t))
         (updated tx_outs (tx_tx_outs t)) (updated_opt tx_witnesses (tx_tx_witnesses t))
         (updated lock_time (tx_lock_time t)) /\
  forall t', r = Ok t' ->
    tx_version t' = updated version (tx_version t) /\
    tx_flag t' = updated_opt flag (tx_flag t) /\
    tx_tx_ins t' = updated tx_ins (tx_tx_ins t) /\
    tx_tx_outs t' = updated tx_outs (tx_tx_outs t) /\
    tx_tx_witnesses t' = updated_opt tx_witnesses (tx_tx_witnesses t) /\
    tx_lock_time t' = updated lock_time (tx_lock_time t) /\
    (if_given (Forall txin_obj) tx_ins -> if_given (Forall txout_obj) tx_outs ->
     if_given (Forall witness_obj) tx_witnesses -> tx_obj H net t').
Proof.
  intros H net t v f i o w l O r. destruct O as [Oi [Oo [Ow O]]].
  split; [exact O|]. split; [reflexivity|]. intros t' E. apply tx_fields in E.
  destruct E as [E1 [E2 [E3 [E4 [E5 [E6 E7]]]]]]. repeat (split; [assumption|]). intros Gi Go Gw. apply E7.
  - destruct i; [exact Gi|exact Oi].
  - destruct o; [exact Go|exact Oo].
  - destruct w; [exact Gw|exact Ow].
Qed.

Lemma copy_overwinter_L : forall H net t tx_ins tx_outs lock_time expiry_height tx_joinsplits joinsplit_pubkey joinsplit_sig,
  overwinter_obj H net t ->
  let r := OverwinterTx_copy H net t tx_ins tx_outs lock_time expiry_height tx_joinsplits joinsplit_pubkey joinsplit_sig in
  let joinsplits := updated tx_joinsplits (ow_tx_joinsplits t) in
  OverwinterTx_copy H net t None None None None None None None = Ok t /\
  r = OverwinterTx H net (updated tx_ins (ow_tx_ins t)) (updated tx_outs (ow_tx_outs t))
        (updated lock_time (ow_lock_time t)) (updated expiry_height (ow_expiry_height t)) joinsplits
        (updated_opt joinsplit_pubkey (ow_joinsplit_pubkey t)) (updated_opt joinsplit_sig (ow_joinsplit_sig t)) /\
  forall t', r = Ok t' ->
    ow_tx_ins t' = updated tx_ins (ow_tx_ins t) /\
    ow_tx_outs t' = updated tx_outs (ow_tx_outs t) /\
    ow_lock_time t' = updated lock_time (ow_lock_time t) /\
    ow_expiry_height t' = updated expiry_height (ow_expiry_height t) /\
    ow_tx_joinsplits t' = joinsplits /\
    ow_joinsplit_pubkey t' = needed joinsplits (updated_opt joinsplit_pubkey (ow_joinsplit_pubkey t)) /\
    ow_joinsplit_sig t' = needed joinsplits (updated_opt joinsplit_sig (ow_joinsplit_sig t)) /\
    (if_given (Forall txin_obj) tx_ins -> if_given (Forall txout_obj) tx_outs ->
     if_given (Forall (sprout_joinsplit_obj net)) tx_joinsplits -> overwinter_obj H net t').
Proof.
  intros H net t i o l e j k s O r joinsplits. destruct O as [Oi [Oo [Oj O]]].
  split; [exact O|]. split; [reflexivity|]. intros t' E. apply overwinter_fields in E.
  destruct E as [E1 [E2 [E3 [E4 [E5 [E6 [E7 E8]]]]]]]. repeat (split; [assumption|]). intros Gi Go Gj. apply E8.
  - destruct i; [exact Gi|exact Oi].
  - destruct o; [exact Go|exact Oo].
  - destruct j; [exact Gj|exact Oj].
Qed.

Lemma copy_sapling_L : forall H net t tx_ins tx_outs lock_time expiry_height value_balance tx_shielded_spends tx_shielded_outputs
    tx_joinsplits joinsplit_pubkey joinsplit_sig binding_sig,
  sapling_obj H net t ->
  let r := SaplingTx_copy H net t tx_ins tx_outs lock_time expiry_height value_balance tx_shielded_spends
             tx_shielded_outputs tx_joinsplits joinsplit_pubkey joinsplit_sig binding_sig in
  let spends := updated tx_shielded_spends (sa_tx_shielded_spends t) in
  let outputs := updated tx_shielded_outputs (sa_tx_shielded_outputs t) in
  let joinsplits := updated tx_joinsplits (sa_tx_joinsplits t) in
  SaplingTx_copy H net t None None None None None None None None None None None = Ok t /\
  r = SaplingTx H net (updated tx_ins (sa_tx_ins t)) (updated tx_outs (sa_tx_outs t))
        (updated lock_time (sa_lock_time t)) (updated expiry_height (sa_expiry_height t))
        (updated value_balance (sa_value_balance t)) (Some spends) (Some outputs) (Some joinsplits)
        (updated_opt joinsplit_pubkey (sa_joinsplit_pubkey t)) (updated_opt joinsplit_sig (sa_joinsplit_sig t))
        (updated_opt binding_sig (sa_binding_sig t)) /\
  forall t', r = Ok t' ->
    sa_tx_ins t' = updated tx_ins (sa_tx_ins t) /\
    sa_tx_outs t' = updated tx_outs (sa_tx_outs t) /\
    sa_lock_time t' = updated lock_time (sa_lock_time t) /\
    sa_expiry_height t' = updated expiry_height (sa_expiry_height t) /\
    sa_value_balance t' = updated value_balance (sa_value_balance t) /\
    sa_tx_shielded_spends t' = spends /\
    sa_tx_shielded_outputs t' = outputs /\
    sa_tx_joinsplits t' = joinsplits /\
    sa_joinsplit_pubkey t' = needed joinsplits (updated_opt joinsplit_pubkey (sa_joinsplit_pubkey t)) /\
    sa_joinsplit_sig t' = needed joinsplits (updated_opt joinsplit_sig (sa_joinsplit_sig t)) /\
    sa_binding_sig t' = (match spends, outputs with
                         | [], [] => None
                         | _, _ => updated_opt binding_sig (sa_binding_sig t)
                         end) /\
    (if_given (Forall txin_obj) tx_ins -> if_given (Forall txout_obj) tx_outs ->
     if_given (Forall (spend_obj net)) tx_shielded_spends ->
     if_given (Forall (shielded_output_obj net)) tx_shielded_outputs ->
     if_given (Forall (sapling_joinsplit_obj net)) tx_joinsplits -> sapling_obj H net t').
Proof.
  intros H net t i o l e v sp so j k s b O r spends outputs joinsplits. destruct O as [Oi [Oo [Osp [Oso [Oj O]]]]].
  split; [exact O|]. split; [reflexivity|]. intros t' E. apply sapling_fields in E.
  destruct E as [E1 [E2 [E3 [E4 [E5 [E6 [E7 [E8 [E9 [E10 [E11 E12]]]]]]]]]]]. repeat (split; [assumption|]). intros Gi Go Gsp Gso Gj. apply E12.
  - destruct i; [exact Gi|exact Oi].
  - destruct o; [exact Go|exact Oo].
  - subst spends. destruct sp; [exact Gsp|exact Osp].
  - subst outputs. destruct so; [exact Gso|exact Oso].
  - destruct j; [exact Gj|exact Oj].
Qed.

Lemma copy_sprout_L : forall H net t version tx_ins tx_outs lock_time tx_joinsplits joinsplit_pubkey joinsplit_sig,
  sprout_obj H net t -> if_given all_bytes version ->
  let r := SproutTx_copy H net t version tx_ins tx_outs lock_time tx_joinsplits joinsplit_pubkey joinsplit_sig in
  SproutTx_copy H net t None None None None None None None = Ok t /\
  r = SproutTx H net (Some (updated version (sp_version t))) (updated tx_ins (sp_tx_ins t)) (updated tx_outs (sp_tx_outs t))
        (updated lock_time (sp_lock_time t)) (updated_opt tx_joinsplits (sp_tx_joinsplits t))
        (updated_opt joinsplit_pubkey (sp_joinsplit_pubkey t)) (updated_opt joinsplit_sig (sp_joinsplit_sig t)) /\
  forall t', r = Ok t' ->
    sp_version t' = updated version (sp_version t) /\
    sp_tx_ins t' = updated tx_ins (sp_tx_ins t) /\
    sp_tx_outs t' = updated tx_outs (sp_tx_outs t) /\
    sp_lock_time t' = updated lock_time (sp_lock_time t) /\
    sp_tx_joinsplits t' = updated_opt tx_joinsplits (sp_tx_joinsplits t) /\
    (* only version 2 has key and signature *)
    (sp_version t' = [1; 0; 0; 0] /\ sp_joinsplit_pubkey t' = None /\ sp_joinsplit_sig t' = None \/
     sp_version t' = [2; 0; 0; 0] /\
     sp_joinsplit_pubkey t' = updated_opt joinsplit_pubkey (sp_joinsplit_pubkey t) /\
     sp_joinsplit_sig t' = updated_opt joinsplit_sig (sp_joinsplit_sig t)) /\
    (if_given (Forall txin_obj) tx_ins -> if_given (Forall txout_obj) tx_outs ->
     if_given (Forall (sprout_joinsplit_obj net)) tx_joinsplits -> sprout_obj H net t').
Proof.
  intros H net t v i o l j k s O B r. pose proof (proj1 (sprout_obj_iff H net t) O) as [js [_ [_ [_ [J _]]]]]. destruct O as [Ov [Oi [Oo [Oj O]]]].
  split; [exact O|]. split; [reflexivity|]. intros t' E. subst r. unfold SproutTx_copy in E. rewrite J in *.
  assert (or_self_opt j (Some js) = Some (updated j js)) as N by (destruct j; reflexivity). rewrite N in E.
  apply sprout_fields in E; [|destruct v; [exact B|exact Ov]].
  destruct E as [E1 [E2 [E3 [E4 [E5 [E6 E7]]]]]]. split; [assumption|]. split; [assumption|]. split; [assumption|]. split; [assumption|].
  split; [rewrite E5; destruct j; reflexivity|]. split; [rewrite E1; exact E6|]. intros Gi Go Gj. apply E7.
  - destruct i; [exact Gi|exact Oi].
  - destruct o; [exact Go|exact Oo].
  - destruct j; [exact Gj|exact Oj].
Qed.

Lemma copy_decred_outpoint_L : forall net o tx_id index tree, doutpoint_obj net o ->
  let r := DecredOutpoint_copy net o tx_id index tree in
  DecredOutpoint_copy net o None None None = Ok o /\
  r = DecredOutpoint net (updated tx_id (dop_tx_id o)) (updated index (dop_index o)) (updated tree (dop_tree o)) /\
  forall o', r = Ok o' ->
    doutpoint_obj net o' /\ dop_tx_id o' = updated tx_id (dop_tx_id o) /\
    dop_index o' = updated index (dop_index o) /\ dop_tree o' = updated tree (dop_tree o).
Proof.
  intros net o a b c O r. split; [exact O|]. split; [reflexivity|]. intros o' E. apply doutpoint_fields in E. tauto.
Qed.

Lemma copy_decred_txin_L : forall net i outpoint sequence, dtxin_obj net i ->
  let r := DecredTxIn_copy net i outpoint sequence in
  DecredTxIn_copy net i None None = Ok i /\
  r = DecredTxIn net (updated outpoint (dti_outpoint i)) (updated sequence (dti_sequence i)) /\
  forall i', r = Ok i' ->
    dti_outpoint i' = updated outpoint (dti_outpoint i) /\ dti_sequence i' = updated sequence (dti_sequence i) /\
    (if_given (doutpoint_obj net) outpoint -> dtxin_obj net i').
Proof.
  intros net i o q O r. split; [exact (proj2 O)|]. split; [reflexivity|]. intros i' E. apply dtxin_fields in E.
  destruct E as [A [B C]]. repeat (split; [assumption|]). intros G. apply C. destruct o; [exact G|exact (proj1 O)].
Qed.

Lemma copy_decred_txout_L : forall net o value version output_script, dtxout_obj net o ->
  let r := DecredTxOut_copy net o value version output_script in
  DecredTxOut_copy net o None None None = Ok o /\
  r = DecredTxOut net (updated value (dto_value o)) (Some (updated version (dto_version o)))
        (updated output_script (dto_output_script o)) /\
  forall o', r = Ok o' ->
    dtxout_obj net o' /\ dto_value o' = updated value (dto_value o) /\
    dto_version o' = updated version (dto_version o) /\
    dto_output_script o' = updated output_script (dto_output_script o).
Proof.
  intros net o a b c O r. split; [exact O|]. split; [reflexivity|]. intros o' E. apply dtxout_fields in E. tauto.
Qed.

Lemma copy_decred_witness_L : forall net w value height index stack_script redeem_script, dwitness_obj net w ->
  let r := DecredInputWitness_copy net w value height index stack_script redeem_script in
  DecredInputWitness_copy net w None None None None None = Ok w /\
  r = DecredInputWitness net (updated value (dw_value w)) (updated height (dw_height w)) (updated index (dw_index w))
        (updated stack_script (dw_stack_script w)) (updated redeem_script (dw_redeem_script w)) /\
  forall w', r = Ok w' ->
    dwitness_obj net w' /\ dw_value w' = updated value (dw_value w) /\
    dw_height w' = updated height (dw_height w) /\ dw_index w' = updated index (dw_index w) /\
    dw_stack_script w' = updated stack_script (dw_stack_script w) /\
    dw_redeem_script w' = updated redeem_script (dw_redeem_script w).
Proof.
  intros net w a b c s q O r. split; [exact O|]. split; [reflexivity|]. intros w' E. apply dwitness_fields in E. tauto.
Qed.

Lemma copy_decred_tx_L : forall H net t version tx_ins tx_outs lock_time expiry tx_witnesses, dtx_obj H net t ->
  let r := DecredTx_copy H net t version tx_ins tx_outs lock_time expiry tx_witnesses in
  DecredTx_copy H net t None None None None None None = Ok t /\
  r = DecredTx H net (updated version (dtx_version t)) (updated tx_ins (dtx_tx_ins t)) (updated tx_outs (dtx_tx_outs t))
        (updated lock_time (dtx_lock_time t)) (updated expiry (dtx_expiry t)) (updated tx_witnesses (dtx_tx_witnesses t)) /\
  forall t', r = Ok t' ->
    dtx_version t' = updated version (dtx_version t) /\
    dtx_tx_ins t' = updated tx_ins (dtx_tx_ins t) /\
    dtx_tx_outs t' = updated tx_outs (dtx_tx_outs t) /\
    dtx_lock_time t' = updated lock_time (dtx_lock_time t) /\
    dtx_expiry t' = updated expiry (dtx_expiry t) /\
    dtx_tx_witnesses t' = updated tx_witnesses (dtx_tx_witnesses t) /\
    (if_given (Forall (dtxin_obj net)) tx_ins -> if_given (Forall (dtxout_obj net)) tx_outs ->
     if_given (Forall (dwitness_obj net)) tx_witnesses -> dtx_obj H net t').
Proof.
  intros H net t v i o l e w O r. destruct O as [Oi [Oo [Ow O]]].
  split; [exact O|]. split; [reflexivity|]. intros t' E. apply dtx_fields in E.
  destruct E as [E1 [E2 [E3 [E4 [E5 [E6 E7]]]]]]. repeat (split; [assumption|]). intros Gi Go Gw. apply E7.
  - destruct i; [exact Gi|exact Oi].
  - destruct o; [exact Go|exact Oo].
  - destruct w; [exact Gw|exact Ow].
Qed.

Lemma copy_keeps_witness_L : forall H net t version flag tx_ins tx_outs tx_witnesses lock_time t', tx_obj H net t ->
  Tx_copy H net t version flag tx_ins tx_outs tx_witnesses lock_time = Ok t' ->
  (tx_flag t <> None -> tx_flag t' <> None) /\ (tx_tx_witnesses t <> None -> tx_tx_witnesses t' <> None).
Proof.
  intros H net t v f i o w l t' O E. destruct (copy_tx_L H net t v f i o w l O) as [_ [_ F]]. destruct (F t' E) as [_ [F1 [_ [_ [F2 _]]]]].
  rewrite F1, F2. destruct f, w; cbn; split; auto; discriminate.
Qed.
Lemma copy_overwinter_drops_L : forall H net t t',
  overwinter_obj H net t -> ow_tx_joinsplits t <> [] ->
  OverwinterTx_copy H net t None None None None (Some []) None None = Ok t' ->
  ow_joinsplit_pubkey t <> None /\ ow_joinsplit_sig t <> None /\ ow_joinsplit_pubkey t' = None /\ ow_joinsplit_sig t' = None.
Proof.
  intros H net t t' O N E. destruct (copy_overwinter_L H net t None None None None (Some []) None None O) as [_ [_ F]].
  destruct (F t' E) as [_ [_ [_ [_ [_ [F1 [F2 _]]]]]]]. cbn in F1, F2.
  apply overwinter_obj_iff in O. destruct O as [_ [_ [_ [A _]]]]. unfold ow_args_ok in A.
  destruct (Z.eqb_spec (zlen (ow_tx_joinsplits t)) 0) as [Z0|Z0]; [apply zlen_0 in Z0; contradiction|].
  rewrite !andb_true_iff in A. destruct A as [[[[[_ W] _] _] _] _]. cbn [orb] in W.
  rewrite andb_true_iff in W. destruct W as [W1 W2].
  split; [destruct (ow_joinsplit_pubkey t); discriminate|]. split; [destruct (ow_joinsplit_sig t); discriminate|]. auto.
Qed.
