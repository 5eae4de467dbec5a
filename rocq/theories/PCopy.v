(* C33: copying objects *)
From Coq Require Import String.
From Verif Require Import Py SNum SNet SScript MNet MUtils MShared MTx MZcash MDecred STx SZcash SDecred SCopy SHash LTx LZcashTx LSapling LSprout LDecred LDecredTop LCopyTop PTx PZcash PDecred.
Open Scope list_scope.
Open Scope Z_scope.

(* objects to copy *)
Lemma ex_overwinter_full : forall H, exists t t', overwinter_obj H ZcashOverwinterMain t /\ ow_tx_joinsplits t = [ex_sprout_joinsplit] /\
  ow_lock_time t = repeat 0 4 /\
  (exists t2, OverwinterTx_copy H ZcashOverwinterMain t None None None None (Some []) None None = Ok t2) /\
  OverwinterTx_copy H ZcashOverwinterMain t None None (Some [1; 2; 3; 4]) None None None None = Ok t' /\ ow_lock_time t' = [1; 2; 3; 4].
Proof.
  intros H. destruct ex_parts as [Fi [Fo _]]. destruct ex_sprout_joinsplit_obj as [J _].
  set (mk lock := ow_of H ZcashOverwinterMain [ex_input] [ex_output] lock (repeat 1 4) [ex_sprout_joinsplit] (Some (repeat 2 32)) (Some (repeat 3 64))).
  exists (mk (repeat 0 4)), (mk [1; 2; 3; 4]). split; [|split; [reflexivity|split; [reflexivity|split; [eexists|split; [|reflexivity]]]]].
  - apply overwinter_obj_iff. split; [exact Fi|]. split; [exact Fo|]. split; [repeat constructor; apply J|]. split; [vm_compute; reflexivity|reflexivity].
  - unfold OverwinterTx_copy. apply OverwinterTx_Ok. split; [vm_compute; reflexivity|reflexivity].
  - unfold OverwinterTx_copy. apply OverwinterTx_Ok. split; [vm_compute; reflexivity|reflexivity].
Qed.
Lemma ex_sapling_copy : forall H, exists t t', sapling_obj H ZcashSaplingMain t /\
  SaplingTx_copy H ZcashSaplingMain t None (Some [ex_output; ex_output; ex_output]) None None None None None None None None None = Ok t' /\
  sa_tx_outs t <> sa_tx_outs t'.
Proof.
  intros H. destruct ex_parts as [Fi [Fo _]]. destruct ex_spend_obj as [S U].
  set (mk outs := sa_of H ZcashSaplingMain [ex_input] outs (repeat 0 4) (repeat 1 4) (repeat 255 8) [ex_spend] [ex_shielded_output] [] None None (Some (repeat 3 64))).
  exists (mk [ex_output]), (mk [ex_output; ex_output; ex_output]). split; [|split; [|discriminate]].
  - split; [exact Fi|]. split; [exact Fo|]. split; [repeat constructor; apply S|]. split; [repeat constructor; apply U|]. split; [constructor|].
    apply SaplingTx_Ok. split; [vm_compute; reflexivity|reflexivity].
  - unfold SaplingTx_copy. apply SaplingTx_Ok. split; [vm_compute; reflexivity|reflexivity].
Qed.
Lemma ex_sprout_copy : forall H, exists t t', sprout_obj H ZcashSproutMain t /\ sp_joinsplit_pubkey t <> None /\
  SproutTx_copy H ZcashSproutMain t None None (Some [ex_output; ex_output]) None None None None = Ok t'.
Proof.
  intros H. destruct ex_parts as [Fi [Fo _]]. destruct ex_sprout_joinsplit_obj as [_ J].
  assert (all_bytes [2; 0; 0; 0]) as B by (repeat constructor; lia). pose proof (proj1 (LUtils.all_bytes_is_bytes _) B) as B'.
  set (mk outs := sp_of H ZcashSproutMain [2; 0; 0; 0] [ex_input] outs (repeat 0 4) [ex_sprout_joinsplit] (Some (repeat 2 32)) (Some (repeat 3 64))).
  exists (mk [ex_output]), (mk [ex_output; ex_output]). split; [|split; [discriminate|]].
  - apply sprout_obj_iff. exists [ex_sprout_joinsplit]. split; [exact B|]. split; [exact Fi|]. split; [exact Fo|]. split; [reflexivity|].
    split; [repeat constructor; apply J|]. split; [vm_compute; reflexivity|reflexivity].
  - unfold SproutTx_copy. apply SproutTx_Ok; [exact B'|]. split; [vm_compute; reflexivity|reflexivity].
Qed.
Lemma ex_decred_copy : forall H, exists t t', dtx_obj H DecredMain t /\
  DecredTx_copy H DecredMain t None None None (Some [1; 2; 3; 4]) None None = Ok t' /\ dtx_lock_time t <> dtx_lock_time t' /\
  exists i o w i' o' w' p p', dtxin_obj DecredMain i /\ dtxout_obj DecredMain o /\ dwitness_obj DecredMain w /\ doutpoint_obj DecredMain p /\
  DecredTxIn_copy DecredMain i None (Some [0; 0; 0; 0]) = Ok i' /\ DecredTxOut_copy DecredMain o None (Some [1; 0]) None = Ok o' /\
  DecredInputWitness_copy DecredMain w None None None (Some []) None = Ok w' /\ DecredOutpoint_copy DecredMain p None None (Some [1]) = Ok p'.
Proof.
  intros H. pose proof (decred_only_Ok (lit "decred_main") DecredMain eq_refl (or_introl eq_refl)) as D.
  set (p := {| dop_tx_id := repeat 7 32; dop_index := repeat 0 4; dop_tree := [0]; dop_bytes := repeat 7 32 ++ repeat 0 4 ++ [0] |}).
  set (i := {| dti_outpoint := p; dti_sequence := repeat 255 4; dti_bytes := dop_bytes p ++ repeat 255 4 |}).
  set (o := {| dto_value := repeat 0 8; dto_version := [0; 0]; dto_output_script_len := 1; dto_output_script := [81]; dto_bytes := repeat 0 8 ++ [0; 0; 1; 81] |}).
  set (w := dwitness_of (repeat 0 8) (repeat 0 4) (repeat 0 4) [82] [83]).
  set (mk l := dtx_of H [1; 0; 0; 0] [i] [o] l (repeat 9 4) [w]).
  assert (dtxin_obj DecredMain i) as Oi by (split; vm_compute; reflexivity).
  assert (dtxout_obj DecredMain o) as Oo by (vm_compute; reflexivity).
  assert (dwitness_obj DecredMain w) as Ow by (vm_compute; reflexivity).
  exists (mk (repeat 0 4)), (mk [1; 2; 3; 4]). split; [|split; [|split; [discriminate|]]].
  - split; [constructor; [exact Oi|constructor]|]. split; [constructor; [exact Oo|constructor]|]. split; [constructor; [exact Ow|constructor]|].
    rewrite (DecredTx_spec H DecredMain D). reflexivity.
  - unfold DecredTx_copy. rewrite (DecredTx_spec H DecredMain D). reflexivity.
  - exists i, o, w. do 3 eexists. exists p. eexists. repeat (split; [first [assumption|vm_compute; reflexivity]|]). vm_compute. reflexivity.
Qed.

Theorem copy_outpoint : forall o tx_id index, outpoint_obj o ->
  let r := Outpoint_copy o tx_id index in
  Outpoint_copy o None None = Ok o /\
  r = Outpoint (Some (updated tx_id (op_tx_id o))) (Some (updated index (op_index o))) /\
  forall o', r = Ok o' ->
    outpoint_obj o' /\ op_tx_id o' = updated tx_id (op_tx_id o) /\ op_index o' = updated index (op_index o).
Proof. exact copy_outpoint_L. Qed.
Print Assumptions copy_outpoint.

(* null outpoint of some transaction: the index is replaced, the id stays; a bad width is refused *)
Example copy_outpoint_ex : outpoint_obj (ti_outpoint ex_input) /\
  (exists o', Outpoint_copy (ti_outpoint ex_input) None (Some [9; 0; 0; 0]) = Ok o' /\ op_bytes o' = repeat 7 32 ++ [9; 0; 0; 0]) /\
  Outpoint_copy (ti_outpoint ex_input) None (Some [9]) = Err ValueError.
Proof. split; [vm_compute; reflexivity|]. split; [eexists; split; vm_compute; reflexivity|vm_compute; reflexivity]. Qed.

Theorem copy_txin : forall i outpoint stack_script redeem_script sequence, txin_obj i ->
  let r := TxIn_copy i outpoint stack_script redeem_script sequence in
  TxIn_copy i None None None None = Ok i /\
  r = TxIn (updated outpoint (ti_outpoint i)) (updated stack_script (ti_stack_script i))
           (updated redeem_script (ti_redeem_script i)) (updated sequence (ti_sequence i)) /\
  forall i', r = Ok i' ->
    ti_outpoint i' = updated outpoint (ti_outpoint i) /\
    ti_stack_script i' = updated stack_script (ti_stack_script i) /\
    ti_redeem_script i' = updated redeem_script (ti_redeem_script i) /\
    ti_sequence i' = updated sequence (ti_sequence i) /\
    (if_given outpoint_obj outpoint -> txin_obj i').
Proof. exact copy_txin_L. Qed.
Print Assumptions copy_txin.

Example copy_txin_ex : txin_obj ex_input /\
  exists i', TxIn_copy ex_input None (Some [81; 82]) None (Some [1; 2; 3; 4]) = Ok i' /\
    ti_bytes i' = repeat 7 32 ++ [1; 0; 0; 0; 2; 81; 82; 1; 2; 3; 4].
Proof. split; [exact (proj1 (proj2 (proj2 ex_parts)))|]. eexists; split; vm_compute; reflexivity. Qed.

Theorem copy_txout : forall o value output_script, txout_obj o ->
  let r := TxOut_copy o value output_script in
  TxOut_copy o None None = Ok o /\
  r = TxOut (updated value (to_value o)) (updated output_script (to_output_script o)) /\
  forall o', r = Ok o' ->
    txout_obj o' /\ to_value o' = updated value (to_value o) /\
    to_output_script o' = updated output_script (to_output_script o).
Proof. exact copy_txout_L. Qed.
Print Assumptions copy_txout.

Example copy_txout_ex : txout_obj ex_output /\
  exists o', TxOut_copy ex_output None (Some [82; 83]) = Ok o' /\ to_bytes_ o' = [5; 0; 0; 0; 0; 0; 0; 0; 2; 82; 83].
Proof. split; [exact (proj2 (proj2 (proj2 ex_parts)))|]. eexists; split; vm_compute; reflexivity. Qed.

Theorem copy_witness : forall w stack, witness_obj w ->
  let r := InputWitness_copy w stack in
  InputWitness_copy w None = Ok w /\
  r = InputWitness (updated stack (wit_stack w)) /\
  forall w', r = Ok w' ->
    wit_stack w' = updated stack (wit_stack w) /\ (if_given (Forall witem_obj) stack -> witness_obj w').
Proof. exact copy_witness_L. Qed.
Print Assumptions copy_witness.

Example copy_witness_ex : witness_obj ex_wit /\ exists w', InputWitness_copy ex_wit (Some []) = Ok w' /\ wit_bytes w' = [0].
Proof. split; [|eexists; split; vm_compute; reflexivity]. split; [constructor; [vm_compute; reflexivity|constructor]|vm_compute; reflexivity]. Qed.

Theorem copy_tx : forall H net t version flag tx_ins tx_outs tx_witnesses lock_time, tx_obj H net t ->
  let r := Tx_copy H net t version flag tx_ins tx_outs tx_witnesses lock_time in
  Tx_copy H net t None None None None None None = Ok t /\
  r = Tx H net (updated version (tx_version t)) (updated_opt flag (tx_flag t)) (updated tx_ins (tx_tx_ins t))
         (updated tx_outs (tx_tx_outs t)) (updated_opt tx_witnesses (tx_tx_witnesses t))
         (updated lock_time (tx_lock_time t)) /\
  forall t', r = Ok t' ->
    tx_version t' = updated version (tx_version t) /\
    tx_flag t' = updated_opt flag (tx_flag t) /\
    tx_tx_ins t' = updated tx_ins (tx_tx_ins t) /\
    tx_tx_outs t' = updated tx_outs (tx_tx_outs t) /\
    tx_tx_witnesses t' = updated_opt tx_witnesses (tx_tx_witnesses t) /\
    tx_lock_time t' = updated lock_time (tx_lock_time t) /\
    (if_given (Forall txin_obj) tx_ins -> if_given (Forall txout_obj) tx_outs ->
     if_given (Forall witness_obj) tx_witnesses -> tx_obj H net t').
Proof. exact copy_tx_L. Qed.
Print Assumptions copy_tx.

Example copy_tx_ex : tx_obj toy BitcoinMain ex_segwit /\
  exists t', Tx_copy toy BitcoinMain ex_segwit (Some [1; 0; 0; 0]) None None (Some [ex_output; ex_output]) None None = Ok t' /\
    tx_version t' = [1; 0; 0; 0] /\ tx_tx_outs t' = [ex_output; ex_output] /\ tx_tx_witnesses t' = Some [ex_wit].
Proof. split; [exact (proj1 ex_objects)|]. eexists. split; [vm_compute; reflexivity|]. vm_compute. auto. Qed.

(* no copy of a transaction with flag or witnesses is without them: None means
   "keep", so copy cannot turn a segwit transaction into a legacy one *)
Theorem copy_keeps_witness : forall H net t version flag tx_ins tx_outs tx_witnesses lock_time t', tx_obj H net t ->
  Tx_copy H net t version flag tx_ins tx_outs tx_witnesses lock_time = Ok t' ->
  (tx_flag t <> None -> tx_flag t' <> None) /\ (tx_tx_witnesses t <> None -> tx_tx_witnesses t' <> None).
Proof. exact copy_keeps_witness_L. Qed.
Print Assumptions copy_keeps_witness.

Theorem copy_overwinter : forall H net t tx_ins tx_outs lock_time expiry_height tx_joinsplits joinsplit_pubkey joinsplit_sig,
  overwinter_obj H net t ->
  let r := OverwinterTx_copy H net t tx_ins tx_outs lock_time expiry_height tx_joinsplits joinsplit_pubkey joinsplit_sig in
  let joinsplits := updated tx_joinsplits (ow_tx_joinsplits t) in
  OverwinterTx_copy H net t None None None None None None None = Ok t /\
  r = OverwinterTx H net (updated tx_ins (ow_tx_ins t)) (updated tx_outs (ow_tx_outs t))
        (updated lock_time (ow_lock_time t)) (updated expiry_height (ow_expiry_height t)) joinsplits
        (updated_opt joinsplit_pubkey (ow_joinsplit_pubkey t)) (updated_opt joinsplit_sig (ow_joinsplit_sig t)) /\
  forall t', r = Ok t' ->
    ow_tx_ins t' = updated tx_ins (ow_tx_ins t) /\
    ow_tx_outs t' = updated tx_outs (ow_tx_outs t) /\
    ow_lock_time t' = updated lock_time (ow_lock_time t) /\
    ow_expiry_height t' = updated expiry_height (ow_expiry_height t) /\
    ow_tx_joinsplits t' = joinsplits /\
    ow_joinsplit_pubkey t' = needed joinsplits (updated_opt joinsplit_pubkey (ow_joinsplit_pubkey t)) /\
    ow_joinsplit_sig t' = needed joinsplits (updated_opt joinsplit_sig (ow_joinsplit_sig t)) /\
    (if_given (Forall txin_obj) tx_ins -> if_given (Forall txout_obj) tx_outs ->
     if_given (Forall (sprout_joinsplit_obj net)) tx_joinsplits -> overwinter_obj H net t').
Proof. exact copy_overwinter_L. Qed.
Print Assumptions copy_overwinter.

Example copy_overwinter_ex : forall H, exists t t', overwinter_obj H ZcashOverwinterMain t /\ ow_tx_joinsplits t <> [] /\
  OverwinterTx_copy H ZcashOverwinterMain t None None (Some [1; 2; 3; 4]) None None None None = Ok t' /\ t' <> t.
Proof.
  intros H. destruct (ex_overwinter_full H) as [t [t' [O [J [L [_ [E N]]]]]]]. exists t, t'. split; [exact O|]. split; [rewrite J; discriminate|].
  split; [exact E|]. intros ->. rewrite L in N. discriminate.
Qed.

(* key and signature of the JoinSplits go when the JoinSplits go: this is the one
   case where a field changes that was not asked for *)
Theorem copy_overwinter_drops : forall H net t t',
  overwinter_obj H net t -> ow_tx_joinsplits t <> [] ->
  OverwinterTx_copy H net t None None None None (Some []) None None = Ok t' ->
  ow_joinsplit_pubkey t <> None /\ ow_joinsplit_sig t <> None /\ ow_joinsplit_pubkey t' = None /\ ow_joinsplit_sig t' = None.
Proof. exact copy_overwinter_drops_L. Qed.
Print Assumptions copy_overwinter_drops.
Example copy_overwinter_drops_ex : forall H, exists t t', overwinter_obj H ZcashOverwinterMain t /\ ow_tx_joinsplits t <> [] /\
  OverwinterTx_copy H ZcashOverwinterMain t None None None None (Some []) None None = Ok t'.
Proof.
  intros H. destruct (ex_overwinter_full H) as [t [_ [O [J [_ [[t' E] _]]]]]]. exists t, t'. split; [exact O|]. split; [rewrite J; discriminate|exact E].
Qed.

Theorem copy_sapling : forall H net t tx_ins tx_outs lock_time expiry_height value_balance tx_shielded_spends tx_shielded_outputs
    tx_joinsplits joinsplit_pubkey joinsplit_sig binding_sig,
  sapling_obj H net t ->
  let r := SaplingTx_copy H net t tx_ins tx_outs lock_time expiry_height value_balance tx_shielded_spends
             tx_shielded_outputs tx_joinsplits joinsplit_pubkey joinsplit_sig binding_sig in
  let spends := updated tx_shielded_spends (sa_tx_shielded_spends t) in
  let outputs := updated tx_shielded_outputs (sa_tx_shielded_outputs t) in
  let joinsplits := updated tx_joinsplits (sa_tx_joinsplits t) in
  SaplingTx_copy H net t None None None None None None None None None None None = Ok t /\
  r = SaplingTx H net (updated tx_ins (sa_tx_ins t)) (updated tx_outs (sa_tx_outs t))
        (updated lock_time (sa_lock_time t)) (updated expiry_height (sa_expiry_height t))
        (updated value_balance (sa_value_balance t)) (Some spends) (Some outputs) (Some joinsplits)
        (updated_opt joinsplit_pubkey (sa_joinsplit_pubkey t)) (updated_opt joinsplit_sig (sa_joinsplit_sig t))
        (updated_opt binding_sig (sa_binding_sig t)) /\
  forall t', r = Ok t' ->
    sa_tx_ins t' = updated tx_ins (sa_tx_ins t) /\
    sa_tx_outs t' = updated tx_outs (sa_tx_outs t) /\
    sa_lock_time t' = updated lock_time (sa_lock_time t) /\
    sa_expiry_height t' = updated expiry_height (sa_expiry_height t) /\
    sa_value_balance t' = updated value_balance (sa_value_balance t) /\
    sa_tx_shielded_spends t' = spends /\
    sa_tx_shielded_outputs t' = outputs /\
    sa_tx_joinsplits t' = joinsplits /\
    sa_joinsplit_pubkey t' = needed joinsplits (updated_opt joinsplit_pubkey (sa_joinsplit_pubkey t)) /\
    sa_joinsplit_sig t' = needed joinsplits (updated_opt joinsplit_sig (sa_joinsplit_sig t)) /\
    sa_binding_sig t' = (match spends, outputs with
                         | [], [] => None
                         | _, _ => updated_opt binding_sig (sa_binding_sig t)
                         end) /\
    (if_given (Forall txin_obj) tx_ins -> if_given (Forall txout_obj) tx_outs ->
     if_given (Forall (spend_obj net)) tx_shielded_spends ->
     if_given (Forall (shielded_output_obj net)) tx_shielded_outputs ->
     if_given (Forall (sapling_joinsplit_obj net)) tx_joinsplits -> sapling_obj H net t').
Proof. exact copy_sapling_L. Qed.
Print Assumptions copy_sapling.

Example copy_sapling_ex : forall H, exists t t', sapling_obj H ZcashSaplingMain t /\
  SaplingTx_copy H ZcashSaplingMain t None (Some [ex_output; ex_output; ex_output]) None None None None None None None None None = Ok t' /\
  sa_tx_outs t <> sa_tx_outs t'.
Proof. exact ex_sapling_copy. Qed.

Theorem copy_sprout : forall H net t version tx_ins tx_outs lock_time tx_joinsplits joinsplit_pubkey joinsplit_sig,
  sprout_obj H net t -> if_given all_bytes version ->
  let r := SproutTx_copy H net t version tx_ins tx_outs lock_time tx_joinsplits joinsplit_pubkey joinsplit_sig in
  SproutTx_copy H net t None None None None None None None = Ok t /\
  r = SproutTx H net (Some (updated version (sp_version t))) (updated tx_ins (sp_tx_ins t)) (updated tx_outs (sp_tx_outs t))
        (updated lock_time (sp_lock_time t)) (updated_opt tx_joinsplits (sp_tx_joinsplits t))
        (updated_opt joinsplit_pubkey (sp_joinsplit_pubkey t)) (updated_opt joinsplit_sig (sp_joinsplit_sig t)) /\
  forall t', r = Ok t' ->
    sp_version t' = updated version (sp_version t) /\
    sp_tx_ins t' = updated tx_ins (sp_tx_ins t) /\
    sp_tx_outs t' = updated tx_outs (sp_tx_outs t) /\
    sp_lock_time t' = updated lock_time (sp_lock_time t) /\
    sp_tx_joinsplits t' = updated_opt tx_joinsplits (sp_tx_joinsplits t) /\
    (* only version 2 has key and signature *)
    (sp_version t' = [1; 0; 0; 0] /\ sp_joinsplit_pubkey t' = None /\ sp_joinsplit_sig t' = None \/
     sp_version t' = [2; 0; 0; 0] /\
     sp_joinsplit_pubkey t' = updated_opt joinsplit_pubkey (sp_joinsplit_pubkey t) /\
     sp_joinsplit_sig t' = updated_opt joinsplit_sig (sp_joinsplit_sig t)) /\
    (if_given (Forall txin_obj) tx_ins -> if_given (Forall txout_obj) tx_outs ->
     if_given (Forall (sprout_joinsplit_obj net)) tx_joinsplits -> sprout_obj H net t').
Proof. exact copy_sprout_L. Qed.
Print Assumptions copy_sprout.

Example copy_sprout_ex : forall H, exists t t', sprout_obj H ZcashSproutMain t /\ sp_joinsplit_pubkey t <> None /\
  SproutTx_copy H ZcashSproutMain t None None (Some [ex_output; ex_output]) None None None None = Ok t'.
Proof. exact ex_sprout_copy. Qed.

Theorem copy_decred_outpoint : forall net o tx_id index tree, doutpoint_obj net o ->
  let r := DecredOutpoint_copy net o tx_id index tree in
  DecredOutpoint_copy net o None None None = Ok o /\
  r = DecredOutpoint net (updated tx_id (dop_tx_id o)) (updated index (dop_index o)) (updated tree (dop_tree o)) /\
  forall o', r = Ok o' ->
    doutpoint_obj net o' /\ dop_tx_id o' = updated tx_id (dop_tx_id o) /\
    dop_index o' = updated index (dop_index o) /\ dop_tree o' = updated tree (dop_tree o).
Proof. exact copy_decred_outpoint_L. Qed.
Print Assumptions copy_decred_outpoint.

Theorem copy_decred_txin : forall net i outpoint sequence, dtxin_obj net i ->
  let r := DecredTxIn_copy net i outpoint sequence in
  DecredTxIn_copy net i None None = Ok i /\
  r = DecredTxIn net (updated outpoint (dti_outpoint i)) (updated sequence (dti_sequence i)) /\
  forall i', r = Ok i' ->
    dti_outpoint i' = updated outpoint (dti_outpoint i) /\ dti_sequence i' = updated sequence (dti_sequence i) /\
    (if_given (doutpoint_obj net) outpoint -> dtxin_obj net i').
Proof. exact copy_decred_txin_L. Qed.
Print Assumptions copy_decred_txin.

Theorem copy_decred_txout : forall net o value version output_script, dtxout_obj net o ->
  let r := DecredTxOut_copy net o value version output_script in
  DecredTxOut_copy net o None None None = Ok o /\
  r = DecredTxOut net (updated value (dto_value o)) (Some (updated version (dto_version o)))
        (updated output_script (dto_output_script o)) /\
  forall o', r = Ok o' ->
    dtxout_obj net o' /\ dto_value o' = updated value (dto_value o) /\
    dto_version o' = updated version (dto_version o) /\
    dto_output_script o' = updated output_script (dto_output_script o).
Proof. exact copy_decred_txout_L. Qed.
Print Assumptions copy_decred_txout.

Theorem copy_decred_witness : forall net w value height index stack_script redeem_script, dwitness_obj net w ->
  let r := DecredInputWitness_copy net w value height index stack_script redeem_script in
  DecredInputWitness_copy net w None None None None None = Ok w /\
  r = DecredInputWitness net (updated value (dw_value w)) (updated height (dw_height w)) (updated index (dw_index w))
        (updated stack_script (dw_stack_script w)) (updated redeem_script (dw_redeem_script w)) /\
  forall w', r = Ok w' ->
    dwitness_obj net w' /\ dw_value w' = updated value (dw_value w) /\
    dw_height w' = updated height (dw_height w) /\ dw_index w' = updated index (dw_index w) /\
    dw_stack_script w' = updated stack_script (dw_stack_script w) /\
    dw_redeem_script w' = updated redeem_script (dw_redeem_script w).
Proof. exact copy_decred_witness_L. Qed.
Print Assumptions copy_decred_witness.

Theorem copy_decred_tx : forall H net t version tx_ins tx_outs lock_time expiry tx_witnesses, dtx_obj H net t ->
  let r := DecredTx_copy H net t version tx_ins tx_outs lock_time expiry tx_witnesses in
  DecredTx_copy H net t None None None None None None = Ok t /\
  r = DecredTx H net (updated version (dtx_version t)) (updated tx_ins (dtx_tx_ins t)) (updated tx_outs (dtx_tx_outs t))
        (updated lock_time (dtx_lock_time t)) (updated expiry (dtx_expiry t)) (updated tx_witnesses (dtx_tx_witnesses t)) /\
  forall t', r = Ok t' ->
    dtx_version t' = updated version (dtx_version t) /\
    dtx_tx_ins t' = updated tx_ins (dtx_tx_ins t) /\
    dtx_tx_outs t' = updated tx_outs (dtx_tx_outs t) /\
    dtx_lock_time t' = updated lock_time (dtx_lock_time t) /\
    dtx_expiry t' = updated expiry (dtx_expiry t) /\
    dtx_tx_witnesses t' = updated tx_witnesses (dtx_tx_witnesses t) /\
    (if_given (Forall (dtxin_obj net)) tx_ins -> if_given (Forall (dtxout_obj net)) tx_outs ->
     if_given (Forall (dwitness_obj net)) tx_witnesses -> dtx_obj H net t').
Proof. exact copy_decred_tx_L. Qed.
Print Assumptions copy_decred_tx.

Example copy_decred_ex : forall H, exists t t', dtx_obj H DecredMain t /\
  DecredTx_copy H DecredMain t None None None (Some [1; 2; 3; 4]) None None = Ok t' /\ dtx_lock_time t <> dtx_lock_time t' /\
  exists i o w i' o' w' p p', dtxin_obj DecredMain i /\ dtxout_obj DecredMain o /\ dwitness_obj DecredMain w /\ doutpoint_obj DecredMain p /\
  DecredTxIn_copy DecredMain i None (Some [0; 0; 0; 0]) = Ok i' /\ DecredTxOut_copy DecredMain o None (Some [1; 0]) None = Ok o' /\
  DecredInputWitness_copy DecredMain w None None None (Some []) None = Ok w' /\ DecredOutpoint_copy DecredMain p None None (Some [1]) = Ok p'.
Proof. exact ex_decred_copy. Qed.
