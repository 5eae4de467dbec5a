(* Property C105: objects that compare equal.  [equal], [same_tx], [same_decred] are in SSame.v, the other [same_] in SZcash.v,
   [the_input], [the_tx] in STx.v, [the_dspend] in SDecred.v *)
From Coq Require Import String.
From Verif Require Import Py SNum SNet SHash SScript STx SSig SDecred SZcash SDigest SSame MNet MUtils MShared MTx MDecred MZcash
  LBase LNet LTx LDecred LDecredTop LZcashTx LSapling LSprout LZBind LSame PTx PSig PDecred PZcash PZSign PIndex.
Open Scope list_scope.
Open Scope Z_scope.

(* C105: outpoints, outputs, witness items and witnesses are equal only to themselves; inputs are equal if they are the same but
   for the division of the script sig *)
Theorem equal_parts : 
  (forall o o', outpoint_obj o -> outpoint_obj o' -> (equal (op_bytes o) (op_bytes o') <-> o = o')) /\
  (forall i i', txin_obj i -> txin_obj i' -> (equal (ti_bytes i) (ti_bytes i') <-> the_input i = the_input i')) /\
  (forall o o', txout_obj o -> txout_obj o' -> (equal (to_bytes_ o) (to_bytes_ o') <-> o = o')) /\
  (forall w w', witem_obj w -> witem_obj w' -> (equal (wi_bytes w) (wi_bytes w') <-> w = w')) /\
  (forall w w', witness_obj w -> witness_obj w' -> (equal (wit_bytes w) (wit_bytes w') <-> w = w')).
Proof.
  split; [|split; [|split; [|split]]]; intros a b A B; rewrite equal_iff.
  - split; [apply outpoint_same; assumption|intros ->; reflexivity].
  - apply txin_same; assumption.
  - split; [apply txout_same; assumption|intros ->; reflexivity].
  - split; [apply witem_same; assumption|intros ->; reflexivity].
  - split; [apply witness_same; assumption|intros ->; reflexivity].
Qed.
Print Assumptions equal_parts.
Example equal_parts_ex : txin_obj ex_input /\ equal (ti_bytes ex_input) (ti_bytes ex_input) /\ ~ equal (ti_bytes ex_input) (ti_bytes ex_input2).
Proof. split; [split; reflexivity|]. split; [reflexivity|]. vm_compute. discriminate. Qed.

(* C105, the part that holds of transactions: they are equal if they are the same but for the division of script sigs, and but for
   an empty list of witnesses in place of none *)
Theorem equal_transactions_partial : forall H name net, get_network name = Ok net ->
  (forall t u, tx_obj H net t -> tx_obj H net u -> (equal (tx_bytes t) (tx_bytes u) <-> same_tx t u)) /\
  (forall t u, sprout_obj H net t -> sprout_obj H net u -> (equal (sp_bytes u) (sp_bytes t) <-> same_sprout t u)) /\
  (forall t u, overwinter_obj H net t -> overwinter_obj H net u -> (equal (ow_bytes u) (ow_bytes t) <-> same_overwinter t u)) /\
  (forall t u, sapling_obj H net t -> sapling_obj H net u -> (equal (sa_bytes u) (sa_bytes t) <-> same_sapling t u)) /\
  (In name decred_names -> forall t u, dtx_obj H net t -> dtx_obj H net u -> (equal (dtx_bytes t) (dtx_bytes u) <-> same_decred t u)).
Proof.
  intros H name net En. split; [|split; [|split; [|split]]].
  - intros t u O P. rewrite equal_iff. exact (same_tx_iff H name net En t u O P).
  - intros t u O P. rewrite equal_iff. exact (sprout_same H name net En t u O P).
  - intros t u O P. rewrite equal_iff. exact (overwinter_same H name net En t u O P).
  - intros t u O P. rewrite equal_iff. exact (sapling_same H name net En t u O P).
  - intros I t u O P. rewrite equal_iff. exact (dtx_same H net (decred_only_Ok name net En I) t u O P).
Qed.
Print Assumptions equal_transactions_partial.
(* the two sides: an overwinter transaction that is equal to one whose first script sig is divided otherwise, and not to one with
   another expiry height *)
Example equal_transactions_ex :
  let i := txin_of (ti_outpoint ex_input) [] [0] (repeat 255 4) in
  let u := ow_of small ZcashOverwinterMain [i; ex_input2] [ex_output] (repeat 0 4) (repeat 1 4) [] None None in
  let x := ow_of small ZcashOverwinterMain [ex_input; ex_input2] [ex_output] (repeat 0 4) (repeat 2 4) [] None None in
  overwinter_obj small ZcashOverwinterMain ex_ow /\ overwinter_obj small ZcashOverwinterMain u /\ overwinter_obj small ZcashOverwinterMain x /\
  equal (ow_bytes u) (ow_bytes ex_ow) /\ ow_tx_ins u <> ow_tx_ins ex_ow /\ ~ equal (ow_bytes x) (ow_bytes ex_ow).
Proof.
  split; [|split; [|split; [|split; [|split]]]].
  1-3: apply overwinter_obj_iff; split; [constructor; [split; reflexivity|constructor; [split; reflexivity|constructor]]|]; split; [constructor; [reflexivity|constructor]|]; split; [constructor|]; split; [vm_compute; reflexivity|reflexivity].
  - vm_compute. reflexivity.
  - vm_compute. discriminate.
  - vm_compute. discriminate.
Qed.

(* descriptions of shielded payments are equal only to themselves *)
Theorem equal_descriptions : forall net,
  (forall p p', sprout_proof_obj net p -> sprout_proof_obj net p' -> (equal (zk_bytes p) (zk_bytes p') <-> p = p')) /\
  (forall p p', sapling_proof_obj net p -> sapling_proof_obj net p' -> (equal (szk_bytes p) (szk_bytes p') <-> p = p')) /\
  (forall j j', sprout_joinsplit_obj net j -> sprout_joinsplit_obj net j' -> (equal (js_bytes j) (js_bytes j') <-> j = j')) /\
  (forall j j', sapling_joinsplit_obj net j -> sapling_joinsplit_obj net j' -> (equal (js_bytes j) (js_bytes j') <-> j = j')) /\
  (forall s s', spend_obj net s -> spend_obj net s' -> (equal (ss_bytes s) (ss_bytes s') <-> s = s')) /\
  (forall o o', shielded_output_obj net o -> shielded_output_obj net o' -> (equal (so_bytes o) (so_bytes o') <-> o = o')).
Proof. exact descriptions_same. Qed.
Print Assumptions equal_descriptions.
Example equal_descriptions_ex : spend_obj ZcashSaplingMain ex_spend /\ shielded_output_obj ZcashSaplingMain ex_shielded_output /\
  equal (ss_bytes ex_spend) (ss_bytes ex_spend) /\ ~ equal (ss_bytes ex_spend) (so_bytes ex_shielded_output).
Proof. split; [apply ex_spend_obj|]. split; [apply ex_spend_obj|]. split; [vm_compute; reflexivity|vm_compute; discriminate]. Qed.

(* parts of Decred transactions *)
Theorem equal_decred_parts : forall name net, get_network name = Ok net -> In name decred_names ->
  (forall o o', doutpoint_obj net o -> doutpoint_obj net o' -> (equal (dop_bytes o) (dop_bytes o') <-> o = o')) /\
  (forall i i', dtxin_obj net i -> dtxin_obj net i' -> (equal (dti_bytes i) (dti_bytes i') <-> i = i')) /\
  (forall o o', dtxout_obj net o -> dtxout_obj net o' -> (equal (dto_bytes o) (dto_bytes o') <-> o = o')) /\
  (forall w w', dwitness_obj net w -> dwitness_obj net w' -> (equal (dw_bytes w) (dw_bytes w') <-> the_dspend w = the_dspend w')).
Proof.
  intros name net En I. pose proof (decred_only_Ok name net En I) as D. split; [|split; [|split]]; intros a b A B; rewrite equal_iff.
  - split; [apply (doutpoint_same net D); assumption|intros ->; reflexivity].
  - split; [apply (dtxin_same net D); assumption|intros ->; reflexivity].
  - split; [apply (dtxout_same net D); assumption|intros ->; reflexivity].
  - apply (dwitness_same net D); assumption.
Qed.
Print Assumptions equal_decred_parts.
Example equal_decred_ex : get_network (lit "decred_main") = Ok DecredMain /\ In (lit "decred_main") decred_names /\
  exists t u, dtx_obj toy DecredMain t /\ dtx_obj toy DecredMain u /\ ~ equal (dtx_bytes t) (dtx_bytes u) /\ Forall (dtxin_obj DecredMain) (dtx_tx_ins t) /\ dtx_tx_ins t <> [].
Proof.
  split; [apply decred_main_ex|]. split; [apply decred_main_ex|].
  destruct (decred_exists toy (lit "decred_main") DecredMain ex_dtx) as [t [O E]]; [apply decred_main_ex|apply decred_main_ex|apply ex_dtx_ok|].
  destruct (decred_exists toy (lit "decred_main") DecredMain {| d_version := d_version ex_dtx; d_ins := d_ins ex_dtx; d_outs := d_outs ex_dtx; d_lock := repeat 1 4; d_expiry := d_expiry ex_dtx; d_spends := d_spends ex_dtx |}) as [u [P F]]; [apply decred_main_ex|apply decred_main_ex| |].
  - destruct ex_dtx_ok as [K1 [_ [K3 [K4 [K5 [K6 [K7 [K8 _]]]]]]]]. repeat (split; [first [assumption|reflexivity]|]). vm_compute. discriminate.
  - exists t, u. split; [exact O|]. split; [exact P|].
    destruct (decred_format toy (lit "decred_main") DecredMain t) as [B _]; [apply decred_main_ex|apply decred_main_ex|exact O|].
    destruct (decred_format toy (lit "decred_main") DecredMain u) as [B' _]; [apply decred_main_ex|apply decred_main_ex|exact P|].
    split; [rewrite B, B', E, F; vm_compute; discriminate|]. split; [apply O|]. intros N. apply (f_equal d_ins) in E. unfold the_dtx in E. cbn [d_ins] in E. rewrite N in E. discriminate E.
Qed.

(* C105, false: every division of a script sig gives an equal input, or Decred witness *)
Theorem equal_fields_refuted :
  (forall i a b, txin_obj i -> ti_script_sig i = a ++ b ->
     exists j, txin_obj j /\ equal (ti_bytes j) (ti_bytes i) /\ ti_stack_script j = a /\ ti_redeem_script j = b) /\
  (forall name net w a b, get_network name = Ok net -> In name decred_names -> dwitness_obj net w -> dw_script_sig w = a ++ b ->
     exists x, dwitness_obj net x /\ equal (dw_bytes x) (dw_bytes w) /\ dw_stack_script x = a /\ dw_redeem_script x = b) /\
  exists i j, txin_obj i /\ txin_obj j /\ equal (ti_bytes i) (ti_bytes j) /\ ti_redeem_script i <> ti_redeem_script j.
Proof.
  split; [|split].
  - intros i a b O E. destruct (txin_divided i a b O E) as [j [P [B [X Y]]]]. exists j. rewrite equal_iff. auto.
  - intros name net w a b En I O E. destruct (dwitness_divided net w a b (decred_only_Ok name net En I) O E) as [x [P [B [X Y]]]]. exists x. rewrite equal_iff. auto.
  - assert (txin_obj ex_input) as O by (split; reflexivity).
    destruct (txin_divided ex_input [] [0] O eq_refl) as [j [P [B [X Y]]]]. exists ex_input, j. rewrite equal_iff. rewrite Y.
    split; [exact O|]. split; [exact P|]. split; [symmetry; exact B|discriminate].
Qed.
Print Assumptions equal_fields_refuted.

(* objects of different classes may be equal: an outpoint whose transaction id begins with 35, and a witness item *)
Theorem equal_classes_refuted : forall o r, outpoint_obj o -> op_tx_id o = 35 :: r ->
  exists w, witem_obj w /\ equal (wi_bytes w) (op_bytes o).
Proof. intros o r O E. destruct (outpoint_as_item o r O E) as [w [P B]]. exists w. rewrite equal_iff. auto. Qed.
Print Assumptions equal_classes_refuted.
Example equal_classes_ex : exists o, outpoint_obj o /\ op_tx_id o = 35 :: repeat 7 31.
Proof. exists {| op_tx_id := 35 :: repeat 7 31; op_index := [1; 0; 0; 0]; op_bytes := (35 :: repeat 7 31) ++ [1; 0; 0; 0] |}. split; reflexivity. Qed.

(* C105: equal transactions have the same digests, if both or neither have a flag or a list of witnesses, or the network has a
   fork id *)
Theorem equal_digests_partial : forall H name net, get_network name = Ok net ->
  (forall t u ty i script value anyone, tx_obj H net t -> tx_obj H net u -> equal (tx_bytes t) (tx_bytes u) -> (plain t <-> plain u) \/ fork_of name <> None -> all_bytes script ->
     digest H ty net t i script value anyone = digest H ty net u i script value anyone) /\
  (forall t u ty i script anyone, sprout_obj H net t -> sprout_obj H net u -> equal (sp_bytes u) (sp_bytes t) -> all_bytes script ->
     match ty with All => sprout_sighash_all H net u i script anyone | Single => sprout_sighash_single H net u i script anyone end =
     match ty with All => sprout_sighash_all H net t i script anyone | Single => sprout_sighash_single H net t i script anyone end) /\
  (forall t u ty value script i joinsplit anyone, overwinter_obj H net t -> overwinter_obj H net u -> equal (ow_bytes u) (ow_bytes t) ->
     overwinter_sighash H net u ty value script i joinsplit anyone = overwinter_sighash H net t ty value script i joinsplit anyone) /\
  (forall t u ty value script i joinsplit anyone, sapling_obj H net t -> sapling_obj H net u -> equal (sa_bytes u) (sa_bytes t) ->
     sapling_sighash H net u ty value i joinsplit script anyone = sapling_sighash H net t ty value i joinsplit script anyone) /\
  (In name decred_names -> forall t u ty i script anyone, dtx_obj H net t -> dtx_obj H net u -> equal (dtx_bytes t) (dtx_bytes u) ->
     ddigest H ty net t i script anyone = ddigest H ty net u i script anyone).
Proof.
  intros H name net En. split; [|split; [|split; [|split]]].
  - intros t u ty i script value anyone O P E. rewrite equal_iff in E. exact (equal_digest H name net En t u ty i script value anyone O P E).
  - intros t u ty i script anyone O P E. rewrite equal_iff in E. exact (sprout_equal_digest H name net En t u ty i script anyone O P E).
  - intros t u ty value script i joinsplit anyone O P E. rewrite equal_iff in E. exact (overwinter_equal_digest H name net En t u ty value script i joinsplit anyone O P E).
  - intros t u ty value script i joinsplit anyone O P E. rewrite equal_iff in E. exact (sapling_equal_digest H name net En t u ty value script i joinsplit anyone O P E).
  - intros I t u ty i script anyone O P E. rewrite equal_iff in E. exact (dequal_digest H net (decred_only_Ok name net En I) t u ty i script anyone O P E).
Qed.
Print Assumptions equal_digests_partial.
(* two inputs that are divided differently, the same digest *)
Example equal_digests_ex :
  let i := txin_of {| op_tx_id := repeat 7 32; op_index := [1; 0; 0; 0]; op_bytes := repeat 7 32 ++ [1; 0; 0; 0] |} [] [0] (repeat 255 4) in
  let t := tx_of toy BitcoinMain [2; 0; 0; 0] None [i] [ex_output] None [0; 0; 0; 0] in
  tx_obj toy BitcoinMain t /\ equal (tx_bytes t) (tx_bytes ex_legacy) /\ tx_tx_ins t <> tx_tx_ins ex_legacy /\
  exists d, digest toy All BitcoinMain t 0 [1; 118] None false = Ok d /\ digest toy All BitcoinMain ex_legacy 0 [1; 118] None false = Ok d.
Proof.
  split; [repeat split; repeat constructor|]. split; [vm_compute; reflexivity|]. split; [vm_compute; discriminate|]. eexists. split; vm_compute; reflexivity.
Qed.

(* C105, false: every transaction without flag and witnesses is equal to one with an empty list of witnesses, and that one is
   signed by the other algorithm: where the network has no fork id its digests need the value *)
Theorem equal_digests_refuted :
  (forall H name net t n, get_network name = Ok net -> fork_of name = None -> tx_obj H net t -> plain t -> (n < length (tx_tx_ins t))%nat ->
     exists u, tx_obj H net u /\ equal (tx_bytes u) (tx_bytes t) /\
       forall script anyone, all_bytes script -> digest H All net u (Z.of_nat n) script None anyone = Err TypeError) /\
  exists t u d d', tx_obj toy BitcoinMain t /\ tx_obj toy BitcoinMain u /\ equal (tx_bytes t) (tx_bytes u) /\
    digest toy All BitcoinMain t 0 [1; 118] (Some (repeat 9 8)) false = Ok d /\
    digest toy All BitcoinMain u 0 [1; 118] (Some (repeat 9 8)) false = Ok d' /\ d <> d'.
Proof.
  split.
  - intros H name net t n En F O P L. destruct (twin_digest H name net t n En F O P L) as [u [Q [E D]]]. exists u. rewrite equal_iff. auto.
  - exists ex_legacy, (tx_of toy BitcoinMain [2; 0; 0; 0] None [ex_input] [ex_output] (Some []) [0; 0; 0; 0]). do 2 eexists.
    split; [apply ex_objects|]. split; [repeat split; repeat constructor|]. split; [vm_compute; reflexivity|].
    split; [vm_compute; reflexivity|]. split; [vm_compute; reflexivity|vm_compute; discriminate].
Qed.
Print Assumptions equal_digests_refuted.
