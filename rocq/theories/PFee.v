(* C34: fees *)
From Coq Require Import String.
From Verif Require Import Py SNum SNet SScript MNet MUtils MShared MTx MZcash MDecred STx SZcash SDecred SCopy SFee SHash LFee PTx PZcash PCopy.
Open Scope list_scope.
Open Scope Z_scope.

(* what goes in comes out again, or is the fee *)
Theorem fee_bitcoin : forall t values, calculate_fee t values + paid (tx_tx_outs t) = total values.
Proof. exact fee_bitcoin_L. Qed.
Print Assumptions fee_bitcoin.
Example fee_bitcoin_ex : calculate_fee ex_segwit [3; 300] = 298 /\ paid (tx_tx_outs ex_segwit) = 5.
Proof. split; vm_compute; reflexivity. Qed.

Theorem fee_overwinter : forall t values,
  overwinter_calculate_fee t values + paid (ow_tx_outs t) + joinsplit_takes (ow_tx_joinsplits t)
  = total values + joinsplit_gives (ow_tx_joinsplits t).
Proof. exact fee_overwinter_L. Qed.
Print Assumptions fee_overwinter.
Example fee_overwinter_ex : joinsplit_gives [ex_sprout_joinsplit] = 3 /\
  forall H, exists t, overwinter_obj H ZcashOverwinterMain t /\ overwinter_calculate_fee t [10] = 8.
Proof.
  split; [vm_compute; reflexivity|]. intros H. destruct (ex_overwinter H) as [t [O [_ [P J]]]]. exists t. split; [exact O|].
  unfold overwinter_calculate_fee. rewrite P, J. vm_compute. reflexivity.
Qed.

Theorem fee_sapling : forall t values, all_bytes (sa_value_balance t) ->
  sapling_calculate_fee t values + paid (sa_tx_outs t) + joinsplit_takes (sa_tx_joinsplits t) + pool_takes (sa_value_balance t)
  = total values + joinsplit_gives (sa_tx_joinsplits t) + pool_gives (sa_value_balance t).
Proof. exact fee_sapling_L. Qed.
Print Assumptions fee_sapling.
(* both signs *)
Example fee_sapling_ex : all_bytes (repeat 255 8) /\ pool_takes (repeat 255 8) = 1 /\ pool_gives (repeat 255 8) = 0 /\
  pool_takes (7 :: repeat 0 7) = 0 /\ pool_gives (7 :: repeat 0 7) = 7.
Proof. split; [repeat constructor; lia|]. vm_compute. auto. Qed.

Theorem fee_sprout : forall H net t values, sprout_obj H net t -> exists js fee, sp_tx_joinsplits t = Some js /\
  sprout_calculate_fee t values = Ok fee /\
  fee + paid (sp_tx_outs t) + joinsplit_takes js = total values + joinsplit_gives js.
Proof. exact fee_sprout_L. Qed.
Print Assumptions fee_sprout.
Example fee_sprout_ex : forall H, exists t, sprout_obj H ZcashSproutMain t /\ sp_tx_joinsplits t = Some [ex_sprout_joinsplit].
Proof. intros H. destruct (ex_sprout H 2 (or_intror eq_refl)) as [t [O [_ [_ [_ [J _]]]]]]. exists t. auto. Qed.

(* Decred's witnesses carry the values of the inputs *)
Theorem fee_decred : forall t,
  decred_calculate_fee t + total (map (fun o => le_value (dto_value o)) (dtx_tx_outs t))
  = total (map (fun w => le_value (dw_value w)) (dtx_tx_witnesses t)).
Proof. exact fee_decred_L. Qed.
Print Assumptions fee_decred.
Example fee_decred_ex : forall H, exists t, dtx_obj H DecredMain t.
Proof. intros H. destruct (ex_decred_copy H) as [t [_ [O _]]]. exists t. exact O. Qed.

(* an additional output costs its value *)
Theorem fee_new_output : forall H net t t' o values, tx_obj H net t ->
  Tx_copy H net t None None None (Some (tx_tx_outs t ++ [o])) None None = Ok t' ->
  calculate_fee t' values = calculate_fee t values - le_value (to_value o).
Proof. exact fee_new_output_L. Qed.
Print Assumptions fee_new_output.
Example fee_new_output_ex : exists t', tx_obj toy BitcoinMain ex_legacy /\
  Tx_copy toy BitcoinMain ex_legacy None None None (Some (tx_tx_outs ex_legacy ++ [ex_output])) None None = Ok t' /\
  calculate_fee t' [100] = 90 /\ calculate_fee ex_legacy [100] = 95.
Proof. eexists. split; [exact (proj1 (proj2 ex_objects))|]. split; [vm_compute; reflexivity|]. split; vm_compute; reflexivity. Qed.

(* outputs never add to the fee: amounts are read as unsigned *)
Theorem fee_at_most : forall H net t values, tx_obj H net t -> Forall (fun o => all_bytes (to_value o)) (tx_tx_outs t) ->
  calculate_fee t values <= total values.
Proof. exact fee_at_most_L. Qed.
Print Assumptions fee_at_most.
Example fee_at_most_ex : Forall (fun o => all_bytes (to_value o)) (tx_tx_outs ex_legacy) /\ tx_obj toy BitcoinMain ex_legacy /\
  paid [{| to_value := repeat 255 8; to_output_script := []; to_bytes_ := repeat 255 8 ++ [0] |}] = 2 ^ 64 - 1.
Proof. split; [|split; [exact (proj1 (proj2 ex_objects))|vm_compute; reflexivity]]. repeat constructor; cbn; lia. Qed.
