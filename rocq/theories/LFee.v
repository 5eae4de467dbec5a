(* Fees *)
From Coq Require Import String.
From Verif Require Import Py SNum SNet SScript MNet MUtils MShared MTx MZcash MDecred STx SZcash SDecred SCopy SFee LBase LUtils LTx LZcashTx LSapling LSprout LCopyTop.
Open Scope list_scope.
Open Scope Z_scope.

Lemma total_app a b : total (a ++ b) = total a + total b.
Proof. unfold total. induction a; cbn; [lia|]. rewrite IHa. lia. Qed.
Lemma sum_paid l : sumZ (map (fun o => le2i (to_value o) false) l) = paid l.
Proof. unfold paid, sumZ, total. f_equal; apply map_ext; intros; apply le2i_le. Qed.
Lemma paid_app a b : paid (a ++ b) = paid a + paid b.
Proof. unfold paid. rewrite map_app. apply total_app. Qed.
Lemma js_net_total {P} (l : list (joinsplit P)) : js_net l = joinsplit_gives l - joinsplit_takes l.
Proof. unfold js_net, joinsplit_gives, joinsplit_takes, sumZ, total. f_equal; f_equal; apply map_ext; intros; apply le2i_le. Qed.
Lemma le_value_nonneg l : all_bytes l -> 0 <= le_value l.
Proof. unfold all_bytes. induction 1; cbn [le_value]; lia. Qed.
Lemma paid_nonneg l : Forall (fun o => all_bytes (to_value o)) l -> 0 <= paid l.
Proof.
  unfold paid. induction 1; cbn; [lia|]. pose proof (le_value_nonneg _ H). unfold total in *. lia.
Qed.

Lemma fee_bitcoin_L t values : calculate_fee t values + paid (tx_tx_outs t) = total values.
Proof. unfold calculate_fee. rewrite sum_paid. change sumZ with total. lia. Qed.
Lemma fee_overwinter_L t values :
  overwinter_calculate_fee t values + paid (ow_tx_outs t) + joinsplit_takes (ow_tx_joinsplits t)
  = total values + joinsplit_gives (ow_tx_joinsplits t).
Proof. unfold overwinter_calculate_fee, outs_total. rewrite sum_paid, js_net_total. change sumZ with total. lia. Qed.
Lemma fee_sapling_L t values : all_bytes (sa_value_balance t) ->
  sapling_calculate_fee t values + paid (sa_tx_outs t) + joinsplit_takes (sa_tx_joinsplits t) + pool_takes (sa_value_balance t)
  = total values + joinsplit_gives (sa_tx_joinsplits t) + pool_gives (sa_value_balance t).
Proof.
  intros B. apply all_bytes_is_bytes in B. unfold sapling_calculate_fee, outs_total. rewrite sum_paid, js_net_total. change sumZ with total.
  rewrite (proj1 (proj2 (le2i_value _ B))). unfold pool_takes, pool_gives. lia.
Qed.
Lemma fee_sprout_L H net t values : sprout_obj H net t -> exists js fee, sp_tx_joinsplits t = Some js /\
  sprout_calculate_fee t values = Ok fee /\
  fee + paid (sp_tx_outs t) + joinsplit_takes js = total values + joinsplit_gives js.
Proof.
  intros O. apply sprout_obj_iff in O. destruct O as [js [_ [_ [_ [J _]]]]]. exists js. eexists. split; [exact J|].
  unfold sprout_calculate_fee. rewrite J. cbn [len_opt bind]. split; [reflexivity|]. unfold outs_total. rewrite sum_paid, js_net_total. change sumZ with total. lia.
Qed.
Lemma fee_decred_L t :
  decred_calculate_fee t + total (map (fun o => le_value (dto_value o)) (dtx_tx_outs t))
  = total (map (fun w => le_value (dw_value w)) (dtx_tx_witnesses t)).
Proof.
  unfold decred_calculate_fee. change sumZ with total.
  rewrite (map_ext (fun w => le2i (dw_value w) false) (fun w => le_value (dw_value w))) by (intros; apply le2i_le).
  rewrite (map_ext (fun w => le2i (dto_value w) false) (fun w => le_value (dto_value w))) by (intros; apply le2i_le). lia.
Qed.

Lemma fee_new_output_L H net t t' o values : tx_obj H net t ->
  Tx_copy H net t None None None (Some (tx_tx_outs t ++ [o])) None None = Ok t' ->
  calculate_fee t' values = calculate_fee t values - le_value (to_value o).
Proof.
  intros O E. destruct (copy_tx_L H net t None None None (Some (tx_tx_outs t ++ [o])) None None O) as [_ [_ F]].
  destruct (F t' E) as [_ [_ [_ [F4 _]]]]. pose proof (fee_bitcoin_L t values). pose proof (fee_bitcoin_L t' values) as G. rewrite F4 in G. cbn [updated] in G.
  rewrite paid_app in G. unfold paid at 2 in G. cbn [map total fold_right] in G. lia.
Qed.
Lemma fee_at_most_L H net t values : tx_obj H net t -> Forall (fun o => all_bytes (to_value o)) (tx_tx_outs t) ->
  calculate_fee t values <= total values.
Proof. intros _ F. pose proof (paid_nonneg _ F). pose proof (fee_bitcoin_L t values). lia. Qed.
