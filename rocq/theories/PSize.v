(* Property C102: the sizes of transactions *)
From Coq Require Import String Lia.
From Verif Require Import Py SNum SNet SHash SScript STx SSig SDecred SZcash SSize MNet MUtils MShared MTx MDecred MZcash
  LBase LUtils LNet LTx LDecred LZcashTx LSapling LSprout LCopy LSize PTx PSig PDecred PZcash PZSign PDSign.
Open Scope list_scope.
Open Scope Z_scope.
Ltac Zify.zify_post_hook ::= idtac.

(* C102: a Bitcoin transaction, with and without its witnesses *)
Theorem tx_size : forall H name net t, get_network name = Ok net -> tx_obj H net t ->
  len (tx_bytes t) = total_size (the_tx t) /\
  exists b, no_witness t = Ok b /\ len b = base_size (the_tx t).
Proof. exact tx_size_lemma. Qed.
Print Assumptions tx_size.
Theorem tx_size_least : forall H name net t, get_network name = Ok net -> tx_obj H net t ->
  10 + 41 * count (tx_tx_ins t) + 9 * count (tx_tx_outs t) <= base_size (the_tx t) <= total_size (the_tx t) /\
  60 <= base_size (the_tx t).
Proof. exact tx_least_lemma. Qed.
Print Assumptions tx_size_least.
Example tx_size_ex : tx_obj toy BitcoinMain ex_segwit /\ total_size (the_tx ex_segwit) = 68 /\ base_size (the_tx ex_segwit) = 62 /\
  tx_obj toy BitcoinMain ex_two /\ total_size (the_tx ex_two) = base_size (the_tx ex_two).
Proof.
  split; [apply ex_objects|]. split; [vm_compute; reflexivity|]. split; [vm_compute; reflexivity|].
  split; [apply ex_two_objects|vm_compute; reflexivity].
Qed.

(* C102: Tx has no limit of 100000 bytes, nor any other within the range of a count *)
Theorem tx_size_unlimited : forall H name net n, get_network name = Ok net -> 0 <= n < 2 ^ 64 ->
  exists t, tx_obj H net t /\ n <= len (tx_bytes t).
Proof.
  intros H name net n En N. pose (outs := ex_output :: repeat ex_output (Z.to_nat (n - 1))).
  assert (1 <= count outs < 2 ^ 64 /\ n <= count outs) as [C M].
  { unfold outs, count. cbn [length]. rewrite repeat_length. lia. }
  destruct (tx_accepts H name net [2; 0; 0; 0] None [ex_input] outs None [0; 0; 0; 0] En) as [[A _] _].
  destruct A as [t E].
  { do 2 (split; [reflexivity|]). split; [vm_compute; split; [discriminate|reflexivity]|]. split; [exact C|]. split; left; reflexivity. }
  destruct (LCopy.tx_fields H net _ _ _ _ _ _ _ E) as (F1 & F2 & F3 & F4 & F5 & F6 & _).
  assert (tx_obj H net t) as O.
  { unfold tx_obj. rewrite F1, F2, F3, F4, F5, F6. destruct ex_parts as [Fi [_ [_ Fo]]]. split; [exact Fi|]. split; [|split; [exact I|exact E]].
    constructor; [exact Fo|]. apply Forall_forall. intros o X. apply repeat_spec in X. subst o. exact Fo. }
  exists t. split; [exact O|]. destruct (tx_size_lemma H name net t En O) as [-> _]. destruct (tx_least_lemma H name net t En O) as [[L1 L2] _].
  rewrite F3, F4 in L1. revert L1. unfold count at 1. cbn [length]. lia.
Qed.
Print Assumptions tx_size_unlimited.

(* C102: the others are at most 100000 bytes *)
Theorem decred_tx_size : forall H name net t, get_network name = Ok net -> In name decred_names -> dtx_obj H net t ->
  len (dtx_bytes t) = decred_size (the_dtx t) /\ decred_size (the_dtx t) <= 100000 /\
  41 * count (dtx_tx_ins t) + 11 * count (dtx_tx_outs t) + 17 * count (dtx_tx_witnesses t) <= 99985.
Proof.
  intros H name net t En I O. destruct (decred_size_lemma H name net t En I O) as [A B]. split; [exact A|]. split; [exact B|].
  exact (decred_fits_lemma H name net t En I O).
Qed.
Print Assumptions decred_tx_size.
Example decred_tx_size_ex : dtx_obj small DecredMain ex_dt /\ decred_size ex_dtx = 155.
Proof. split; [apply ex_dt_obj|vm_compute; reflexivity]. Qed.

Theorem overwinter_tx_size : forall H name net t, get_network name = Ok net -> overwinter_obj H net t ->
  len (ow_bytes t) = overwinter_size t /\ overwinter_size t <= 100000.
Proof. exact overwinter_size_lemma. Qed.
Print Assumptions overwinter_tx_size.
Example overwinter_tx_size_ex : forall H, exists t, overwinter_obj H ZcashOverwinterMain t /\ overwinter_size t = 1969.
Proof.
  intros H. destruct (ex_overwinter H) as (t & O & Ei & Eo & Ej). exists t. split; [exact O|]. unfold overwinter_size. rewrite Ei, Eo, Ej. vm_compute. reflexivity.
Qed.

Theorem sapling_tx_size : forall H name net t, get_network name = Ok net -> sapling_obj H net t ->
  len (sa_bytes t) = sapling_size t /\ sapling_size t <= 100000 /\
  41 * count (sa_tx_ins t) + 9 * count (sa_tx_outs t) + 384 * count (sa_tx_shielded_spends t) +
  948 * count (sa_tx_shielded_outputs t) + 1698 * count (sa_tx_joinsplits t) <= 99971.
Proof.
  intros H name net t En O. destruct (sapling_size_lemma H name net t En O) as [A B]. split; [exact A|]. split; [exact B|].
  exact (sapling_fits_lemma H name net t En O).
Qed.
Print Assumptions sapling_tx_size.
Example sapling_tx_size_ex : sapling_obj small ZcashSaplingMain ex_sa /\ sapling_size ex_sa = 1518.
Proof. split; [destruct sapling_transaction_ex as (a & b & c & _ & O & _); exact O|vm_compute; reflexivity]. Qed.

Theorem sprout_tx_size : forall H name net t, get_network name = Ok net -> sprout_obj H net t ->
  len (sp_bytes t) = sprout_size t /\ sprout_size t <= 100000.
Proof. exact sprout_size_lemma. Qed.
Print Assumptions sprout_tx_size.
Example sprout_tx_size_ex : sprout_obj small ZcashSproutMain ex_sp /\ sprout_size ex_sp = 103 /\
  forall H, exists t, sprout_obj H ZcashSproutMain t /\ 1894 <= sprout_size t.
Proof.
  split; [destruct sprout_transaction_ex as (a & b & c & _ & O & _); exact O|]. split; [vm_compute; reflexivity|].
  intros H. destruct (ex_sprout H 2) as (t & O & V & Ei & Eo & Ej & _); [auto|]. exists t. split; [exact O|].
  unfold sprout_size. rewrite V, Ei, Eo, Ej. cbn [Z.eqb Pos.eqb opts].
  norm_spec. pose proof (zlen_nonneg (opt (sp_joinsplit_sig t))) as N.
  change (vector_size (fun _ : sprout_joinsplit => 1802) [ex_sprout_joinsplit]) with 1803.
  change (transparent_size [ex_input] [ex_output]) with 54. lia.
Qed.
