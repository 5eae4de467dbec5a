(* Properties C80 and C81: the index of the input that a digest is for *)
From Coq Require Import String Lia.
From Verif Require Import Py SNum SNet SHash SScript STx SSig SDecred SZcash MNet MUtils MTx MDecred MZcash
  LBase LNet LTx LDecred LZcashTx LSapling LSprout LDecredTop LIndex PTx PSig PDecred PZcash PZSign PDSign.
Open Scope list_scope.
Open Scope Z_scope.
Ltac Zify.zify_post_hook ::= idtac.

(** * C80 *)

(* C80, full statement: a digest is returned only for an index i with 0 <= i < number of
   inputs.  True: never below - (number of inputs) or from the number of inputs on *)
Theorem digest_index_partial : forall H net t i script value anyone d,
  i < - zlen (tx_tx_ins t) \/ zlen (tx_tx_ins t) <= i ->
  sighash_all H net t i script value anyone <> Ok d /\ sighash_single H net t i script value anyone <> Ok d.
Proof.
  intros H net t i sc v a d I. split; [apply all_outside, I|]. apply single_outside. tauto.
Qed.
Print Assumptions digest_index_partial.
Theorem single_output_index_partial : forall H net t i script value anyone d,
  i < - zlen (tx_tx_outs t) \/ zlen (tx_tx_outs t) <= i -> sighash_single H net t i script value anyone <> Ok d.
Proof. intros H net t i sc v a d I. apply single_outside. tauto. Qed.
Print Assumptions single_output_index_partial.
Theorem overwinter_index_partial : forall H net t ty value script i anyone d,
  i < - zlen (ow_tx_ins t) \/ zlen (ow_tx_ins t) <= i -> overwinter_sighash H net t ty value script i false anyone <> Ok d.
Proof. intros. apply overwinter_outside. assumption. Qed.
Print Assumptions overwinter_index_partial.
Theorem sapling_index_partial : forall H net t ty value script i anyone d,
  i < - zlen (sa_tx_ins t) \/ zlen (sa_tx_ins t) <= i -> sapling_sighash H net t ty value i false script anyone <> Ok d.
Proof. intros. apply sapling_outside. assumption. Qed.
Print Assumptions sapling_index_partial.
Theorem sprout_index_partial : forall H net t i script d,
  sp_tx_ins t <> [] -> i < - zlen (sp_tx_ins t) \/ zlen (sp_tx_ins t) <= i -> sprout_sighash_all H net t i script false <> Ok d.
Proof. intros. apply sprout_all_outside; assumption. Qed.
Print Assumptions sprout_index_partial.
(* Decred counts the witnesses instead, which need not be as many as the inputs *)
Theorem decred_index_partial : forall H net t i script anyone d,
  i < - zlen (dtx_tx_witnesses t) \/ zlen (dtx_tx_witnesses t) <= i -> decred_sighash_all H net t i script anyone <> Ok d.
Proof. intros. apply decred_all_outside. assumption. Qed.
Print Assumptions decred_index_partial.
Theorem decred_single_index_partial : forall H net t i script anyone d,
  i < - zlen (dtx_tx_ins t) \/ zlen (dtx_tx_ins t) <= i \/ i < - zlen (dtx_tx_outs t) \/ zlen (dtx_tx_outs t) <= i ->
  decred_sighash_single H net t i script anyone <> Ok d.
Proof. intros H net t i sc a d I. apply decred_single_outside. tauto. Qed.
Print Assumptions decred_single_index_partial.
(* the cases exist: each side of the bounds *)
Example digest_index_ex : zlen (tx_tx_ins ex_two) = 2 /\ zlen (tx_tx_outs ex_two_one) = 1 /\
  (exists d, sighash_all toy BitcoinMain ex_two 1 (string_wire [118]) None false = Ok d) /\
  sighash_all toy BitcoinMain ex_two 2 (string_wire [118]) None false = Err IndexError /\
  (exists d, sighash_all toy BitcoinMain ex_two (-2) (string_wire [118]) None false = Ok d) /\
  sighash_all toy BitcoinMain ex_two (-3) (string_wire [118]) None false = Err IndexError /\
  sighash_single toy BitcoinMain ex_two_one (-2) (string_wire [118]) None false = Err IndexError.
Proof.
  split; [reflexivity|]. split; [reflexivity|]. split; [eexists; vm_compute; reflexivity|]. split; [reflexivity|].
  split; [eexists; vm_compute; reflexivity|]. split; [reflexivity|]. vm_compute. reflexivity.
Qed.

(* C80 is false: a negative index is accepted, by every class *)
Theorem digest_negative_refuted :
  (exists d, sighash_all toy BitcoinMain ex_two (-1) (string_wire [118]) None false = Ok d) /\
  (exists d, overwinter_sighash small ZcashOverwinterMain ex_ow 1 (Some (repeat 0 8)) (Some (string_wire [118])) (-1) false false = Ok d) /\
  (exists d, sapling_sighash small ZcashSaplingMain ex_sa 1 (Some (repeat 0 8)) (-1) false (Some (string_wire [118])) false = Ok d) /\
  (exists d, sprout_sighash_all small ZcashSproutMain ex_sp (-1) (string_wire [118]) false = Ok d) /\
  (exists d, decred_sighash_all small DecredMain ex_dt (-1) (Some [118]) false = Ok d).
Proof. do 4 (split; [eexists; vm_compute; reflexivity|]). eexists. vm_compute. reflexivity. Qed.
Print Assumptions digest_negative_refuted.
(* a Decred digest is returned for input 2 of a transaction with two inputs, if a third
   witness is there, and none is returned for input 0 if there is no witness *)
Definition ex_third : dtx := dtx_of small (d_version ex_dtx) ex_dins ex_douts (d_lock ex_dtx) (d_expiry ex_dtx) (ex_dwits ++ [hd (mk_dwitness ex_dnone) ex_dwits]).
Definition ex_nowits : dtx := dtx_of small (d_version ex_dtx) ex_dins ex_douts (d_lock ex_dtx) (d_expiry ex_dtx) [].
Lemma ex_third_obj : dtx_obj small DecredMain ex_third /\ dtx_obj small DecredMain ex_nowits.
Proof.
  split; (split; [repeat (constructor; [split; vm_compute; reflexivity|]); constructor|];
    split; [repeat (constructor; [vm_compute; reflexivity|]); constructor|]; split; [repeat (constructor; [vm_compute; reflexivity|]); constructor|];
    rewrite (DecredTx_spec small DecredMain (decred_only_Ok (lit "decred_main") DecredMain (proj1 decred_main_ex) (proj2 decred_main_ex))); vm_compute; reflexivity).
Qed.
Theorem decred_witness_index_refuted : dtx_obj small DecredMain ex_third /\ dtx_obj small DecredMain ex_nowits /\
  zlen (dtx_tx_ins ex_third) = 2 /\ (exists d, decred_sighash_all small DecredMain ex_third 2 (Some [118]) false = Ok d) /\
  zlen (dtx_tx_ins ex_nowits) = 2 /\ decred_sighash_all small DecredMain ex_nowits 0 (Some [118]) false = Err IndexError.
Proof.
  split; [apply ex_third_obj|]. split; [apply ex_third_obj|]. split; [reflexivity|]. split; [eexists; vm_compute; reflexivity|].
  split; [reflexivity|]. vm_compute. reflexivity.
Qed.
Print Assumptions decred_witness_index_refuted.

(** * C81: what an index that is accepted means *)

(* ALL: index i from -n to -1 stands for input n + i *)
Theorem all_index : forall H net t i script value anyone, - zlen (tx_tx_ins t) <= i < 0 ->
  sighash_all H net t i script value anyone = sighash_all H net t (zlen (tx_tx_ins t) + i) script value anyone.
Proof. intros H net t i sc v a I. rewrite Z.add_comm. apply all_wrap, I. Qed.
Print Assumptions all_index.
Example all_index_ex : - zlen (tx_tx_ins ex_two) <= -1 < 0 /\ zlen (tx_tx_ins ex_two) + -1 = 1.
Proof. split; [split; [discriminate|reflexivity]|reflexivity]. Qed.
(* SINGLE: for input n + i, together with output m + i: the digest is the one for input
   n + i of a transaction that has this output in that place *)
Definition same_but_outputs (t t' : tx) : Prop :=
  tx_version t' = tx_version t /\ tx_flag t' = tx_flag t /\ tx_tx_ins t' = tx_tx_ins t /\
  tx_tx_witnesses t' = tx_tx_witnesses t /\ tx_lock_time t' = tx_lock_time t.
Theorem single_index : forall H net t t' i script value anyone,
  tx_obj H net t -> tx_obj H net t' -> same_but_outputs t t' ->
  - zlen (tx_tx_ins t) <= i < 0 -> - zlen (tx_tx_outs t) <= i ->
  nth_error (tx_tx_outs t') (Z.to_nat (zlen (tx_tx_ins t) + i)) = nth_error (tx_tx_outs t) (Z.to_nat (zlen (tx_tx_outs t) + i)) ->
  sighash_single H net t i script value anyone = sighash_single H net t' (zlen (tx_tx_ins t) + i) script value anyone.
Proof.
  intros H net t t' i sc v a O O' B I J. rewrite !(Z.add_comm _ i). intros N.
  assert (forall u, tx_obj H net u -> zlen (tx_tx_outs u) < 2 ^ 64) as L.
  { intros u Q. apply tx_obj_iff in Q. destruct Q as (_ & _ & _ & A & _). unfold tx_args_ok in A.
    repeat match type of A with _ && _ = true => let X := fresh in apply andb_true_iff in A; destruct A as [A X] end. lia. }
  apply single_wrap; auto.
Qed.
Print Assumptions single_index.
(* input 1 with output 0 *)
Definition ex_moved : tx := tx_of toy BitcoinMain [2; 0; 0; 0] None [ex_input; ex_input2] [ex_output2; ex_output] None [0; 0; 0; 0].
Example single_index_ex : tx_obj toy BitcoinMain ex_two_one /\ tx_obj toy BitcoinMain ex_moved /\ same_but_outputs ex_two_one ex_moved /\
  nth_error (tx_tx_outs ex_moved) (Z.to_nat (zlen (tx_tx_ins ex_two_one) + -1)) = nth_error (tx_tx_outs ex_two_one) (Z.to_nat (zlen (tx_tx_outs ex_two_one) + -1)) /\
  exists d, sighash_single toy BitcoinMain ex_two_one (-1) (string_wire [118]) None false = Ok d /\
    sighash_single toy BitcoinMain ex_moved 1 (string_wire [118]) None false = Ok d.
Proof.
  split; [apply ex_two_objects|]. split; [repeat split; repeat constructor|]. split; [repeat split|]. split; [reflexivity|].
  eexists. split; vm_compute; reflexivity.
Qed.

(* Zcash *)
Theorem overwinter_index : forall H net t ty value script i joinsplit anyone, ty <> 3 -> - zlen (ow_tx_ins t) <= i < 0 ->
  overwinter_sighash H net t ty value script i joinsplit anyone = overwinter_sighash H net t ty value script (zlen (ow_tx_ins t) + i) joinsplit anyone.
Proof. intros H net t ty v sc i js a N I. rewrite Z.add_comm. apply overwinter_wrap; assumption. Qed.
Print Assumptions overwinter_index.
Theorem sapling_index : forall H net t ty value script i joinsplit anyone, ty <> 3 -> - zlen (sa_tx_ins t) <= i < 0 ->
  sapling_sighash H net t ty value i joinsplit script anyone = sapling_sighash H net t ty value (zlen (sa_tx_ins t) + i) joinsplit script anyone.
Proof. intros H net t ty v sc i js a N I. rewrite Z.add_comm. apply sapling_wrap; assumption. Qed.
Print Assumptions sapling_index.
Theorem overwinter_single_index : forall H net t t' value script i joinsplit anyone,
  ow_header t' = ow_header t -> ow_group_id t' = ow_group_id t -> ow_tx_ins t' = ow_tx_ins t -> ow_tx_joinsplits t' = ow_tx_joinsplits t ->
  ow_joinsplit_pubkey t' = ow_joinsplit_pubkey t -> ow_lock_time t' = ow_lock_time t -> ow_expiry_height t' = ow_expiry_height t ->
  - zlen (ow_tx_ins t) <= i < 0 -> - zlen (ow_tx_outs t) <= i ->
  nth_error (ow_tx_outs t') (Z.to_nat (zlen (ow_tx_ins t) + i)) = nth_error (ow_tx_outs t) (Z.to_nat (zlen (ow_tx_outs t) + i)) ->
  overwinter_sighash H net t 3 value script i joinsplit anyone = overwinter_sighash H net t' 3 value script (zlen (ow_tx_ins t) + i) joinsplit anyone.
Proof. intros H net t t' v sc i js a. intros. rewrite !(Z.add_comm _ i) in *. apply overwinter_single_wrap; assumption. Qed.
Print Assumptions overwinter_single_index.
Theorem sapling_single_index : forall H net t t' value script i joinsplit anyone,
  sa_header t' = sa_header t -> sa_group_id t' = sa_group_id t -> sa_tx_ins t' = sa_tx_ins t -> sa_tx_joinsplits t' = sa_tx_joinsplits t ->
  sa_joinsplit_pubkey t' = sa_joinsplit_pubkey t -> sa_lock_time t' = sa_lock_time t -> sa_expiry_height t' = sa_expiry_height t ->
  sa_value_balance t' = sa_value_balance t -> sa_tx_shielded_spends t' = sa_tx_shielded_spends t -> sa_tx_shielded_outputs t' = sa_tx_shielded_outputs t ->
  - zlen (sa_tx_ins t) <= i < 0 -> - zlen (sa_tx_outs t) <= i ->
  nth_error (sa_tx_outs t') (Z.to_nat (zlen (sa_tx_ins t) + i)) = nth_error (sa_tx_outs t) (Z.to_nat (zlen (sa_tx_outs t) + i)) ->
  sapling_sighash H net t 3 value i joinsplit script anyone = sapling_sighash H net t' 3 value (zlen (sa_tx_ins t) + i) joinsplit script anyone.
Proof. intros H net t t' v sc i js a. intros. rewrite !(Z.add_comm _ i) in *. apply sapling_single_wrap; assumption. Qed.
Print Assumptions sapling_single_index.
Definition ex_ow_moved : overwinter_tx := ow_of small ZcashOverwinterMain [ex_input; ex_input2] [ex_output2; ex_output] (repeat 0 4) (repeat 1 4) [] None None.
Definition ex_sa_moved : sapling_tx := sa_of small ZcashSaplingMain [ex_input; ex_input2] [ex_output2; ex_output] (repeat 0 4) (repeat 1 4) (repeat 255 8) [ex_spend] [ex_shielded_output] [] None None (Some (repeat 3 64)).
Example zcash_single_index_ex :
  (exists d, overwinter_sighash small ZcashOverwinterMain ex_ow 3 (Some (repeat 0 8)) (Some (string_wire [118])) (-1) false false = Ok d /\
    overwinter_sighash small ZcashOverwinterMain ex_ow_moved 3 (Some (repeat 0 8)) (Some (string_wire [118])) 1 false false = Ok d) /\
  (exists d, sapling_sighash small ZcashSaplingMain ex_sa 3 (Some (repeat 0 8)) (-1) false (Some (string_wire [118])) false = Ok d /\
    sapling_sighash small ZcashSaplingMain ex_sa_moved 3 (Some (repeat 0 8)) 1 false (Some (string_wire [118])) false = Ok d).
Proof. split; eexists; split; vm_compute; reflexivity. Qed.
(* a digest for a joinsplit takes no notice of the index *)
Theorem overwinter_joinsplit_index : forall H net t ty value script i i' anyone, ty <> 3 ->
  overwinter_sighash H net t ty value script i true anyone = overwinter_sighash H net t ty value script i' true anyone.
Proof. intros. apply overwinter_joinsplit. assumption. Qed.
Print Assumptions overwinter_joinsplit_index.
Theorem sapling_joinsplit_index : forall H net t ty value script i i' anyone, ty <> 3 ->
  sapling_sighash H net t ty value i true script anyone = sapling_sighash H net t ty value i' true script anyone.
Proof. intros. apply sapling_joinsplit. assumption. Qed.
Print Assumptions sapling_joinsplit_index.
(* except that SINGLE still needs an output *)
Theorem zcash_single_needs_output : forall H net value script i joinsplit anyone d,
  (forall t, i < - zlen (ow_tx_outs t) \/ zlen (ow_tx_outs t) <= i -> overwinter_sighash H net t 3 value script i joinsplit anyone <> Ok d) /\
  (forall t, i < - zlen (sa_tx_outs t) \/ zlen (sa_tx_outs t) <= i -> sapling_sighash H net t 3 value i joinsplit script anyone <> Ok d).
Proof. intros. split; intros t I; [apply overwinter_single_outside|apply sapling_single_outside]; assumption. Qed.
Print Assumptions zcash_single_needs_output.
Example zcash_joinsplit_index_ex : exists d e,
  overwinter_sighash small ZcashOverwinterMain ex_ow 1 None None 77 true false = Ok d /\
  sapling_sighash small ZcashSaplingMain ex_sa 1 None 77 true None false = Ok e /\
  overwinter_sighash small ZcashOverwinterMain ex_ow 3 None None 77 true false = Err NotImplementedError /\
  overwinter_sighash small ZcashOverwinterMain ex_ow 3 None None 1 true false = Err IndexError.
Proof. eexists. eexists. do 3 (split; [vm_compute; reflexivity|]). vm_compute. reflexivity. Qed.
(* Sprout: the same for ALL; without inputs neither index nor script matters *)
Theorem sprout_index : forall H net t i script, - zlen (sp_tx_ins t) <= i < 0 ->
  sprout_sighash_all H net t i script false = sprout_sighash_all H net t (zlen (sp_tx_ins t) + i) script false.
Proof. intros H net t i sc I. rewrite Z.add_comm. apply sprout_all_wrap, I. Qed.
Print Assumptions sprout_index.
Theorem sprout_no_inputs_index : forall H net t i i' script script', sp_tx_ins t = [] ->
  sprout_sighash_all H net t i script false = sprout_sighash_all H net t i' script' false.
Proof. intros. apply sprout_all_any. assumption. Qed.
Print Assumptions sprout_no_inputs_index.

(* Decred: index i from -w to -1 stands for witness w + i, where w is the number of
   witnesses *)
Theorem decred_index : forall H net t i script anyone, - zlen (dtx_tx_witnesses t) <= i < 0 ->
  decred_sighash_all H net t i script anyone = decred_sighash_all H net t (zlen (dtx_tx_witnesses t) + i) script anyone.
Proof. intros H net t i sc a I. rewrite Z.add_comm. apply decred_all_wrap, I. Qed.
Print Assumptions decred_index.
Theorem decred_single_index : forall H net t i script anyone n,
  zlen (dtx_tx_witnesses t) = n -> zlen (dtx_tx_ins t) = n -> zlen (dtx_tx_outs t) = n -> - n <= i < 0 ->
  decred_sighash_single H net t i script anyone = decred_sighash_single H net t (n + i) script anyone.
Proof. intros H net t i sc a n. intros. rewrite Z.add_comm. apply decred_single_wrap; assumption. Qed.
Print Assumptions decred_single_index.
Example decred_index_ex : zlen (dtx_tx_witnesses ex_dt) = 2 /\ zlen (dtx_tx_ins ex_dt) = 2 /\ zlen (dtx_tx_outs ex_dt) = 2 /\
  exists d e, decred_sighash_all small DecredMain ex_dt (-1) (Some [118]) false = Ok d /\ decred_sighash_all small DecredMain ex_dt 1 (Some [118]) false = Ok d /\
    decred_sighash_single small DecredMain ex_dt (-1) (Some [118]) false = Ok e /\ decred_sighash_single small DecredMain ex_dt 1 (Some [118]) false = Ok e.
Proof. split; [reflexivity|]. split; [reflexivity|]. split; [reflexivity|]. eexists. eexists. do 3 (split; [vm_compute; reflexivity|]). vm_compute. reflexivity. Qed.
