(* Lemmas for PDigest.v: the Overwinter and Sapling digests on every argument *)
From Coq Require Import String.
From Verif Require Import Py LBase MNet MUtils MShared MScript MTx MZcash SNum SNet SHash SScript STx SSig SZcash SDigest SZDigest
  LNet LUtils LVarint LTx LTxParse LSig LBip143 LZcash LZcashTx LZip LSapling LZip243 LSprout LZcashTop LSproutSig LIndex LDigest.
Open Scope list_scope.
Open Scope Z_scope.
Ltac Zify.zify_post_hook ::= idtac.

Section Zip.
Context (H : hashes) (net : network).

Lemma sequences_exact ins ty anyone : z_hash_sequence H ins ty anyone = sequences_part H ty anyone (map the_input ins).
Proof. unfold z_hash_sequence, sequences_part, blake2b, personal. rewrite map_map. destruct (_ || _); reflexivity. Qed.

Lemma outputs_exact outs ty i : Forall txout_obj outs -> z_hash_outputs H outs ty i = outputs_part H ty i (map the_output outs).
Proof.
  intros F. unfold z_hash_outputs, outputs_part. cbn [zmem existsb]. change SIGHASH_ALL with 1. change SIGHASH_SINGLE with 3.
  rewrite (Z.eqb_sym ty 1), (Z.eqb_sym ty 3). rewrite orb_false_r. rewrite (Z.eqb_sym 1 ty), (Z.eqb_sym 3 ty).
  destruct (Z.eqb_spec ty 1) as [->|N].
  - change (1 =? 3) with false. cbn [orb negb bind]. rewrite app_nil_r, map_outputs by exact F. reflexivity.
  - destruct (Z.eqb_spec ty 3) as [->|N']; cbn [orb negb]; [|reflexivity]. rewrite map_length. fold (zlen outs).
    destruct (zlen outs <? i); cbn [guard bind]; [reflexivity|]. rewrite index_place, at_index_map.
    destruct (at_index outs i) as [o|] eqn:E; cbn [bind option_map app]; [|reflexivity]. unfold blake2b, personal. do 2 f_equal.
    apply at_index_in in E. rewrite Forall_forall in F. apply txout_wire, F, E.
Qed.

Lemma type_exact ty (anyone : bool) : i2le_padded (if anyone then Z.lor ty SIGHASH_ANYONECANPAY else ty) 4 = type_part ty anyone.
Proof.
  unfold type_part. change SIGHASH_ANYONECANPAY with 128. set (k := if anyone then Z.lor ty 128 else ty). cbv zeta.
  destruct ((0 <=? k) && (k <? 2 ^ 32)) eqn:R.
  - rewrite i2le_padded_Ok by (change (256 ^ 4) with (2 ^ 32); lia). reflexivity.
  - destruct (i2le_padded_exact k 4 ltac:(lia)) as [_ X]. apply X. change (256 ^ 4) with (2 ^ 32). lia.
Qed.

Lemma input_exact ins joinsplit i sc pv : Forall txin_obj ins -> z_input_part ins joinsplit i sc pv = input_part joinsplit i sc pv (map the_input ins).
Proof.
  intros F. unfold z_input_part, input_part. destruct joinsplit; [reflexivity|]. rewrite index_place, at_index_map.
  destruct (at_index ins i) as [a|] eqn:E; cbn [bind option_map]; [|reflexivity]. destruct sc, pv; cbn [add_opt bind]; try reflexivity. do 2 f_equal.
  apply at_index_in in E. rewrite Forall_forall in F. destruct (F a E) as [O _]. apply outpoint_obj_iff in O. apply O.
Qed.

Lemma overwinter_total t ty value script i joinsplit anyone : overwinter_obj H net t ->
  overwinter_sighash H net t ty value script i joinsplit anyone = exact_zip143 H t ty value script i joinsplit anyone.
Proof.
  intros O. pose proof (overwinter_net H net t O) as Z. apply overwinter_obj_iff in O. destruct O as [Fi [Fo [Fj [A E]]]].
  unfold overwinter_sighash, exact_zip143, zcash_only, guard. rewrite Z. destruct (joinsplit && anyone); [reflexivity|]. cbn [negb bind]. cbv zeta.
  rewrite prevouts_spec, sequences_exact, outputs_exact, type_exact, input_exact by assumption.
  rewrite (joinsplits_spec H sprout_joinsplit_wire).
  2: { intros j I. rewrite Forall_forall in Fj. apply Fj, sprout_joinsplit_obj_iff in I. apply I. }
  2: { intros N. unfold ow_args_ok in A. rewrite !andb_true_iff in A. destruct A as [[[[[[[[[[_ _] _] _] _] _] A] _] _] _] _].
       destruct (Z.eqb_spec (zlen (ow_tx_joinsplits t)) 0) as [J|J]; [apply zlen_0 in J; contradiction|]. cbn [orb] in A.
       destruct (ow_joinsplit_pubkey t); [eauto|discriminate]. }
  assert (ow_header t = [3; 0; 0; 0x80] /\ ow_group_id t = [0x70; 0x82; 0xc4; 0x03]) as [Hh Hg] by (rewrite E; split; reflexivity).
  destruct (outputs_part H ty i _); cbn [bind]; [|reflexivity]. destruct (type_part ty anyone); cbn [bind]; [|reflexivity].
  destruct (input_part _ _ _ _ _); cbn [bind]; [|reflexivity]. rewrite Hh, Hg. reflexivity.
Qed.

Lemma sapling_total t ty value script i joinsplit anyone : sapling_obj H net t ->
  sapling_sighash H net t ty value i joinsplit script anyone = exact_zip243 H t ty value script i joinsplit anyone.
Proof.
  intros O. pose proof (sapling_net H net t O) as Z. destruct (sapling_keys H net t O) as [_ [Keys _]]. apply sapling_obj_iff in O. destruct O as [Fi [Fo [Fs [Fu [Fj [A E]]]]]].
  unfold sapling_sighash, exact_zip243, zcash_only, guard. rewrite Z. destruct (joinsplit && anyone); [reflexivity|]. cbn [negb bind]. cbv zeta.
  rewrite prevouts_spec, sequences_exact, outputs_exact, type_exact, input_exact, (spends_spec H net), (shielded_outputs_spec H net) by assumption.
  rewrite (joinsplits_spec H sapling_joinsplit_wire).
  2: { intros j I. rewrite Forall_forall in Fj. apply Fj, sapling_joinsplit_obj_iff in I. apply I. }
  2: { intros N. destruct (Keys N) as [pk [sg [-> _]]]. eauto. }
  assert (sa_header t = [4; 0; 0; 0x80] /\ sa_group_id t = [0x85; 0x20; 0x2f; 0x89]) as [Hh Hg] by (rewrite E; split; reflexivity).
  destruct (outputs_part H ty i _); cbn [bind]; [|reflexivity]. destruct (type_part ty anyone); cbn [bind]; [|reflexivity].
  destruct (input_part _ _ _ _ _); cbn [bind]; [|reflexivity]. rewrite Hh, Hg. reflexivity.
Qed.
End Zip.

Section Sprout.
Context (H : hashes) (name : str) (net : network) (En : get_network name = Ok net).

Lemma sprout_prep_script t i script v : VarInt_from_bytes net script = Ok v ->
  sprout_sighash_prep H net t i script = sprout_sighash_prep H net t i (compactsize 0 ++ slice_from script (zlen (vi_bytes v))).
Proof.
  intros E. unfold sprout_sighash_prep. rewrite E. destruct (zlen (sp_tx_ins t) =? 0); [reflexivity|]. destruct (mapM _ _); cbn [bind]; [|reflexivity].
  rewrite VarInt_roundtrip by (try (left; reflexivity); lia). cbn [bind vi_bytes]. rewrite slice_from_app by reflexivity. reflexivity.
Qed.

Lemma taken_string code : readable_size name (len code) -> len code < 2 ^ 64 ->
  exists v, VarInt_from_bytes net (string_wire code) = Ok v /\ zlen (vi_bytes v) = zlen (compactsize (len code)).
Proof.
  intros R L. eexists. split; [unfold string_wire; norm_spec; apply VarInt_roundtrip; [split; [apply zlen_nonneg|exact L]|apply (readable_spec name net _ En), R]|]. reflexivity.
Qed.

Lemma sprout_total ty t i script anyone : sprout_obj H net t -> all_bytes script ->
  match ty with All => sprout_sighash_all H net t i script anyone | Single => sprout_sighash_single H net t i script anyone end =
  exact_sprout H name ty t i script anyone.
Proof.
  intros O B. destruct ty; [|exact (sprout_single_refused H net t i script anyone O)].
  unfold exact_sprout. destruct (sp_tx_ins t) as [|a0 l0] eqn:N; [exact (sprout_digest_none H name net En t i script anyone O N)|].
  rewrite <- N. pose proof (taken_spec name net script En B) as T.
  pose proof O as O'. apply sprout_obj_iff in O'. destruct O' as [js [_ [Fi _]]].
  assert (zlen (sp_tx_ins t) =? 0 = false) as Z0 by (rewrite N, zlen_cons; pose proof (zlen_nonneg l0); lia).
  destruct (length_taken name script) as [k|e].
  2:{ unfold sprout_sighash_all, sprout_sighash_prep. rewrite Z0.
      rewrite (mapM_Ok_map _ clear) by (intros a I; apply copy_clear; rewrite Forall_forall in Fi; apply Fi, I). cbn [bind]. rewrite T. reflexivity. }
  destruct T as (K & v & T & L). unfold sprout_sighash_all. rewrite (sprout_prep_script t i script v T), L.
  rewrite slice_from_skipn by exact K. set (code := skipn (Z.to_nat k) script).
  destruct (place (length (sp_tx_ins t)) i) as [n|] eqn:P.
  2:{ apply place_none in P. unfold sprout_sighash_prep. rewrite Z0.
      rewrite (mapM_Ok_map _ clear) by (intros a I; apply copy_clear; rewrite Forall_forall in Fi; apply Fi, I). cbn [bind].
      rewrite VarInt_roundtrip by (try (left; reflexivity); lia). cbn [bind]. rewrite index_outside by (rewrite zlen_map; unfold zlen; lia). reflexivity. }
  assert (exists x, nth_error (sp_tx_ins t) n = Some x) as [x Ex].
  { destruct (nth_error (sp_tx_ins t) n) eqn:X; [eauto|]. apply nth_error_None in X. apply place_lt in P. lia. }
  assert (sprout_sighash_prep H net t i (compactsize 0 ++ code) = sprout_sighash_prep H net t (Z.of_nat n) (compactsize 0 ++ code)) as ->.
  { destruct (place_cases (length (sp_tx_ins t)) i) as [(m & F & Lm & [Em|Em])|[F _]]; rewrite F in P; [| |discriminate]; injection P as <-; [rewrite Em; reflexivity|].
    rewrite sprout_prep_wrap by (unfold zlen; lia). f_equal. unfold zlen. lia. }
  destruct (Z.leb_spec (len code) 1650) as [Lc|Lc]; cbn [andb].
  - assert (readable_size name (len code)) as R.
    { left. intros U. apply (sprout_obj_name H name net En) in O. revert U O. clear. 
      assert (forallb (fun a => negb (existsb (leqb a) sprout_names)) upgraded_zcash = true) as F by (vm_compute; reflexivity).
      intros U O. rewrite forallb_forall in F. specialize (F _ U). apply negb_true_iff in F. rewrite <- not_true_iff_false, existsb_exists in F. apply F.
      exists name. split; [exact O|]. destruct (leqb_spec name name); congruence. }
    pose proof (sprout_digest H name net En t n x code anyone O Ex R) as Q. replace (len code <=? 1650) with true in Q by lia. cbn [andb] in Q. rewrite <- Q by lia. clear Q. unfold sprout_sighash_all.
    assert (forall v', VarInt_from_bytes net (string_wire code) = Ok v' -> zlen (vi_bytes v') = zlen (compactsize (len code)) ->
      sprout_sighash_prep H net t (Z.of_nat n) (string_wire code) = sprout_sighash_prep H net t (Z.of_nat n) (compactsize 0 ++ code)) as Q.
    { intros v' Ev Lv. rewrite (sprout_prep_script t (Z.of_nat n) _ v' Ev), Lv. unfold string_wire. rewrite slice_from_app by reflexivity. reflexivity. }
    destruct (taken_string code R) as (v' & Ev & Lv); [lia|]. rewrite (Q v' Ev Lv).
    destruct (sprout_some H net t O) as [js' J]. unfold sprout_sighash_anyone_can_pay. rewrite J. reflexivity.
  - unfold sprout_sighash_prep. rewrite Z0.
    rewrite (mapM_Ok_map _ clear) by (intros a I; apply copy_clear; rewrite Forall_forall in Fi; apply Fi, I). cbn [bind].
    rewrite VarInt_roundtrip by (try (left; reflexivity); lia). cbn [bind vi_bytes]. rewrite slice_from_app by reflexivity.
    rewrite (index_of_nat _ n (clear x)) by (rewrite nth_error_map, Ex; reflexivity). cbn [bind].
    rewrite copy_setc by (rewrite Forall_forall in Fi; apply Fi; eapply nth_error_In; exact Ex).
    norm_spec. destruct (Z.leb_spec (zlen code) 1650); [|reflexivity]. unfold len, zlen in *. lia.
Qed.
End Sprout.
