(* Lemmas about MZcash.v: Sprout signature digests *)
From Coq Require Import String.
From Verif Require Import Py LBase MNet MUtils MShared MScript MTx MZcash SNum SNet SHash SScript STx SSig SZcash LNet LUtils LVarint LTx LTxParse LSig LBase58 LZcash LZcashTx LZip LSapling LSprout LZip243 LZcashTop.
Open Scope list_scope.
Open Scope Z_scope.
Ltac Zify.zify_post_hook ::= idtac.

Section Sig.
Context (H : hashes) (name : str) (net : network) (En : get_network name = Ok net).

Lemma sprout_some t : sprout_obj H net t -> exists js, sp_tx_joinsplits t = Some js.
Proof. intros O. apply sprout_obj_iff in O. destruct O as [js O]. exists js. tauto. Qed.

(* joinsplits are never None, so these two always refuse *)
Lemma sprout_single_refused t idx sc anyone : sprout_obj H net t -> sprout_sighash_single H net t idx sc anyone = Err ValueError.
Proof. intros O. destruct (sprout_some t O) as [js E]. unfold sprout_sighash_single. rewrite E. reflexivity. Qed.

Lemma sprout_acp_refused t idx sc : sprout_obj H net t -> forall c, sprout_sighash_prep H net t idx sc = Ok c -> sprout_sighash_all H net t idx sc true = Err ValueError.
Proof. intros O c E. destruct (sprout_some t O) as [js J]. unfold sprout_sighash_all, sprout_sighash_anyone_can_pay. rewrite E, J. reflexivity. Qed.

Definition sp_copy_wire (t : sprout_tx) (ins : list txin) : bytes :=
  sprout_layout (sp_version t) ins (sp_tx_outs t) (sp_lock_time t) (opts (sp_tx_joinsplits t)) (sp_joinsplit_pubkey t) (Some []).

Lemma sprout_copy_ins t ins : sprout_obj H net t -> Forall txin_obj ins -> zlen ins = zlen (sp_tx_ins t) ->
  if zlen (sp_copy_wire t ins) <=? 100000
  then exists c, SproutTx_copy H net t None (Some ins) None None None None (Some []) = Ok c /\ sp_bytes c = sp_copy_wire t ins
  else SproutTx_copy H net t None (Some ins) None None None None (Some []) = Err ValueError.
Proof.
  intros O Fi L. pose proof O as O'. apply sprout_obj_iff in O'. destruct O' as [js [Bv [Fi' [Fo [J [Fj [A E]]]]]]].
  unfold SproutTx_copy, or_self, or_self_opt, sp_copy_wire. rewrite J. cbn [opts].
  apply (sp_rules_iff name net En _ _ _ _ _ _ _ Fi' Fo Fj) in A. destruct A as [R1 [R2 [R3 R4]]].
  destruct (sprout_ctor H name net En (sp_version t) ins (sp_tx_outs t) (sp_lock_time t) js (sp_joinsplit_pubkey t) (Some []) Bv Fi Fo Fj) as [C1 C2].
  destruct (Z.leb_spec (zlen (sprout_layout (sp_version t) ins (sp_tx_outs t) (sp_lock_time t) js (sp_joinsplit_pubkey t) (Some []))) 100000) as [S|S].
  - destruct C1 as [c [Ec [Oc [F1 [F2 [F3 [F4 [F5 [F6 F7]]]]]]]]].
    + split; [exact R1|]. split; [exact R2|]. split; [|exact S]. destruct R3 as [[V [-> N]]|[V [N [K _]]]]; [left|right; auto].
      split; [exact V|]. split; [reflexivity|]. intros ->. apply N, zlen_0. rewrite <- L. reflexivity.
    + exists c. split; [exact Ec|]. rewrite (sprout_bytes H net c Oc). unfold sprout_wire. rewrite F1, F2, F3, F4, F5, F6, F7. cbn [opts].
      unfold sprout_layout. destruct (le_value (sp_version t) =? 1); reflexivity.
  - destruct C2 as [C2|[_ [_ C2]]]; [|exact C2|discriminate]. intros [_ [_ [_ X]]]. norm_spec. change (zlen (sprout_layout (sp_version t) ins (sp_tx_outs t) (sp_lock_time t) js (sp_joinsplit_pubkey t) (Some [])) <= 100000) in X. lia.
Qed.

Lemma sprout_prep_spec t n i code : sprout_obj H net t -> nth_error (sp_tx_ins t) n = Some i ->
  readable_size name (len code) -> len code < 2 ^ 64 ->
  if (zlen code <=? 1650) && (zlen (sprout_signed n code t) <=? 100000)
  then exists c, sprout_sighash_prep H net t (Z.of_nat n) (string_wire code) = Ok c /\ sp_bytes c = sprout_signed n code t
  else sprout_sighash_prep H net t (Z.of_nat n) (string_wire code) = Err ValueError.
Proof.
  intros O E R L. pose proof O as O'. apply sprout_obj_iff in O'. destruct O' as [js [Bv [Fi [Fo [J [Fj [A _]]]]]]].
  assert (exists r, sprout_sighash_prep H net t (Z.of_nat n) (string_wire code) = r /\
    r = if zlen code <=? 1650 then SproutTx_copy H net t None (Some (prep_ins n code i (sp_tx_ins t))) None None None None (Some []) else Err ValueError) as [r [Er Er']].
  { eexists. split; [reflexivity|]. unfold sprout_sighash_prep.
    destruct (Z.eqb_spec (zlen (sp_tx_ins t)) 0) as [Z0|_]; [apply zlen_0 in Z0; rewrite Z0 in E; destruct n; discriminate|].
    rewrite (mapM_Ok_map _ clear) by (intros a I; apply copy_clear; rewrite Forall_forall in Fi; apply Fi, I). cbn [bind].
    unfold string_wire. norm_spec. rewrite VarInt_roundtrip; [|split; [apply zlen_nonneg|exact L]|apply (readable_spec name net _ En), R]. cbn [bind vi_bytes].
    rewrite (index_of_nat _ n (clear i)) by (rewrite nth_error_map, E; reflexivity). cbn [bind].
    rewrite slice_from_app by reflexivity.
    rewrite copy_setc by (rewrite Forall_forall in Fi; apply Fi; eapply nth_error_In; exact E).
    destruct (Z.leb_spec (zlen code) 1650) as [L'|L']; [|reflexivity]. cbn [bind].
    rewrite (set_index_of_nat _ n (clear i)) by (rewrite nth_error_map, E; reflexivity). cbn [bind].
    rewrite firstn_map, skipn_map. reflexivity. }
  rewrite Er, Er'. destruct (Z.leb_spec (zlen code) 1650) as [L'|L']; cbn [andb]; [|reflexivity].
  assert (sprout_signed n code t = sp_copy_wire t (prep_ins n code i (sp_tx_ins t))) as ->.
  { unfold sprout_signed, sp_copy_wire, sprout_layout, joinsplits_wire. unfold inputs_wire. rewrite (the_prep n code i (sp_tx_ins t) E). reflexivity. }
  apply sprout_copy_ins; [exact O|apply prep_obj; assumption|apply prep_len, E].
Qed.

Lemma sprout_final c k (b : bytes) : In name sprout_names -> sp_bytes c = b -> 0 <= k < 2 ^ 32 ->
  sprout_sighash_final_hashing H net c k = Ok (sha256d H (b ++ le_bytes 4 k)).
Proof.
  intros I B K. assert (In name zcash_names) as Z by (apply (names_zcash sprout_names); auto).
  unfold sprout_sighash_final_hashing, zcash_only, guard. pose proof Z as Z'. apply (zcash_has name net En) in Z'. rewrite Z'. cbn [negb bind].
  rewrite i2le_padded_Ok by lia. cbn [bind]. rewrite (hash256_zcash H name net En) by exact Z. rewrite B. reflexivity.
Qed.

Lemma sprout_obj_name t : sprout_obj H net t -> In name sprout_names.
Proof. intros O. apply sprout_obj_iff in O. destruct O as [js [_ [_ [_ [_ [_ [A _]]]]]]]. unfold sp_args_ok in A. rewrite !andb_true_iff in A. apply (sprout_has name net En). tauto. Qed.

Lemma sprout_digest t n i code anyone : sprout_obj H net t -> nth_error (sp_tx_ins t) n = Some i ->
  readable_size name (len code) -> len code < 2 ^ 64 ->
  sprout_sighash_all H net t (Z.of_nat n) (string_wire code) anyone =
  if (len code <=? 1650) && (len (sprout_signed n code t) <=? 100000) && negb anyone
  then Ok (sha256d H (sprout_signed n code t ++ le_bytes 4 1)) else Err ValueError.
Proof.
  intros O E R L. pose proof (sprout_prep_spec t n i code O E R L) as P. norm_spec.
  change (len code) with (zlen code). change (len (sprout_signed n code t)) with (zlen (sprout_signed n code t)).
  destruct ((zlen code <=? 1650) && (zlen (sprout_signed n code t) <=? 100000)); cbn [andb].
  - destruct P as [c [P B]]. destruct anyone; cbn [negb].
    + apply (sprout_acp_refused _ _ _ O _ P).
    + unfold sprout_sighash_all. rewrite P. cbn [bind]. apply sprout_final; [apply (sprout_obj_name t O)|exact B|cbn; lia].
  - unfold sprout_sighash_all. rewrite P. reflexivity.
Qed.

(* a version 2 transaction that spends shielded value only *)
Lemma sprout_digest_none t idx sc anyone : sprout_obj H net t -> sp_tx_ins t = [] ->
  sprout_sighash_all H net t idx sc anyone = if anyone then Err ValueError else Ok (sha256d H (sprout_signed 0 [] t ++ le_bytes 4 1)).
Proof.
  intros O N. pose proof (sprout_copy_ins t [] O (Forall_nil _)) as C. rewrite N in C. specialize (C eq_refl).
  assert (sprout_sighash_prep H net t idx sc = SproutTx_copy H net t None (Some []) None None None None (Some [])) as P.
  { unfold sprout_sighash_prep, SproutTx_copy, or_self. rewrite N. reflexivity. }
  assert (sp_copy_wire t [] = sprout_signed 0 [] t) as W.
  { unfold sprout_signed, sp_copy_wire, sprout_layout, joinsplits_wire. rewrite N. reflexivity. }
  assert (zlen (sp_copy_wire t []) <= 100000) as S.
  { pose proof (sprout_bytes H net t O) as B. pose proof (sprout_version H net t O) as V. apply sprout_obj_iff in O. destruct O as [js [_ [Fi [Fo [J [Fj [A Et]]]]]]].
    apply (sp_rules_iff name net En _ _ _ _ _ _ _ Fi Fo Fj) in A. destruct A as [_ [_ [_ A]]]. norm_spec.
    change (zlen (sprout_layout (sp_version t) (sp_tx_ins t) (sp_tx_outs t) (sp_lock_time t) js (sp_joinsplit_pubkey t) (sp_joinsplit_sig t)) <= 100000) in A.
    unfold sp_copy_wire. rewrite N in A. rewrite J. cbn [opts]. unfold sprout_layout, joinsplits_wire in *.
    destruct (le_value (sp_version t) =? 1); [exact A|]. rewrite !zlen_app in *. cbn [opt]. pose proof (zlen_nonneg (opt (sp_joinsplit_sig t))). change (zlen (@nil Z)) with 0. lia. }
  apply Z.leb_le in S. rewrite S in C. destruct C as [c [Ec B]]. destruct anyone.
  - apply (sprout_acp_refused _ _ _ O c). rewrite P. exact Ec.
  - unfold sprout_sighash_all. rewrite P, Ec. cbn [bind]. apply sprout_final; [apply (sprout_obj_name t O)|rewrite B; exact W|cbn; lia].
Qed.
Lemma sprout_digest_index t n sc anyone : sprout_obj H net t -> sp_tx_ins t <> [] -> nth_error (sp_tx_ins t) n = None ->
  exists e, sprout_sighash_all H net t (Z.of_nat n) sc anyone = Err e.
Proof.
  intros O N E. unfold sprout_sighash_all, sprout_sighash_prep.
  destruct (Z.eqb_spec (zlen (sp_tx_ins t)) 0) as [Z0|_]; [apply zlen_0 in Z0; contradiction|].
  apply sprout_obj_iff in O. destruct O as [js [_ [Fi _]]].
  rewrite (mapM_Ok_map _ clear) by (intros a I; apply copy_clear; rewrite Forall_forall in Fi; apply Fi, I). cbn [bind].
  destruct (VarInt_from_bytes net sc) as [v|e]; [|exists e; reflexivity]. cbn [bind]. rewrite index_nat, nth_error_map, E. eexists; reflexivity.
Qed.
End Sig.
