(* Lemmas: what Sprout signature digests commit to *)
From Coq Require Import String.
From Verif Require Import Py LBase MNet MUtils MShared MScript MTx MZcash SNum SNet SHash SScript STx SSig SZcash SZBind LNet LUtils LVarint LTx LTxParse LTxWire LSigBind LSig LBase58 LZcash LZcashTx LZip LSapling LSprout LZip243 LZcashTop LSproutSig LZBind.
Open Scope list_scope.
Open Scope Z_scope.
Ltac Zify.zify_post_hook ::= idtac.

Definition signing_ins (n : nat) (code : bytes) (ins : list input) : list input :=
  map (with_script []) (firstn n ins) ++ map (with_script code) (firstn 1 (skipn n ins)) ++ map (with_script []) (skipn (S n) ins).
Definition anonymous (i : input) := (in_txid i, in_index i, in_sequence i).

Lemma skipn_one {A} (l : list A) n : firstn 1 (skipn n l) ++ skipn (S n) l = skipn n l.
Proof. revert n. induction l as [|a l IH]; intros [|n]; try reflexivity. cbn [skipn]. apply IH. Qed.
Lemma signing_same n code ins : map anonymous (signing_ins n code ins) = map anonymous ins.
Proof.
  unfold signing_ins. rewrite !map_app, !map_map.
  change (fun x => anonymous (with_script [] x)) with anonymous. change (fun x => anonymous (with_script code x)) with anonymous.
  rewrite <- !map_app, skipn_one, firstn_skipn. reflexivity.
Qed.
Lemma signing_scripts n code ins m : nth_error (map in_script (signing_ins n code ins)) m =
  if (m <? length ins)%nat then Some (if (m =? n)%nat then code else []) else None.
Proof.
  revert n m. induction ins as [|i ins IH]; intros n m.
  - unfold signing_ins. rewrite firstn_nil, !skipn_nil. destruct m; reflexivity.
  - destruct n as [|n].
    + unfold signing_ins. cbn [firstn skipn map app in_script with_script]. destruct m as [|m]; [reflexivity|]. cbn [nth_error length].
      rewrite !nth_error_map. change (S m <? S (length ins))%nat with (m <? length ins)%nat. change (S m =? 0)%nat with false. cbv beta iota.
      destruct (Nat.ltb_spec m (length ins)) as [L|L].
      * destruct (nth_error_lt ins m L) as [x ->]. reflexivity.
      * apply nth_error_None in L. rewrite L. reflexivity.
    + change (signing_ins (S n) code (i :: ins)) with (with_script [] i :: signing_ins n code ins). cbn [map in_script with_script]. destruct m as [|m]; [reflexivity|].
      cbn [nth_error length]. rewrite IH. reflexivity.
Qed.
Lemma signing_ok n code ins : len code < 2 ^ 64 -> Forall input_ok ins -> Forall input_ok (signing_ins n code ins).
Proof.
  intros L F. assert (forall c, len c < 2 ^ 64 -> forall l, Forall input_ok l -> Forall input_ok (map (with_script c) l)) as W.
  { intros c Lc l Fl. apply Forall_map. eapply Forall_impl; [|exact Fl]. intros i [A [B [C D]]]. unfold input_ok. cbn [with_script in_txid in_index in_script in_sequence]. auto. }
  assert (forall l, (forall x, In x l -> In x ins) -> Forall input_ok l) as S.
  { intros l I. apply Forall_forall. intros x Q. rewrite Forall_forall in F. apply F, I, Q. }
  unfold signing_ins. apply Forall_app; split; [|apply Forall_app; split]; apply W; try exact L; try reflexivity; apply S; intros x I.
  - rewrite <- (firstn_skipn n ins). apply in_or_app. auto.
  - rewrite <- (firstn_skipn n ins), <- skipn_one. apply in_or_app. right. apply in_or_app. auto.
  - rewrite <- (firstn_skipn n ins), <- skipn_one. apply in_or_app. right. apply in_or_app. auto.
Qed.
Lemma signing_inj n n' code code' ins ins' : (n < length ins)%nat \/ ins = [] -> (n' < length ins')%nat \/ ins' = [] ->
  signing_ins n code ins = signing_ins n' code' ins' ->
  map anonymous ins = map anonymous ins' /\ (ins <> [] -> code = code' /\ (code <> [] -> n = n')).
Proof.
  intros P P' E. assert (map anonymous ins = map anonymous ins') as M by (rewrite <- (signing_same n code ins), E, signing_same; reflexivity).
  split; [exact M|]. intros N. assert (length ins = length ins') as Len by (rewrite <- (map_length anonymous ins), M, map_length; reflexivity).
  destruct P as [P|P]; [|contradiction]. destruct P' as [P'|P']; [|subst ins'; destruct ins; [contradiction|discriminate Len]].
  pose proof (signing_scripts n code ins n) as A. pose proof (signing_scripts n' code' ins' n) as B. pose proof (signing_scripts n code ins n') as A'. pose proof (signing_scripts n' code' ins' n') as B'.
  rewrite E in A, A'. rewrite <- Len in *. apply Nat.ltb_lt in P, P'. rewrite P in *. rewrite P' in *. rewrite Nat.eqb_refl in *. rewrite A in B. rewrite A' in B'.
  injection B as B. injection B' as B'. destruct (Nat.eqb_spec n n') as [->|Q]; [auto|]. rewrite Nat.eqb_sym in B'. destruct (Nat.eqb_spec n n'); [contradiction|].
  split; [congruence|]. intros X. congruence.
Qed.

Section Sprout.
Context (H : hashes).
Definition sprout_place (t : sprout_tx) (n : nat) : Prop := (n < length (sp_tx_ins t))%nat \/ sp_tx_ins t = [].
Lemma sprout_signed_eq n code t : sprout_signed n code t =
  sp_version t ++ vector_wire input_wire (signing_ins n code (map the_input (sp_tx_ins t))) ++ outputs_wire (sp_tx_outs t) ++ sp_lock_time t ++
  (if le_value (sp_version t) =? 1 then [] else joinsplits_wire sprout_joinsplit_wire (opts (sp_tx_joinsplits t)) (sp_joinsplit_pubkey t) None).
Proof. reflexivity. Qed.
Lemma sprout_request name net t n code anyone : get_network name = Ok net -> sprout_obj H net t -> sprout_place t n -> readable_size name (len code) -> len code < 2 ^ 64 ->
  sprout_sighash_all H net t (Z.of_nat n) (string_wire code) anyone =
  if (match sp_tx_ins t with [] => true | _ => (len code <=? 1650) && (len (sprout_signed n code t) <=? 100000) end) && negb anyone
  then Ok (sha256d H (sprout_signed n code t ++ le_bytes 4 1)) else Err ValueError.
Proof.
  intros En O [P|P] R L.
  - destruct (nth_error_lt _ _ P) as [i E]. rewrite (sprout_digest H name net En t n i code anyone O E R L).
    destruct (sp_tx_ins t) eqn:X; [cbn in P; lia|]. reflexivity.
  - rewrite (sprout_digest_none H name net En t _ _ anyone O P). rewrite !sprout_signed_eq, P. cbn [map andb].
    assert (forall n c, signing_ins n c [] = []) as Y by (intros; unfold signing_ins; rewrite firstn_nil, !skipn_nil; reflexivity). rewrite !Y.
    destruct anyone; reflexivity.
Qed.

Lemma sprout_counts name net t : get_network name = Ok net -> sprout_obj H net t -> zlen (sp_tx_ins t) < 2 ^ 64 /\ zlen (sp_tx_outs t) < 2 ^ 64 /\ zlen (sp_lock_time t) = 4.
Proof.
  intros En O. apply sprout_obj_iff in O. destruct O as [js [_ [Fi [Fo [_ [Fj [A _]]]]]]]. apply (sp_rules_iff name net En _ _ _ _ _ _ _ Fi Fo Fj) in A.
  destruct A as [_ [L [_ A]]]. norm_spec. pose proof (transparent_ge _ _ Fi Fo) as G. rewrite (transparent_wire _ _ Fi Fo) in G. 
  change (zlen (sprout_layout (sp_version t) (sp_tx_ins t) (sp_tx_outs t) (sp_lock_time t) js (sp_joinsplit_pubkey t) (sp_joinsplit_sig t)) <= 100000) in A.
  unfold sprout_layout in A. rewrite !zlen_app in A. rewrite zlen_app in G.
  pose proof (zlen_nonneg (sp_version t)). pose proof (zlen_nonneg (sp_lock_time t)). pose proof (zlen_nonneg (sp_tx_ins t)). pose proof (zlen_nonneg (sp_tx_outs t)).
  match type of A with context [zlen (if ?b then ?x else ?y)] => pose proof (zlen_nonneg (if b then x else y)) end.
  assert (100000 < 2 ^ 64) by reflexivity. lia.
Qed.

Lemma sprout_message_binds name net name' net' t t' n n' code code' : get_network name = Ok net -> get_network name' = Ok net' ->
  sprout_obj H net t -> sprout_obj H net' t' -> sprout_place t n -> sprout_place t' n' -> len code < 2 ^ 64 -> len code' < 2 ^ 64 ->
  sprout_signed n code t = sprout_signed n' code' t' ->
  sprout_seen t = sprout_seen t' /\ (sp_tx_ins t <> [] -> code = code' /\ (code <> [] -> n = n')).
Proof.
  intros En En' O O' P P' C C' E. destruct (sprout_counts name net t En O) as [N1 [N2 L]]. destruct (sprout_counts name' net' t' En' O') as [N1' [N2' L']].
  pose proof (sprout_version H net t O) as V. pose proof (sprout_version H net' t' O') as V'.
  destruct O as [_ [Fi [Fo [Fj _]]]], O' as [_ [Fi' [Fo' [Fj' _]]]]. rewrite !sprout_signed_eq in E.
  assert (zlen (sp_version t) = 4 /\ zlen (sp_version t') = 4) as [Lv Lv'].
  { split; [destruct V as [[-> _]|[-> _]]|destruct V' as [[-> _]|[-> _]]]; reflexivity. }
  apply app_inj_zlen in E; [|lia]. destruct E as [E1 E].
  assert (forall m c l, zlen (signing_ins m c l) = zlen l) as Ls.
  { intros m c l. rewrite <- (zlen_map anonymous (signing_ins m c l)), signing_same, zlen_map. reflexivity. }
  apply (pfx_vector _ _ pfx_input) in E; [|split; [rewrite Ls, zlen_map; exact N1|apply signing_ok; [exact C|apply the_inputs_ok, Fi]]|split; [rewrite Ls, zlen_map; exact N1'|apply signing_ok; [exact C'|apply the_inputs_ok, Fi']]].
  destruct E as [E2 E]. unfold outputs_wire in E.
  apply (pfx_vector _ _ pfx_output) in E; [|split; [rewrite zlen_map; exact N2|apply the_outputs_ok, Fo]|split; [rewrite zlen_map; exact N2'|apply the_outputs_ok, Fo']].
  destruct E as [E3 E]. apply app_inj_zlen in E; [|lia]. destruct E as [E4 E].
  apply signing_inj in E2.
  2: { destruct P as [P| ->]; [left; rewrite map_length; exact P|right; reflexivity]. }
  2: { destruct P' as [P'| ->]; [left; rewrite map_length; exact P'|right; reflexivity]. }
  destruct E2 as [E5 E6].
  assert (sp_tx_joinsplits t = sp_tx_joinsplits t' /\ sp_joinsplit_pubkey t = sp_joinsplit_pubkey t') as [E7 E8].
  { destruct V as [[V [J [K _]]]|[V [js [pk [sg [J [N5 [K [Lk _]]]]]]]]], V' as [[V' [J' [K' _]]]|[V' [js' [pk' [sg' [J' [N5' [K' [Lk' _]]]]]]]]].
    - split; congruence.
    - exfalso. rewrite V, V' in E1. discriminate E1.
    - exfalso. rewrite V, V' in E1. discriminate E1.
    - rewrite V, V', J, J', K, K' in *. change (le_value v2 =? 1) with false in E. cbv beta iota in E. unfold joinsplits_wire, vector_wire in E. cbn [opts opt] in E. rewrite !app_nil_r, <- !app_assoc in E.
      unfold v2 in *. norm_count. pose proof (zlen_nonneg js). pose proof (zlen_nonneg js').
      apply pfx_compactsize in E; [|split; [apply zlen_nonneg|eapply Z.le_lt_trans; [eassumption|reflexivity]]|split; [apply zlen_nonneg|eapply Z.le_lt_trans; [eassumption|reflexivity]]].
      destruct E as [_ E].
      destruct (fixed_inj sprout_joinsplit_wire sprout_joinsplit_wire (fun j => j) (fun j => j) (sprout_joinsplit_obj net) (sprout_joinsplit_obj net') 1802 ltac:(lia)
        (sprout_js_len net) (sprout_js_len net') (sprout_joinsplit_inj net net') _ _ _ _ Fj Fj' (eq_trans Lk (eq_sym Lk')) E) as [M K2].
      rewrite !map_id in M. split; congruence. }
  split.
  - unfold sprout_seen. fold anonymous. rewrite E1, E3, E4, E7, E8. change (fun i => (in_txid i, in_index i, in_sequence i)) with anonymous. rewrite E5. reflexivity.
  - intros N. apply E6. destruct (sp_tx_ins t); [contradiction|discriminate].
Qed.

Lemma sprout_message_ignores t t' n code : sprout_seen t = sprout_seen t' -> sprout_signed n code t = sprout_signed n code t'.
Proof.
  intros E. unfold sprout_seen in E. injection E as E1 E2 E3 E4 E5 E6. rewrite !sprout_signed_eq. unfold outputs_wire. rewrite E1, E3, E4, E5, E6. do 3 f_equal.
  assert (forall c l, map (with_script c) l = map (fun a => {| in_txid := fst (fst a); in_index := snd (fst a); in_script := c; in_sequence := snd a |}) (map anonymous l)) as W.
  { intros c l. rewrite map_map. apply map_ext. reflexivity. }
  unfold signing_ins. rewrite !W. change (map anonymous (map the_input (sp_tx_ins t)) = map anonymous (map the_input (sp_tx_ins t'))) in E2.
  rewrite <- !firstn_map, <- !skipn_map, E2. reflexivity.
Qed.

Lemma parsers net net' net'' s : 
  (forall t, OverwinterTx_from_bytes H net s = Ok t -> firstn 8 s = overwinter_header) /\
  (forall t, SaplingTx_from_bytes H net' s = Ok t -> firstn 8 s = sapling_header) /\
  (forall t, SproutTx_from_bytes H net'' s = Ok t -> le_value (firstn 4 s) = 2).
Proof.
  assert (forall a b, slice s 0 4 = a -> slice s 4 8 = b -> firstn 8 s = a ++ b) as F.
  { intros a b A B. rewrite slice_firstn in A, B by lia. change (firstn 4 s = a) in A. change (firstn 4 (skipn 4 s) = b) in B.
    rewrite <- A, <- B. exact (firstn_plus s 4 4). }
  split; [|split].
  - intros t E. unfold OverwinterTx_from_bytes, guard in E. destruct (leqb_spec (slice s 0 4) [3; 0; 0; 0x80]) as [A|A]; [|discriminate E].
    destruct (leqb_spec (slice s 4 8) [0x70; 0x82; 0xc4; 0x03]) as [B|B]; [|discriminate E]. apply (F _ _ A B).
  - intros t E. unfold SaplingTx_from_bytes, guard in E. destruct (leqb_spec (slice s 0 4) [4; 0; 0; 0x80]) as [A|A]; [|discriminate E].
    destruct (leqb_spec (slice s 4 8) [0x85; 0x20; 0x2f; 0x89]) as [B|B]; [|discriminate E]. apply (F _ _ A B).
  - intros t E. rewrite <- (sprout_v1_never H net'' s t E), slice_firstn by lia. reflexivity.
Qed.
End Sprout.
