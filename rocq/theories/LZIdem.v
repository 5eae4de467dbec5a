(* Lemmas for C88: what a Zcash parser accepted is parsed again as itself *)
From Coq Require Import String.
From Verif Require Import Py LBase MNet MUtils MShared MScript MTx MZcash SNum SNet SHash SScript STx SZcash STrunc SParse SIdem LNet LUtils LVarint LTx LTxParse LZcash LZcashTx LSapling LSprout LTrunc LParse LZTrunc LIdem LIdemErr.
Open Scope list_scope.
Open Scope Z_scope.
Ltac Zify.zify_post_hook ::= idtac.

(** * the transparent part *)

Lemma transparent_again name net p k v1 is c2 v2 os c4 f1 f2 : get_network name = Ok net -> is_bytes p -> 0 <= k ->
  VarInt_from_bytes net (slice_from p k) = Ok v1 ->
  read_many (TxIn_from_bytes net) (fun i => zlen (ti_bytes i)) f1 p (vi_number v1) (k + zlen (vi_bytes v1)) = Ok (is, c2) ->
  VarInt_from_bytes net (slice_from p c2) = Ok v2 ->
  read_many (TxOut_from_bytes net) (fun o => zlen (to_bytes_ o)) f2 p (vi_number v2) (c2 + zlen (vi_bytes v2)) = Ok (os, c4) ->
  Forall txin_obj is /\ Forall txout_obj os /\ k <= c4 /\
  (Forall (fun i => exists b, is_bytes b /\ TxIn_from_bytes net b = Ok i) is /\ readable net (zlen is)) /\
  (readable_scripts name (map the_input is) -> read_parts name net is os is).
Proof.
  intros En B K0 V1 R1 V2 R2.
  pose proof (VarInt_read_shape _ _ _ V1) as [A1 [A2 _]].
  pose proof (count_readable net _ _ p k v1 _ _ _ B K0 (txin_room name net En) V1 R1) as Rd1.
  apply (read_many_size _ _ _ B) in R1; [|exact (txin_room name net En)|lia].
  destruct R1 as [I1 [I2 [I3 [I4 I5]]]].
  pose proof (VarInt_read_shape _ _ _ V2) as [B1 [B2 _]].
  assert (0 <= c2) as K2 by lia.
  pose proof (count_readable net _ _ p c2 v2 _ _ _ B K2 (txout_room net) V2 R2) as Rd2.
  apply (read_many_size _ _ _ B) in R2; [|exact (txout_room net)|lia].
  destruct R2 as [O1 [O2 [O3 [O4 O5]]]].
  assert (Forall txin_obj is) as Fi by (eapply Forall_impl; [|exact I5]; intros z [b [Bb Ez]]; apply (TxIn_again name net b z En Bb Ez)).
  split; [exact Fi|].
  split; [eapply Forall_impl; [|exact O5]; intros z [b [Bb Ez]]; apply (TxOut_size _ _ _ Bb Ez)|]. split; [lia|]. split; [split; [exact I5|exact Rd1]|].
  intros P. unfold readable_scripts in P. rewrite Forall_map in P. unfold read_parts.
  split; [apply (readable_size_of name net _ En), Rd1|]. split; [apply (readable_size_of name net _ En), Rd2|].
  split.
  { apply Forall2_refl_in. intros i I. rewrite Forall_forall in I5, P. split; [|reflexivity].
    destruct (I5 i I) as [b [Bb Eb]]. apply (TxIn_again name net b i En Bb Eb). apply (readable_spec name net _ En). exact (P i I). }
  split; [apply Forall2_refl_in; intros i I; unfold same_input; auto|]. split; [exact Fi|].
  eapply Forall_impl; [|exact O5]. intros z [b [Bb Ez]]. apply (TxOut_size _ _ _ Bb Ez).
Qed.

(* every object of a list that was read was read *)
Lemma read_many_each {A} (fb : bytes -> res A) size (P : A -> Prop) fuel p n c zs c' :
  (forall b z, fb b = Ok z -> P z) -> read_many fb size fuel p n c = Ok (zs, c') -> Forall P zs.
Proof.
  intros F. revert n c zs c'. induction fuel as [|fuel IH]; intros n c zs c'; cbn [read_many];
    (destruct (n <=? 0); [intros E; apply Ok_inj in E; injection E as <- <-; constructor|]); [discriminate|].
  intros E. apply bind_Ok in E. destruct E as [z [Z E]]. apply bind_Ok in E. destruct E as [[r c1] [R E]]. apply Ok_inj in E. injection E as <- <-.
  constructor; [exact (F _ _ Z)|exact (IH _ _ _ _ R)].
Qed.

Lemma spend_room net : forall b z, is_bytes b -> SaplingShieldedSpend_from_bytes net b = Ok z -> 0 < zlen (ss_bytes z) <= zlen b.
Proof.
  intros b z _ E. destruct (spend_parse_inv net b z E) as [_ [r ->]]. pose proof (ends_spend net (ss_bytes z ++ r)) as X. rewrite E in X.
  cbn in X. rewrite zlen_app. pose proof (zlen_nonneg r). split; [lia|lia].
Qed.
Lemma output_room net : forall b z, is_bytes b -> SaplingShieldedOutput_from_bytes net b = Ok z -> 0 <= zlen (so_bytes z) <= zlen b.
Proof.
  intros b z _ E. destruct (shielded_output_parse_inv net b z E) as [_ [r ->]].
  rewrite zlen_app. pose proof (zlen_nonneg r). pose proof (zlen_nonneg (so_bytes z)). lia.
Qed.

Section Again.
Context (H : hashes).

Lemma Overwinter_read name net p t : get_network name = Ok net -> is_bytes p -> OverwinterTx_from_bytes H net p = Ok t ->
  overwinter_obj H net t /\ (Forall (fun i => exists b, is_bytes b /\ TxIn_from_bytes net b = Ok i) (ow_tx_ins t) /\ readable net (zlen (ow_tx_ins t))) /\
  (readable_scripts name (map the_input (ow_tx_ins t)) -> read_parts name net (ow_tx_ins t) (ow_tx_outs t) (ow_tx_ins t)).
Proof.
  intros En B E. apply Overwinter_inv in E. destruct E as [v1 [is [c2 [v2 [os [c4 [js [pk [sg [V1 [R1 [V2 [R2 [R3 E]]]]]]]]]]]]]].
  assert (0 <= 8) as K by lia.
  destruct (transparent_again name net p 8 v1 is c2 v2 os c4 _ _ En B K V1 R1 V2 R2) as [Fi [Fo [_ [Ii Rp]]]].
  assert (Forall (sprout_joinsplit_obj net) js) as Fj.
  { destruct (_ =? _); [apply Ok_inj in R3; injection R3 as <- <- <-; constructor|].
    apply bind_Ok in R3. destruct R3 as [num [_ R3]]. apply bind_Ok in R3. destruct R3 as [[js' c] [R3 X]]. apply Ok_inj in X. injection X as <- _ _.
    refine (read_many_each _ _ _ _ _ _ _ _ _ _ R3). intros b z Ez. apply (sprout_joinsplit_parse_inv net b z Ez). }
  pose proof (overwinter_idem _ _ _ _ _ _ _ _ _ _ E) as I. apply OverwinterTx_Ok in E. destruct E as [_ E].
  assert (ow_tx_ins t = is /\ ow_tx_outs t = os /\ ow_tx_joinsplits t = js) as [X1 [X2 X3]] by (rewrite E; auto).
  unfold overwinter_obj. rewrite X1, X2, X3 in *. auto 10.
Qed.

Lemma Overwinter_again name net p t rest : get_network name = Ok net -> is_bytes p -> OverwinterTx_from_bytes H net p = Ok t ->
  readable_scripts name (map the_input (ow_tx_ins t)) -> zlen (ow_tx_outs t) < 253 \/ ow_tx_joinsplits t = [] ->
  OverwinterTx_from_bytes H net (ow_bytes t ++ rest) = Ok t.
Proof.
  intros En B E P C. destruct (Overwinter_read name net p t En B E) as [O [_ R]].
  destruct (overwinter_parse_as H net name t rest _ En O (R P) C) as [t' [X [O' [[_ [_ [_ [S1 [S2 [S3 [S4 [S5 [S6 _]]]]]]]]] S7]]]].
  rewrite X. destruct O as [_ [_ [_ O]]]. destruct O' as [_ [_ [_ O']]]. rewrite S1, S2, S3, S4, S5, S6, S7, O in O'. congruence.
Qed.

Lemma Sapling_read name net p t : get_network name = Ok net -> is_bytes p -> SaplingTx_from_bytes H net p = Ok t ->
  sapling_obj H net t /\ readable_size name (count (sa_tx_shielded_spends t)) /\
  (Forall (fun i => exists b, is_bytes b /\ TxIn_from_bytes net b = Ok i) (sa_tx_ins t) /\ readable net (zlen (sa_tx_ins t))) /\
  (readable_scripts name (map the_input (sa_tx_ins t)) -> read_parts name net (sa_tx_ins t) (sa_tx_outs t) (sa_tx_ins t)).
Proof.
  intros En B E. apply Sapling_inv in E.
  destruct E as [v1 [is [c2 [v2 [os [c4 [v3 [sp [c5 [v4 [so [c6 [v5 [js [c7 [V1 [R1 [V2 [R2 [V3 [R3 [V4 [R4 [V5 [R5 E]]]]]]]]]]]]]]]]]]]]]]]]].
  assert (0 <= 8) as K by lia.
  destruct (transparent_again name net p 8 v1 is c2 v2 os c4 _ _ En B K V1 R1 V2 R2) as [Fi [Fo [K4 [Ii Rp]]]].
  assert (0 <= c4 + 4 + 4 + 8) as K3 by lia.
  pose proof (count_readable net _ _ p _ v3 _ _ _ B K3 (spend_room net) V3 R3) as Rd.
  apply (readable_size_of name net _ En) in Rd.
  assert (Forall (spend_obj net) sp) as Fs by (refine (read_many_each _ _ _ _ _ _ _ _ _ _ R3); intros b z Ez; apply (spend_parse_inv net b z Ez)).
  assert (Forall (shielded_output_obj net) so) as Fu by (refine (read_many_each _ _ _ _ _ _ _ _ _ _ R4); intros b z Ez; apply (shielded_output_parse_inv net b z Ez)).
  assert (Forall (sapling_joinsplit_obj net) js) as Fj by (refine (read_many_each _ _ _ _ _ _ _ _ _ _ R5); intros b z Ez; apply (sapling_joinsplit_parse_inv net b z Ez)).
  assert (exists pk sg bs, SaplingTx H net is os (slice p c4 (c4 + 4)) (slice p (c4 + 4) (c4 + 4 + 4)) (slice p (c4 + 4 + 4) (c4 + 4 + 4 + 8)) (Some sp) (Some so) (Some js) pk sg bs = Ok t)
    as [pk [sg [bs E']]] by (destruct (0 <? zlen js); eauto). clear E.
  pose proof (sapling_idem _ _ _ _ _ _ _ _ _ _ _ _ _ _ E') as I. apply SaplingTx_Ok in E'. destruct E' as [_ E].
  assert (sa_tx_ins t = is /\ sa_tx_outs t = os /\ sa_tx_joinsplits t = js /\ sa_tx_shielded_spends t = sp /\ sa_tx_shielded_outputs t = so) as [X1 [X2 [X3 [X4 X5]]]] by (rewrite E; auto).
  unfold sapling_obj. rewrite X1, X2, X3, X4, X5 in *. auto 12.
Qed.

Lemma Sapling_again name net p t rest : get_network name = Ok net -> is_bytes p -> SaplingTx_from_bytes H net p = Ok t ->
  readable_scripts name (map the_input (sa_tx_ins t)) ->
  zlen (sa_tx_outs t) < 253 \/ sa_tx_joinsplits t = [] /\ sa_tx_shielded_spends t = [] /\ sa_tx_shielded_outputs t = [] ->
  SaplingTx_from_bytes H net (sa_bytes t ++ rest) = Ok t.
Proof.
  intros En B E P C. destruct (Sapling_read name net p t En B E) as [O [Rs [_ R]]].
  destruct (sapling_parse_as H net name t rest _ En O (R P) Rs C) as [t' [X [O' [[_ [_ [_ [S1 [S2 [S3 [S4 [S5 [S6 [S7 [S8 [S9 [S10 _]]]]]]]]]]]]] S11]]]].
  rewrite X. destruct O as [_ [_ [_ [_ [_ O]]]]]. destruct O' as [_ [_ [_ [_ [_ O']]]]].
  rewrite S1, S2, S3, S4, S5, S6, S7, S8, S9, S10, S11, O in O'. congruence.
Qed.

Lemma sprout_not_upgraded name net : get_network name = Ok net -> net_has net (lit "sprout") = true -> ~ In name upgraded_zcash.
Proof.
  intros En S. assert (negb (net_has net (lit "sprout")) || negb (compact_only net) = true) as X.
  { revert name net En S. intros name net En _. revert name net En. apply (supported_forall (fun _ net => negb (net_has net (lit "sprout")) || negb (compact_only net))). vm_compute. reflexivity. }
  rewrite S in X. cbn [negb orb] in X. intros I. apply (compact_only_names name net En) in I. rewrite I in X. discriminate.
Qed.

Lemma Sprout_read name net p t : get_network name = Ok net -> is_bytes p -> SproutTx_from_bytes H net p = Ok t ->
  sprout_obj H net t /\ le_value (sp_version t) = 2 /\ read_parts name net (sp_tx_ins t) (sp_tx_outs t) (sp_tx_ins t).
Proof.
  intros En B E. apply Sprout_inv in E. destruct E as [v1 [is [c2 [v2 [os [c4 [js [pk [sg [V1 [R1 [V2 [R2 [R3 E]]]]]]]]]]]]]].
  assert (0 <= 4) as K by lia.
  destruct (transparent_again name net p 4 v1 is c2 v2 os c4 _ _ En B K V1 R1 V2 R2) as [Fi [Fo [_ [Ii Rp]]]].
  destruct (Z.eqb_spec (le2i (slice p 0 4) false) 2) as [V|V].
  2:{ apply Ok_inj in R3. injection R3 as <- <- <-. destruct (SproutTx_None H net (Some (slice p 0 4)) is os (slice p c4 (c4 + 4)) None None) as [e X]. pose proof (eq_trans (eq_sym X) E) as Y. discriminate Y. }
  apply bind_Ok in R3. destruct R3 as [num [_ R3]]. apply bind_Ok in R3. destruct R3 as [[js' c] [R3 X]]. apply Ok_inj in X. injection X as <- <- <-.
  assert (Forall (sprout_joinsplit_obj net) js') as Fj by (refine (read_many_each _ _ _ _ _ _ _ _ _ _ R3); intros b z Ez; apply (sprout_joinsplit_parse_inv net b z Ez)).
  assert (is_bytes (slice p 0 4)) as Bv by (apply is_bytes_slice; [exact B|lia|lia]).
  pose proof (sprout_idem _ _ _ _ _ _ _ _ _ _ Bv E) as I. apply SproutTx_Ok in E; [|exact Bv]. destruct E as [A E].
  assert (sp_version t = slice p 0 4 /\ sp_tx_ins t = is /\ sp_tx_outs t = os /\ sp_tx_joinsplits t = Some js') as [X0 [X1 [X2 X3]]] by (rewrite E; auto).
  unfold sp_args_ok in A. rewrite !andb_true_iff in A. destruct A as [[[[[[_ A] _] _] _] _] _].
  pose proof (sprout_not_upgraded name net En A) as U.
  unfold sprout_obj. rewrite X0, X1, X2, X3 in *. rewrite le2i_le in V.
  split; [split; [apply all_bytes_is_bytes; exact Bv|auto 10]|]. split; [exact V|]. apply Rp.
  apply Forall_forall. intros i _. left. exact U.
Qed.

Lemma Sprout_again name net p t rest : get_network name = Ok net -> is_bytes p -> SproutTx_from_bytes H net p = Ok t ->
  rest = [] \/ sp_joinsplit_sig t <> Some [] -> SproutTx_from_bytes H net (sp_bytes t ++ rest) = Ok t.
Proof.
  intros En B E C. destruct (Sprout_read name net p t En B E) as [O [V R]].
  destruct (sprout_parse_as H net name t rest _ En O R V C) as [t' [X [O' [[_ [_ [S0 [_ [S1 [S2 [S3 [S4 [S5 _]]]]]]]]] S7]]]].
  rewrite X. destruct O as [_ [_ [_ [_ O]]]]. destruct O' as [_ [_ [_ [_ O']]]]. rewrite S0, S1, S2, S3, S4, S5, S7, O in O'. congruence.
Qed.

Lemma Overwinter_refused name net p t rest : get_network name = Ok net -> is_bytes p -> OverwinterTx_from_bytes H net p = Ok t ->
  ~ readable_scripts name (map the_input (ow_tx_ins t)) -> OverwinterTx_from_bytes H net (ow_bytes t ++ rest) = Err ValueError.
Proof.
  intros En B E P. destruct (Overwinter_read name net p t En B E) as [O [[Ii R1] _]]. rewrite (overwinter_bytes H net t O).
  apply overwinter_obj_iff in O. destruct O as [Fi [Fo [Fj [A _]]]].
  unfold overwinter_wire, overwinter_layout. rewrite (inputs_wire_bytes _ Fi). rewrite <- !app_assoc.
  unfold ow_args_ok in A. rewrite !andb_true_iff in A. destruct A as [[[[[[[[[[A1 A2] A3] A4] A5] A6] A7] A8] A9] A10] A11].
  match goal with |- context [OverwinterTx_from_bytes H net (overwinter_header ++ _ ++ _ ++ ?r)] => set (tail := r) end.
  match goal with |- context [OverwinterTx_from_bytes H net ?b] => set (bs := b) end.
  destruct (inputs_refused name net overwinter_header (ow_tx_ins t) tail 8 En Ii P R1) with (bs := bs) as [X1 X2]; [lia|reflexivity|reflexivity|].
  unfold OverwinterTx_from_bytes.
  replace (slice bs 0 4) with [3; 0; 0; 0x80] by (unfold bs; symmetry; apply (slice_app [] [3; 0; 0; 0x80] _ 0 4); reflexivity).
  replace (slice bs 4 8) with [0x70; 0x82; 0xc4; 0x03] by (unfold bs; symmetry; apply (slice_app [3; 0; 0; 0x80] [0x70; 0x82; 0xc4; 0x03] _ 4 8); reflexivity).
  rewrite !leqb_refl. cbv [guard negb orb]. cbn [bind]. rewrite X1. cbn [bind vi_number vi_bytes]. rewrite X2. reflexivity.
Qed.

Lemma Sapling_refused name net p t rest : get_network name = Ok net -> is_bytes p -> SaplingTx_from_bytes H net p = Ok t ->
  ~ readable_scripts name (map the_input (sa_tx_ins t)) -> SaplingTx_from_bytes H net (sa_bytes t ++ rest) = Err ValueError.
Proof.
  intros En B E P. destruct (Sapling_read name net p t En B E) as [O [_ [[Ii R1] _]]]. rewrite (sapling_bytes H net t O).
  apply sapling_obj_iff in O. destruct O as [Fi [Fo [Fs [Fu [Fj [A _]]]]]].
  unfold sapling_wire, sapling_layout. rewrite (inputs_wire_bytes _ Fi). rewrite <- !app_assoc.
  unfold sa_args_ok in A. rewrite !andb_true_iff in A.
  destruct A as [[[[[[[[[[[[[[[A1 A2] A3] A4] A5] A6] A7] A8] A9] A10] A11] A12] A13] A14] A15] _].
  match goal with |- context [SaplingTx_from_bytes H net (sapling_header ++ _ ++ _ ++ ?r)] => set (tail := r) end.
  match goal with |- context [SaplingTx_from_bytes H net ?b] => set (bs := b) end.
  destruct (inputs_refused name net sapling_header (sa_tx_ins t) tail 8 En Ii P R1) with (bs := bs) as [X1 X2]; [lia|reflexivity|reflexivity|].
  unfold SaplingTx_from_bytes.
  replace (slice bs 0 4) with [4; 0; 0; 0x80] by (unfold bs; symmetry; apply (slice_app [] [4; 0; 0; 0x80] _ 0 4); reflexivity).
  replace (slice bs 4 8) with [0x85; 0x20; 0x2f; 0x89] by (unfold bs; symmetry; apply (slice_app [4; 0; 0; 0x80] [0x85; 0x20; 0x2f; 0x89] _ 4 8); reflexivity).
  rewrite !leqb_refl. cbv [guard negb orb]. cbn [bind]. rewrite X1. cbn [bind vi_number vi_bytes]. rewrite X2. reflexivity.
Qed.
End Again.
