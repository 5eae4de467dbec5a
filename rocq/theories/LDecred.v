(* Lemmas about MDecred.v: constructors and wire formats *)
From Coq Require Import String.
From Verif Require Import Py LBase MNet MUtils MShared MScript MTx MDecred SNum SNet SScript STx SSig SDecred LNet LUtils LVarint LScript LTx LTxParse LSig.
Open Scope list_scope.
Open Scope Z_scope.
Ltac Zify.zify_post_hook ::= idtac.

Lemma decred_only_Ok name net : get_network name = Ok net -> In name decred_names -> decred_only net = Ok tt.
Proof. intros En I. apply (decred_only_names name net En) in I. unfold decred_only. rewrite I. reflexivity. Qed.
Lemma decred_only_Err name net : get_network name = Ok net -> ~ In name decred_names -> decred_only net = Err ValueError.
Proof.
  intros En I. unfold decred_only. destruct (contains _ _) eqn:C; [|reflexivity].
  elim I. apply (decred_only_names name net En). exact C.
Qed.

Section Net.
Context (H : hashes) (net : network) (D : decred_only net = Ok tt).

Lemma DecredOutpoint_spec t i r : DecredOutpoint net t i r =
  if (zlen t =? 32) && (zlen i =? 4) && (zlen r =? 1)
  then Ok {| dop_tx_id := t; dop_index := i; dop_tree := r; dop_bytes := t ++ i ++ r |} else Err ValueError.
Proof.
  unfold DecredOutpoint, validate_bytes, guard. rewrite D. cbn [bind].
  destruct (zlen t =? 32), (zlen i =? 4), (zlen r =? 1); reflexivity.
Qed.
Lemma doutpoint_obj_iff o : doutpoint_obj net o <->
  zlen (dop_tx_id o) = 32 /\ zlen (dop_index o) = 4 /\ zlen (dop_tree o) = 1 /\ dop_bytes o = dop_tx_id o ++ dop_index o ++ dop_tree o.
Proof.
  unfold doutpoint_obj. rewrite DecredOutpoint_spec. destruct o as [t i r b]; cbn [dop_tx_id dop_index dop_tree dop_bytes].
  destruct (Z.eqb_spec (zlen t) 32), (Z.eqb_spec (zlen i) 4), (Z.eqb_spec (zlen r) 1); cbn [andb];
    split; intros E; try discriminate; try (destruct E as [? [? [? ?]]]; contradiction).
  - apply Ok_inj in E. injection E as <-. auto.
  - destruct E as [_ [_ [_ ->]]]. reflexivity.
Qed.

Lemma DecredTxIn_spec o q : DecredTxIn net o q =
  if (zlen (dop_bytes o) =? 37) && (zlen q =? 4)
  then Ok {| dti_outpoint := o; dti_sequence := q; dti_bytes := dop_bytes o ++ q |} else Err ValueError.
Proof.
  unfold DecredTxIn, validate_bytes, guard. rewrite D. cbn [bind].
  destruct (zlen (dop_bytes o) =? 37), (zlen q =? 4); reflexivity.
Qed.
Lemma dop37 o : doutpoint_obj net o -> zlen (dop_bytes o) = 37.
Proof. intros O. apply doutpoint_obj_iff in O. destruct O as [A [B [C ->]]]. rewrite !zlen_app. lia. Qed.
Lemma dtxin_obj_iff i : dtxin_obj net i <->
  doutpoint_obj net (dti_outpoint i) /\ zlen (dti_sequence i) = 4 /\ dti_bytes i = dop_bytes (dti_outpoint i) ++ dti_sequence i.
Proof.
  unfold dtxin_obj. rewrite DecredTxIn_spec. destruct i as [o q b]; cbn [dti_outpoint dti_sequence dti_bytes].
  split.
  - intros [O E]. rewrite (dop37 o O) in E. split; [exact O|]. destruct (Z.eqb_spec (zlen q) 4); [|discriminate].
    apply Ok_inj in E. injection E as <-. auto.
  - intros [O [Q ->]]. split; [exact O|]. rewrite (dop37 o O), Q. reflexivity.
Qed.

Lemma DecredTxOut_spec v w s : DecredTxOut net v (Some w) s =
  if (zlen v =? 8) && (zlen w =? 2) && (zlen s <? 2 ^ 64)
  then Ok {| dto_value := v; dto_version := w; dto_output_script_len := zlen s; dto_output_script := s;
             dto_bytes := v ++ w ++ compactsize (zlen s) ++ s |} else Err ValueError.
Proof.
  unfold DecredTxOut, validate_bytes, guard. rewrite D. cbn [bind].
  destruct (zlen v =? 8); [|reflexivity]. destruct (zlen w =? 2); [|reflexivity]. cbn [negb bind andb add_opt].
  rewrite VarInt_len by apply zlen_nonneg. destruct (zlen s <? 2 ^ 64); reflexivity.
Qed.
Lemma DecredTxOut_None v s : DecredTxOut net v None s = Err ValueError.
Proof. unfold DecredTxOut, validate_bytes, guard. rewrite D. cbn [bind]. destruct (zlen v =? 8); reflexivity. Qed.
Lemma dtxout_obj_iff o : dtxout_obj net o <->
  zlen (dto_value o) = 8 /\ zlen (dto_version o) = 2 /\ zlen (dto_output_script o) < 2 ^ 64 /\
  dto_output_script_len o = zlen (dto_output_script o) /\
  dto_bytes o = dto_value o ++ dto_version o ++ compactsize (zlen (dto_output_script o)) ++ dto_output_script o.
Proof.
  unfold dtxout_obj. rewrite DecredTxOut_spec. destruct o as [v w n s b]; cbn [dto_value dto_version dto_output_script dto_output_script_len dto_bytes].
  destruct (Z.eqb_spec (zlen v) 8), (Z.eqb_spec (zlen w) 2), (Z.ltb_spec (zlen s) (2 ^ 64)); cbn [andb];
    split; intros E; try discriminate; try (destruct E as [? [? [? ?]]]; lia).
  - apply Ok_inj in E. injection E as <- <-. auto.
  - destruct E as [_ [_ [_ [-> ->]]]]. reflexivity.
Qed.

Definition dwitness_of v h i s r : dwitness :=
  {| dw_value := v; dw_height := h; dw_index := i; dw_script_len := zlen (s ++ r); dw_stack_script := s; dw_redeem_script := r;
     dw_script_sig := s ++ r; dw_bytes := v ++ h ++ i ++ compactsize (zlen (s ++ r)) ++ s ++ r |}.
Lemma DecredInputWitness_spec v h i s r : DecredInputWitness net v h i s r =
  if (zlen v =? 8) && (zlen h =? 4) && (zlen i =? 4) && (zlen (s ++ r) <? 2 ^ 64) then Ok (dwitness_of v h i s r) else Err ValueError.
Proof.
  unfold DecredInputWitness, validate_bytes, guard. rewrite D. cbn [bind].
  destruct (zlen v =? 8); [|reflexivity]. destruct (zlen h =? 4); [|reflexivity]. destruct (zlen i =? 4); [|reflexivity]. cbn [negb bind andb].
  rewrite VarInt_len by (pose proof (zlen_nonneg s); pose proof (zlen_nonneg r); lia). unfold dwitness_of. rewrite zlen_app.
  destruct (zlen s + zlen r <? 2 ^ 64); reflexivity.
Qed.
Lemma dwitness_obj_iff w : dwitness_obj net w <->
  zlen (dw_value w) = 8 /\ zlen (dw_height w) = 4 /\ zlen (dw_index w) = 4 /\ zlen (dw_script_sig w) < 2 ^ 64 /\
  w = dwitness_of (dw_value w) (dw_height w) (dw_index w) (dw_stack_script w) (dw_redeem_script w).
Proof.
  unfold dwitness_obj. rewrite DecredInputWitness_spec. split.
  - intros E. destruct (Z.eqb_spec (zlen (dw_value w)) 8), (Z.eqb_spec (zlen (dw_height w)) 4), (Z.eqb_spec (zlen (dw_index w)) 4),
      (Z.ltb_spec (zlen (dw_stack_script w ++ dw_redeem_script w)) (2 ^ 64)); try discriminate E. apply Ok_inj in E.
    repeat (split; [assumption|]). split; [|symmetry; exact E]. rewrite <- E. assumption.
  - intros [A [B [C [L E]]]]. rewrite A, B, C. rewrite E in L. cbn [dw_script_sig dwitness_of] in L.
    destruct (Z.ltb_spec (zlen (dw_stack_script w ++ dw_redeem_script w)) (2 ^ 64)); [|lia]. cbn [andb Z.eqb Pos.eqb]. rewrite <- E. reflexivity.
Qed.

(** * the transaction *)

Definition dbody v ins outs lt ex ws : bytes :=
  v ++ compactsize (zlen ins) ++ concat (map dti_bytes ins) ++ compactsize (zlen outs) ++ concat (map dto_bytes outs) ++ lt ++ ex
  ++ compactsize (zlen ws) ++ concat (map dw_bytes ws).
Definition dprefix v (ins : list dtxin) outs lt ex : bytes :=
  slice_to v 2 ++ [1; 0] ++ compactsize (zlen ins) ++ concat (map dti_bytes ins) ++ compactsize (zlen outs) ++ concat (map dto_bytes outs) ++ lt ++ ex.
Definition dtx_args_ok (v : bytes) (ins : list dtxin) (outs : list dtxout) (lt ex : bytes) (ws : list dwitness) : bool :=
  (zlen v =? 4) && (zlen lt =? 4) && (zlen ex =? 4) && (1 <=? zlen ins) && (1 <=? zlen outs) &&
  (zlen ins <? 2 ^ 64) && (zlen outs <? 2 ^ 64) && (zlen ws <? 2 ^ 64) && (zlen (dbody v ins outs lt ex ws) <=? 100000).
Definition dtx_of v ins outs lt ex ws : dtx :=
  {| dtx_version := v; dtx_tx_ins := ins; dtx_tx_outs := outs; dtx_lock_time := lt; dtx_expiry := ex; dtx_tx_witnesses := ws;
     dtx_tx_id_le := blake256 H (dprefix v ins outs lt ex); dtx_tx_id := change_endianness (blake256 H (dprefix v ins outs lt ex));
     dtx_bytes := dbody v ins outs lt ex ws |}.

Lemma DecredTx_spec v ins outs lt ex ws : DecredTx H net v ins outs lt ex ws =
  if dtx_args_ok v ins outs lt ex ws then Ok (dtx_of v ins outs lt ex ws) else Err ValueError.
Proof.
  unfold DecredTx, validate_bytes, guard, dtx_args_ok. rewrite D. cbn [bind].
  pose proof (zlen_nonneg ins). pose proof (zlen_nonneg outs). pose proof (zlen_nonneg ws).
  destruct (zlen v =? 4); [|reflexivity]. destruct (zlen lt =? 4); [|reflexivity]. destruct (zlen ex =? 4); [|reflexivity]. cbn [negb bind andb].
  destruct (Z.eqb_spec (Z.min (zlen ins) (zlen outs)) 0) as [M|M].
  { cbn [bind]. destruct (Z.leb_spec 1 (zlen ins)); [|reflexivity]. destruct (Z.leb_spec 1 (zlen outs)); [lia|]. reflexivity. }
  cbn [bind]. destruct (Z.leb_spec 1 (zlen ins)); [|lia]. destruct (Z.leb_spec 1 (zlen outs)); [|lia]. cbn [andb].
  unfold decred_prefix_of. rewrite !VarInt_len by assumption.
  destruct (zlen ins <? 2 ^ 64); [|reflexivity]. destruct (zlen outs <? 2 ^ 64); [|reflexivity]. destruct (zlen ws <? 2 ^ 64); [|reflexivity].
  cbn [bind andb vi_bytes]. fold (dbody v ins outs lt ex ws). rewrite Z.leb_antisym.
  destruct (100000 <? zlen (dbody v ins outs lt ex ws)); reflexivity.
Qed.
Lemma DecredTx_Ok v ins outs lt ex ws t : DecredTx H net v ins outs lt ex ws = Ok t <->
  dtx_args_ok v ins outs lt ex ws = true /\ t = dtx_of v ins outs lt ex ws.
Proof.
  rewrite DecredTx_spec. destruct (dtx_args_ok _ _ _ _ _ _).
  - split; [intros E; apply Ok_inj in E; auto|intros [_ ->]; reflexivity].
  - split; [discriminate|intros [E _]; discriminate].
Qed.
Lemma dtx_obj_iff t : dtx_obj H net t <->
  Forall (dtxin_obj net) (dtx_tx_ins t) /\ Forall (dtxout_obj net) (dtx_tx_outs t) /\ Forall (dwitness_obj net) (dtx_tx_witnesses t) /\
  dtx_args_ok (dtx_version t) (dtx_tx_ins t) (dtx_tx_outs t) (dtx_lock_time t) (dtx_expiry t) (dtx_tx_witnesses t) = true /\
  t = dtx_of (dtx_version t) (dtx_tx_ins t) (dtx_tx_outs t) (dtx_lock_time t) (dtx_expiry t) (dtx_tx_witnesses t).
Proof. unfold dtx_obj. rewrite DecredTx_Ok. tauto. Qed.

(** * wire formats *)

Lemma dtxin_wire i : dtxin_obj net i -> dti_bytes i = dinput_wire (the_dinput i) /\ dinput_ok (the_dinput i).
Proof.
  intros O. apply dtxin_obj_iff in O. destruct O as [O [Q ->]]. apply doutpoint_obj_iff in O. destruct O as [A [B [C ->]]].
  unfold dinput_wire, dinput_ok, the_dinput. cbn [di_txid di_index di_tree di_sequence]. norm_spec. rewrite <- !app_assoc. auto.
Qed.
Lemma dtxout_wire o : dtxout_obj net o -> dto_bytes o = doutput_wire (the_doutput o) /\ doutput_ok (the_doutput o).
Proof.
  intros O. apply dtxout_obj_iff in O. destruct O as [A [B [C [_ ->]]]].
  unfold doutput_wire, doutput_ok, the_doutput, string_wire. cbn [do_value do_version do_script]. norm_spec. auto.
Qed.
Lemma dwitness_wire' w : dwitness_obj net w -> dw_bytes w = dspend_wire (the_dspend w) /\ dspend_ok (the_dspend w).
Proof.
  intros O. apply dwitness_obj_iff in O. destruct O as [A [B [C [L E]]]].
  unfold dspend_wire, dspend_ok, the_dspend, string_wire. cbn [ds_value ds_height ds_index ds_script]. norm_spec.
  split; [|auto]. rewrite E. cbn [dw_bytes dw_value dw_height dw_index dw_script_sig dwitness_of]. reflexivity.
Qed.

Lemma dbody_wire v ins outs lt ex ws : Forall (dtxin_obj net) ins -> Forall (dtxout_obj net) outs -> Forall (dwitness_obj net) ws ->
  let t := {| d_version := v; d_ins := map the_dinput ins; d_outs := map the_doutput outs; d_lock := lt; d_expiry := ex; d_spends := map the_dspend ws |} in
  dbody v ins outs lt ex ws = dwire t /\ dprefix v ins outs lt ex = dprefix_wire t /\
  Forall dinput_ok (d_ins t) /\ Forall doutput_ok (d_outs t) /\ Forall dspend_ok (d_spends t).
Proof.
  intros Fi Fo Fw t.
  destruct (map_wire _ dti_bytes the_dinput dinput_wire dinput_ok ins dtxin_wire Fi) as [I1 I2].
  destruct (map_wire _ dto_bytes the_doutput doutput_wire doutput_ok outs dtxout_wire Fo) as [O1 O2].
  destruct (map_wire _ dw_bytes the_dspend dspend_wire dspend_ok ws dwitness_wire' Fw) as [W1 W2].
  unfold dbody, dprefix, dwire, dprefix_wire, dprefix_body, vector_wire, t. cbn [d_version d_ins d_outs d_lock d_expiry d_spends].
  norm_count. rewrite !zlen_map, I1, O1, W1, <- !app_assoc. rewrite slice_to_firstn by lia. change (Z.to_nat 2) with 2%nat.
  repeat split; assumption.
Qed.
Lemma dtx_wire t : dtx_obj H net t -> dtx_bytes t = dwire (the_dtx t) /\ dtx_tx_id_le t = blake256 H (dprefix_wire (the_dtx t)) /\
  dtx_tx_id t = rev (blake256 H (dprefix_wire (the_dtx t))) /\ dtransaction_ok (the_dtx t).
Proof.
  intros O. apply dtx_obj_iff in O. destruct O as [Fi [Fo [Fw [A E]]]].
  destruct (dbody_wire (dtx_version t) _ _ (dtx_lock_time t) (dtx_expiry t) _ Fi Fo Fw) as [B [P [I [O W]]]]. fold (the_dtx t) in *.
  unfold dtx_args_ok in A. rewrite !andb_true_iff in A.
  rewrite E at 1 3 5. cbn [dtx_bytes dtx_tx_id_le dtx_tx_id dtx_of]. rewrite P, B. unfold change_endianness.
  repeat (split; [reflexivity|]). unfold dtransaction_ok. norm_count. unfold the_dtx at 1 2 3 4 5. cbn [d_version d_lock d_expiry d_ins d_outs].
  rewrite !zlen_map. rewrite B in A. norm_spec. repeat split; try assumption; lia.
Qed.

(* two transactions that hold the same wire data have the same parts up to the split of signature scripts *)
Lemma dti_inj i j : dtxin_obj net i -> dtxin_obj net j -> the_dinput i = the_dinput j -> i = j.
Proof.
  intros O P E. apply dtxin_obj_iff in O. apply dtxin_obj_iff in P. destruct O as [O [_ B]], P as [P [_ C]].
  apply doutpoint_obj_iff in O. apply doutpoint_obj_iff in P. destruct O as [_ [_ [_ O]]], P as [_ [_ [_ P]]].
  destruct i as [[a b c d] q x], j as [[a' b' c' d'] q' x']. cbn in *. injection E as <- <- <- <-. subst. reflexivity.
Qed.

(** * round trips *)

Lemma DecredOutpoint_parse o rest : doutpoint_obj net o -> DecredOutpoint_from_bytes net (dop_bytes o ++ rest) = Ok o.
Proof.
  intros O. pose proof O as O'. apply doutpoint_obj_iff in O'. destruct O' as [A [B [C E]]]. unfold DecredOutpoint_from_bytes.
  rewrite E, <- !app_assoc. rewrite slice_to_app by assumption. rewrite (slice_app (dop_tx_id o)) by lia.
  rewrite (app_assoc (dop_tx_id o)), (slice_app _ (dop_tree o)) by (rewrite ?zlen_app; lia). exact O.
Qed.
Lemma DecredOutpoint_short b : zlen b < 37 -> DecredOutpoint_from_bytes net b = Err ValueError.
Proof.
  intros L. unfold DecredOutpoint_from_bytes. rewrite DecredOutpoint_spec.
  destruct (Z.eqb_spec (zlen (slice b 36 37)) 1) as [X|X]; [|rewrite andb_false_r; reflexivity].
  rewrite slice_firstn in X by lia. rewrite skipn_all2 in X by (unfold zlen in L; lia). rewrite firstn_nil in X. discriminate.
Qed.
Lemma DecredTxIn_parse i rest : dtxin_obj net i -> DecredTxIn_from_bytes net (dti_bytes i ++ rest) = Ok i.
Proof.
  intros O. pose proof O as O'. apply dtxin_obj_iff in O'. destruct O' as [A [B C]]. unfold DecredTxIn_from_bytes.
  pose proof (dop37 _ A) as L. rewrite C, <- app_assoc. rewrite slice_to_app by exact L.
  rewrite <- (app_nil_r (dop_bytes (dti_outpoint i))) at 1. rewrite DecredOutpoint_parse by exact A. cbn [bind].
  rewrite (slice_app (dop_bytes _)) by lia. apply O.
Qed.
Lemma DecredTxOut_parse o rest : readable net (zlen (dto_output_script o)) -> dtxout_obj net o ->
  DecredTxOut_from_bytes net (dto_bytes o ++ rest) =
  if zlen (dto_output_script o) <? 252 then Ok o else Err NotImplementedError.
Proof.
  intros R O. pose proof O as O'. apply dtxout_obj_iff in O'. destruct O' as [A [B [C [_ E]]]]. unfold DecredTxOut_from_bytes.
  rewrite E, <- !app_assoc. rewrite (app_assoc (dto_value o)), (slice_from_app (dto_value o ++ dto_version o)) by (rewrite zlen_app; lia).
  rewrite VarInt_roundtrip by (try assumption; pose proof (zlen_nonneg (dto_output_script o)); lia). cbn [bind vi_bytes vi_number].
  change 0xfc with 252. destruct (zlen (dto_output_script o) <? 252); [|reflexivity].
  rewrite <- app_assoc. rewrite slice_to_app by exact A. rewrite (slice_app (dto_value o)) by lia.
  rewrite !app_assoc. rewrite <- (app_assoc _ (dto_output_script o) rest). rewrite (slice_app _ (dto_output_script o)) by (rewrite ?zlen_app; lia).
  exact O.
Qed.
End Net.
