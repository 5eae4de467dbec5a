(* Lemmas about MDecred.v: signature digests *)
From Coq Require Import String.
From Verif Require Import Py LBase MNet MUtils MShared MScript MTx MDecred SNum SNet SScript STx SSig SDecred LNet LUtils LVarint LScript LTx LTxParse LTxWire LSig LSigBind LDecred.
Open Scope list_scope.
Open Scope Z_scope.
Ltac Zify.zify_post_hook ::= idtac.

Lemma split_parts {A} (l : list A) n : firstn n l ++ firstn 1 (skipn n l) ++ skipn (S n) l = l.
Proof.
  revert n. induction l as [|x l IH]; intros [|n]; try reflexivity. cbn [firstn skipn app]. f_equal. apply IH.
Qed.
Lemma map_idf {A} (f : A -> A) l : (forall a, f a = a) -> map f l = l.
Proof. intros E. induction l; cbn; congruence. Qed.

Section Net.
Context (H : hashes) (net : network) (D : decred_only net = Ok tt).

Definition dset (code : bytes) (w : dwitness) : dwitness := dwitness_of (dw_value w) (dw_height w) (dw_index w) code [].

Lemma dset_copy w code r : dwitness_obj net w ->
  DecredInputWitness_copy net w None None None (Some code) (Some r) =
  if zlen (code ++ r) <? 2 ^ 64 then Ok (dwitness_of (dw_value w) (dw_height w) (dw_index w) code r) else Err ValueError.
Proof.
  intros O. apply (dwitness_obj_iff net D) in O. destruct O as [A [B [C _]]]. unfold DecredInputWitness_copy, or_self.
  rewrite (DecredInputWitness_spec net D), A, B, C. reflexivity.
Qed.
Lemma dset_obj w code : dwitness_obj net w -> zlen code < 2 ^ 64 -> dwitness_obj net (dset code w).
Proof.
  intros O L. apply (dwitness_obj_iff net D) in O. destruct O as [A [B [C _]]]. apply (dwitness_obj_iff net D).
  unfold dset. cbn [dw_value dw_height dw_index dw_script_sig dw_stack_script dw_redeem_script dwitness_of].
  rewrite app_nil_r. auto.
Qed.
Lemma dclear_copy w : dwitness_obj net w -> DecredInputWitness_copy net w None None None (Some []) (Some []) = Ok (dset [] w).
Proof. intros O. exact (dset_copy w [] [] O). Qed.
Lemma dset_script w code : dw_script_sig (dset code w) = code.
Proof. apply app_nil_r. Qed.
Lemma the_dset w code : the_dspend (dset code w) = dwith_script code (the_dspend w).
Proof. unfold the_dspend, dwith_script. rewrite dset_script. reflexivity. Qed.

Definition dprep (n : nat) (code : bytes) (w : dwitness) (ws : list dwitness) : list dwitness :=
  map (dset []) (firstn n ws) ++ dset code w :: map (dset []) (skipn (S n) ws).
Lemma the_dprep n code w ws : nth_error ws n = Some w ->
  map the_dspend (dprep n code w ws) =
  map (dwith_script []) (firstn n (map the_dspend ws)) ++ map (dwith_script code) (firstn 1 (skipn n (map the_dspend ws))) ++
  map (dwith_script []) (skipn (S n) (map the_dspend ws)).
Proof.
  intros E. unfold dprep. rewrite map_app, !map_map, (nth_one (map the_dspend ws) n (the_dspend w)) by (rewrite nth_error_map, E; reflexivity).
  rewrite firstn_map, skipn_map, !map_map. cbn [map app]. apply f_equal2.
  - apply map_ext. intros a. apply the_dset.
  - apply f_equal2; [apply the_dset|]. rewrite !map_map. apply map_ext. intros a. apply the_dset.
Qed.
Lemma dprep_obj n code w ws : nth_error ws n = Some w -> Forall (dwitness_obj net) ws -> zlen code < 2 ^ 64 -> Forall (dwitness_obj net) (dprep n code w ws).
Proof.
  intros E F L. destruct (Forall_parts _ _ _ _ E F) as [O [F1 F2]]. unfold dprep. apply Forall_app. split; [|constructor].
  - apply Forall_map. eapply Forall_impl; [|exact F1]. intros a A. apply dset_obj; [exact A|reflexivity].
  - apply dset_obj; assumption.
  - apply Forall_map. eapply Forall_impl; [|exact F2]. intros a A. apply dset_obj; [exact A|reflexivity].
Qed.
Lemma dprep_len n code w ws : nth_error ws n = Some w -> zlen (dprep n code w ws) = zlen ws.
Proof. intros E. rewrite (nth_split ws n w E) at 2. unfold dprep. rewrite !zlen_app, !zlen_cons, !zlen_map. reflexivity. Qed.
Lemma nth_dprep n code w ws : nth_error ws n = Some w -> nth_error (dprep n code w ws) n = Some (dset code w).
Proof.
  intros E. unfold dprep. pose proof (nth_lt _ _ _ E).
  rewrite nth_error_app2 by (rewrite map_length, firstn_length; lia).
  rewrite map_length, firstn_length. replace (n - Nat.min n (length ws))%nat with 0%nat by lia. reflexivity.
Qed.
Lemma dprep_scripts n code w ws : nth_error ws n = Some w -> map dw_script_sig (dprep n code w ws) = dscripts (length ws) n code.
Proof.
  intros E. pose proof (nth_lt _ _ _ E). unfold dprep, dscripts. rewrite map_app. cbn [map]. rewrite !map_map, dset_script.
  assert (forall l, map (fun x => dw_script_sig (dset [] x)) l = repeat [] (length l)) as M by (intros l; apply (map_const [])).
  rewrite !M, firstn_length, skipn_length. repeat f_equal. lia.
Qed.

Lemma count_bytes {A} (f : A -> bytes) l : (forall a, In a l -> 1 <= zlen (f a)) -> zlen l <= zlen (concat (map f l)).
Proof.
  intros P. induction l as [|a l IH]; [cbn; lia|]. cbn [map concat]. rewrite zlen_cons, zlen_app.
  pose proof (P a (or_introl eq_refl)). assert (zlen l <= zlen (concat (map f l))) by (apply IH; intros x I; apply P; right; exact I). lia.
Qed.
Lemma Forall_in {A} (P : A -> Prop) l a : Forall P l -> In a l -> P a.
Proof. rewrite Forall_forall. auto. Qed.

(* the size limit is the only condition left for the parts of an object *)
Lemma dargs_fits v ins outs lt ex ws : zlen v = 4 -> zlen lt = 4 -> zlen ex = 4 -> 1 <= zlen ins -> 1 <= zlen outs ->
  Forall (dtxin_obj net) ins -> Forall (dtxout_obj net) outs -> Forall (dwitness_obj net) ws ->
  dtx_args_ok v ins outs lt ex ws =
  fits {| d_version := v; d_ins := map the_dinput ins; d_outs := map the_doutput outs; d_lock := lt; d_expiry := ex; d_spends := map the_dspend ws |}.
Proof.
  intros Lv Ll Le Li Lo Fi Fo Fw. destruct (dbody_wire net D v ins outs lt ex ws Fi Fo Fw) as [B _].
  unfold dtx_args_ok, fits. norm_spec. rewrite <- B, Lv, Ll, Le. clear B.
  destruct (Z.leb_spec 1 (zlen ins)); [|lia]. destruct (Z.leb_spec 1 (zlen outs)); [|lia].
  destruct (Z.leb_spec (zlen (dbody v ins outs lt ex ws)) 100000) as [L|L]; [|rewrite andb_false_r; reflexivity].
  assert (zlen ins <= 100000 /\ zlen outs <= 100000 /\ zlen ws <= 100000) as [X [Y Z]].
  { unfold dbody in L. rewrite !zlen_app in L.
    assert (zlen ins <= zlen (concat (map dti_bytes ins))).
    { apply count_bytes. intros a I. pose proof (Forall_in _ _ _ Fi I) as O. apply (dtxin_obj_iff net D) in O. destruct O as [O [Q ->]].
      rewrite zlen_app. pose proof (zlen_nonneg (dop_bytes (dti_outpoint a))). lia. }
    assert (zlen outs <= zlen (concat (map dto_bytes outs))).
    { apply count_bytes. intros a I. pose proof (Forall_in _ _ _ Fo I) as O. apply (dtxout_obj_iff net D) in O. destruct O as [Q [_ [_ [_ ->]]]].
      rewrite zlen_app. match goal with |- context [zlen (?a ++ ?b)] => pose proof (zlen_nonneg (a ++ b)) end. lia. }
    assert (zlen ws <= zlen (concat (map dw_bytes ws))).
    { apply count_bytes. intros a I. pose proof (Forall_in _ _ _ Fw I) as O. apply (dwitness_obj_iff net D) in O. destruct O as [Q [_ [_ [_ E]]]].
      rewrite E. cbn [dw_bytes dwitness_of]. rewrite zlen_app. match goal with |- context [zlen (?a ++ ?b)] => pose proof (zlen_nonneg (a ++ b)) end. lia. }
    repeat match type of L with context [zlen ?x] => lazymatch goal with _ : 0 <= zlen x |- _ => fail | _ => pose proof (zlen_nonneg x) end end. lia. }
  destruct (Z.ltb_spec (zlen ins) (2 ^ 64)); [|lia]. destruct (Z.ltb_spec (zlen outs) (2 ^ 64)); [|lia]. destruct (Z.ltb_spec (zlen ws) (2 ^ 64)); [|lia].
  reflexivity.
Qed.

Definition dcopy n code w (t : dtx) : dtx :=
  dtx_of H (dtx_version t) (dtx_tx_ins t) (dtx_tx_outs t) (dtx_lock_time t) (dtx_expiry t) (dprep n code w (dtx_tx_witnesses t)).
Lemma the_dcopy n code w t : nth_error (dtx_tx_witnesses t) n = Some w -> the_dtx (dcopy n code w t) = dsigning_copy n code (the_dtx t).
Proof.
  intros E. unfold the_dtx, dcopy, dsigning_copy. cbn [dtx_version dtx_tx_ins dtx_tx_outs dtx_lock_time dtx_expiry dtx_tx_witnesses dtx_of d_version d_ins d_outs d_lock d_expiry d_spends].
  rewrite the_dprep by exact E. reflexivity.
Qed.

Lemma fits_script n code t w : nth_error (d_spends t) n = Some w -> fits (dsigning_copy n code t) = true -> len code < 2 ^ 64.
Proof.
  intros E F. unfold fits in F. norm_spec. apply Z.leb_le in F. unfold dsigning_copy, dwire in F.
  cbn [d_version d_ins d_outs d_lock d_expiry d_spends] in F. rewrite (nth_one _ _ _ E) in F. unfold vector_wire in F.
  rewrite !map_app, !concat_app in F. cbn [map concat] in F.
  assert (zlen code <= zlen (dspend_wire (dwith_script code w))) as X.
  { unfold dspend_wire, string_wire. cbn [ds_script dwith_script]. rewrite !zlen_app.
    repeat match goal with |- context [zlen ?x] => lazymatch goal with _ : 0 <= zlen x |- _ => fail | _ => pose proof (zlen_nonneg x) end end. lia. }
  norm_spec. rewrite !zlen_app in F.
  repeat match type of F with context [zlen ?x] => lazymatch goal with _ : 0 <= zlen x |- _ => fail | _ => pose proof (zlen_nonneg x) end end. lia.
Qed.

Lemma dtx_fields t : dtx_obj H net t -> zlen (dtx_version t) = 4 /\ zlen (dtx_lock_time t) = 4 /\ zlen (dtx_expiry t) = 4 /\
  1 <= zlen (dtx_tx_ins t) /\ 1 <= zlen (dtx_tx_outs t).
Proof.
  intros O. apply (dtx_obj_iff H net D) in O. destruct O as [_ [_ [_ [A _]]]]. unfold dtx_args_ok in A. rewrite !andb_true_iff in A. lia.
Qed.

Lemma dprep_spec t n w script : dtx_obj H net t -> nth_error (dtx_tx_witnesses t) n = Some w ->
  let code := match script with Some s => s | None => [] end in
  decred_sighash_prep H net t (Z.of_nat n) script =
  if fits (dsigning_copy n code (the_dtx t)) then Ok (dcopy n code w t) else Err ValueError.
Proof.
  intros O E code. pose proof O as O'. destruct O' as [Fi [Fo [Fw _]]]. unfold decred_sighash_prep.
  rewrite (mapM_Ok_map _ (dset [])) by (intros a I; apply dclear_copy; rewrite Forall_forall in Fw; apply Fw, I). cbn [bind].
  rewrite (index_of_nat _ n (dset [] w)) by (rewrite nth_error_map, E; reflexivity). cbn [bind].
  assert (dwitness_obj net w) as Ow by (rewrite Forall_forall in Fw; apply Fw; eapply nth_error_In; exact E).
  assert (DecredInputWitness_copy net (dset [] w) None None None script (Some []) =
          if zlen code <? 2 ^ 64 then Ok (dset code w) else Err ValueError) as ->.
  { transitivity (DecredInputWitness_copy net (dset [] w) None None None (Some code) (Some [])).
    - unfold DecredInputWitness_copy. destruct script; reflexivity.
    - rewrite dset_copy by (apply dset_obj; [exact Ow|reflexivity]). rewrite app_nil_r. reflexivity. }
  destruct (fits (dsigning_copy n code (the_dtx t))) eqn:F.
  - assert (len code < 2 ^ 64) as L.
    { eapply fits_script; [|exact F]. unfold the_dtx. cbn [d_spends]. rewrite nth_error_map, E. reflexivity. }
    norm_spec. destruct (Z.ltb_spec (zlen code) (2 ^ 64)); [|lia]. cbn [bind].
    rewrite (set_index_of_nat _ n (dset [] w)) by (rewrite nth_error_map, E; reflexivity). cbn [bind].
    rewrite firstn_map, skipn_map. fold (dprep n code w (dtx_tx_witnesses t)). unfold DecredTx_copy, or_self.
    rewrite (DecredTx_spec H net D). destruct (dtx_fields t O) as [A1 [A2 [A3 [A4 A5]]]].
    rewrite dargs_fits; try assumption; [|apply dprep_obj; assumption].
    rewrite the_dprep by exact E. change ((if fits (dsigning_copy n code (the_dtx t)) then Ok (dcopy n code w t) else Err ValueError) = Ok (dcopy n code w t)). rewrite F. reflexivity.
  - destruct (Z.ltb_spec (zlen code) (2 ^ 64)); [|reflexivity]. cbn [bind].
    rewrite (set_index_of_nat _ n (dset [] w)) by (rewrite nth_error_map, E; reflexivity). cbn [bind].
    rewrite firstn_map, skipn_map. fold (dprep n code w (dtx_tx_witnesses t)). unfold DecredTx_copy, or_self.
    rewrite (DecredTx_spec H net D). destruct (dtx_fields t O) as [A1 [A2 [A3 [A4 A5]]]].
    rewrite dargs_fits; try assumption; [|apply dprep_obj; assumption].
    rewrite the_dprep by exact E. change ((if fits (dsigning_copy n code (the_dtx t)) then Ok (dcopy n code w t) else Err ValueError) = Err ValueError). rewrite F. reflexivity.
Qed.

Lemma dprep_index_err t n script : dtx_obj H net t -> (length (dtx_tx_witnesses t) <= n)%nat ->
  decred_sighash_prep H net t (Z.of_nat n) script = Err IndexError.
Proof.
  intros O L. pose proof O as O'. destruct O' as [_ [_ [Fw _]]]. unfold decred_sighash_prep.
  rewrite (mapM_Ok_map _ (dset [])) by (intros a I; apply dclear_copy; rewrite Forall_forall in Fw; apply Fw, I). cbn [bind].
  rewrite index_err; [reflexivity|]. rewrite zlen_map. unfold zlen. lia.
Qed.

(* a copy with all parts objects is an object *)
Lemma dobj_of v ins outs lt ex ws : Forall (dtxin_obj net) ins -> Forall (dtxout_obj net) outs -> Forall (dwitness_obj net) ws ->
  dtx_args_ok v ins outs lt ex ws = true -> dtx_obj H net (dtx_of H v ins outs lt ex ws).
Proof. intros Fi Fo Fw A. apply (dtx_obj_iff H net D). cbn [dtx_version dtx_tx_ins dtx_tx_outs dtx_lock_time dtx_expiry dtx_tx_witnesses dtx_of]. auto. Qed.

Lemma dsigning_spec c : dtx_obj H net c -> decred_witness_signing c = Ok (dsigning_wire (dtx_version c) (map dw_script_sig (dtx_tx_witnesses c))).
Proof.
  intros O. apply (dtx_obj_iff H net D) in O. destruct O as [_ [_ [Fw [A _]]]]. unfold dtx_args_ok in A. rewrite !andb_true_iff in A.
  unfold decred_witness_signing. rewrite VarInt_len by apply zlen_nonneg. destruct (Z.ltb_spec (zlen (dtx_tx_witnesses c)) (2 ^ 64)); [|lia]. cbn [bind].
  rewrite (mapM_Ok_map _ (fun w => string_wire (dw_script_sig w))).
  - cbn [bind vi_bytes]. unfold dsigning_wire, vector_wire. norm_count. rewrite zlen_map, map_map. rewrite slice_to_firstn by lia. reflexivity.
  - intros a I. rewrite Forall_forall in Fw. pose proof (Fw _ I) as Oa. apply (dwitness_obj_iff net D) in Oa. destruct Oa as [_ [_ [_ [L E]]]].
    rewrite E. cbn [dw_script_len dw_script_sig dwitness_of]. rewrite E in L. cbn [dw_script_sig dwitness_of] in L.
    rewrite VarInt_len by apply zlen_nonneg. destruct (Z.ltb_spec (zlen (dw_stack_script a ++ dw_redeem_script a)) (2 ^ 64)); [|lia]. reflexivity.
Qed.

Lemma dfinal_spec c k : dtx_obj H net c -> 0 <= k < 2 ^ 32 ->
  decred_sighash_final_hashing H c k =
  Ok (blake256 H (le_bytes 4 k ++ blake256 H (dprefix_wire (the_dtx c)) ++ blake256 H (dsigning_wire (dtx_version c) (map dw_script_sig (dtx_tx_witnesses c))))).
Proof.
  intros O K. unfold decred_sighash_final_hashing. rewrite i2le_padded_Ok by lia. cbn [bind]. unfold witness_signing_hash, prefix_hash.
  rewrite dsigning_spec by exact O. cbn [bind]. destruct (dtx_wire H net D c O) as [_ [-> _]]. reflexivity.
Qed.

Lemma dset_dset c' c w : dset c (dset c' w) = dset c w.
Proof. reflexivity. Qed.
Lemma dacp_spec c n w code ws k : dtx_obj H net c -> dtx_tx_witnesses c = dprep n code w ws -> nth_error ws n = Some w ->
  decred_sighash_anyone_can_pay H net (Z.of_nat n) c k = decred_sighash_final_hashing H c (Z.lor k SIGHASH_ANYONECANPAY).
Proof.
  intros O E N. pose proof O as O'. destruct O' as [_ [_ [Fw C]]]. unfold decred_sighash_anyone_can_pay.
  rewrite (mapM_Ok_map _ (dset [])) by (intros a I; apply dclear_copy; rewrite Forall_forall in Fw; apply Fw, I). cbn [bind]. rewrite E.
  pose proof (nth_dprep n code w ws N) as X. rewrite (index_of_nat _ n _ X). cbn [bind].
  rewrite (set_index_of_nat _ n (dset [] (dset code w))) by (rewrite nth_error_map, X; reflexivity). cbn [bind].
  assert (firstn n (map (dset []) (dprep n code w ws)) ++ dset code w :: skipn (S n) (map (dset []) (dprep n code w ws)) = dprep n code w ws) as ->.
  { pose proof (nth_lt _ _ _ N) as L. unfold dprep. rewrite map_app. cbn [map]. rewrite !map_map.
    assert (length (map (fun x => dset [] (dset [] x)) (firstn n ws)) = n) as Ln by (rewrite map_length, firstn_length; lia).
    rewrite firstn_app, Ln, Nat.sub_diag, firstn_O, app_nil_r, firstn_all2 by lia.
    rewrite skipn_app, Ln. rewrite (skipn_all2 (n := S n)) by lia. replace (S n - n)%nat with 1%nat by lia. cbn [skipn app]. reflexivity. }
  unfold DecredTx_copy, or_self. rewrite <- E, C. reflexivity.
Qed.

(** * SINGLE *)

Definition dnull : dtxout := {| dto_value := repeat 255 8; dto_version := [0; 0]; dto_output_script_len := 0; dto_output_script := [];
                                dto_bytes := repeat 255 8 ++ [0; 0; 0] |}.
Lemma dnull_Ok : DecredTxOut net (zrepeat 0xff 8) (Some [0; 0]) [] = Ok dnull.
Proof. rewrite (DecredTxOut_spec net D). reflexivity. Qed.
Lemma dnull_obj : dtxout_obj net dnull.
Proof. exact dnull_Ok. Qed.
Definition dzero (i : dtxin) : dtxin :=
  {| dti_outpoint := dti_outpoint i; dti_sequence := [0; 0; 0; 0]; dti_bytes := dop_bytes (dti_outpoint i) ++ [0; 0; 0; 0] |}.
Lemma dzero_copy i : dtxin_obj net i -> DecredTxIn_copy net i None (Some (zrepeat 0 4)) = Ok (dzero i).
Proof. intros O. unfold DecredTxIn_copy, or_self. rewrite (DecredTxIn_spec net D), (dop37 net D) by apply O. reflexivity. Qed.
Lemma dzero_obj i : dtxin_obj net i -> dtxin_obj net (dzero i).
Proof. intros O. split; [apply O|exact (dzero_copy i O)]. Qed.

Definition dsins n i (ins : list dtxin) := map dzero (firstn n ins) ++ i :: map dzero (skipn (S n) ins).
Definition dsouts n o (k : nat) : list dtxout := repeat dnull n ++ o :: repeat dnull (k - S n).

Definition dscopy n code w i o (t : dtx) : dtx :=
  dtx_of H (dtx_version t) (dsins n i (dtx_tx_ins t)) (dsouts n o (length (dtx_tx_ins t))) (dtx_lock_time t) (dtx_expiry t) (dprep n code w (dtx_tx_witnesses t)).
Lemma the_dsins n i ins : nth_error ins n = Some i ->
  map the_dinput (dsins n i ins) =
  map (dother_input Single) (firstn n (map the_dinput ins)) ++ firstn 1 (skipn n (map the_dinput ins)) ++ map (dother_input Single) (skipn (S n) (map the_dinput ins)).
Proof.
  intros E. unfold dsins. rewrite (nth_one (map the_dinput ins) n (the_dinput i)) by (rewrite nth_error_map, E; reflexivity).
  rewrite firstn_map, skipn_map, map_app. cbn [map app]. rewrite !map_map. reflexivity.
Qed.
Lemma the_dsouts n o k outs : nth_error outs n = Some o ->
  map the_doutput (dsouts n o k) = repeat dnull_output n ++ firstn 1 (skipn n (map the_doutput outs)) ++ repeat dnull_output (k - S n).
Proof.
  intros E. unfold dsouts. rewrite (nth_one (map the_doutput outs) n (the_doutput o)) by (rewrite nth_error_map, E; reflexivity).
  rewrite map_app. cbn [map app]. rewrite !map_repeat'. reflexivity.
Qed.
Lemma the_dscopy n code w i o t : nth_error (dtx_tx_witnesses t) n = Some w -> nth_error (dtx_tx_ins t) n = Some i -> nth_error (dtx_tx_outs t) n = Some o ->
  the_dtx (dscopy n code w i o t) = dlib_tx Single n (dsigning_copy n code (the_dtx t)).
Proof.
  intros Ew Ei Eo. unfold the_dtx, dscopy, dlib_tx, dsigned_tx, with_ins_outs, dsigning_copy.
  cbn [dtx_version dtx_tx_ins dtx_tx_outs dtx_lock_time dtx_expiry dtx_tx_witnesses dtx_of d_version d_ins d_outs d_lock d_expiry d_spends].
  rewrite the_dprep by exact Ew. rewrite the_dsins by exact Ei. rewrite (the_dsouts n o _ (dtx_tx_outs t)) by exact Eo.
  rewrite map_length. reflexivity.
Qed.

Lemma dsingle_spec t n w i o script anyone : dtx_obj H net t -> nth_error (dtx_tx_witnesses t) n = Some w -> nth_error (dtx_tx_ins t) n = Some i ->
  nth_error (dtx_tx_outs t) n = Some o ->
  let code := match script with Some s => s | None => [] end in
  decred_sighash_single H net t (Z.of_nat n) script anyone =
  if fits (dsigning_copy n code (the_dtx t)) && fits (dlib_tx Single n (dsigning_copy n code (the_dtx t)))
  then Ok (blake256 H (dlib_preimage (blake256 H) Single anyone n code (the_dtx t))) else Err ValueError.
Proof.
  intros O Ew Ei Eo code. unfold decred_sighash_single. rewrite (dprep_spec t n w script O Ew). fold code.
  destruct (fits (dsigning_copy n code (the_dtx t))) eqn:F; [|reflexivity]. cbn [bind andb].
  assert (len code < 2 ^ 64) as L.
  { eapply fits_script; [|exact F]. unfold the_dtx. cbn [d_spends]. rewrite nth_error_map, Ew. reflexivity. }
  pose proof O as O'. destruct O' as [Fi [Fo [Fw _]]].
  unfold dcopy at 1 2 3 4 5. cbn [dtx_tx_ins dtx_tx_outs dtx_of].
  rewrite (mapM_Ok_map _ (fun _ => dnull)) by (intros a _; apply dnull_Ok). cbn [bind].
  rewrite (index_of_nat _ n o Eo). cbn [bind]. rewrite map_const.
  rewrite (set_index_of_nat _ n dnull) by (apply nth_error_repeat; eapply nth_lt; exact Ei). cbn [bind].
  rewrite firstn_repeat by (pose proof (nth_lt _ _ _ Ei); lia). rewrite skipn_repeat. fold (dsouts n o (length (dtx_tx_ins t))).
  rewrite (mapM_Ok_map _ dzero) by (intros a I; apply dzero_copy; rewrite Forall_forall in Fi; apply Fi, I). cbn [bind].
  rewrite (index_of_nat _ n i Ei). cbn [bind].
  rewrite (set_index_of_nat _ n (dzero i)) by (rewrite nth_error_map, Ei; reflexivity). cbn [bind].
  rewrite firstn_map, skipn_map. fold (dsins n i (dtx_tx_ins t)).
  destruct (dtx_fields t O) as [A1 [A2 [A3 [A4 A5]]]].
  destruct (Forall_parts _ _ _ _ Ei Fi) as [Oi [Fi1 Fi2]]. destruct (Forall_parts _ _ _ _ Eo Fo) as [Oo _].
  assert (Forall (dtxin_obj net) (dsins n i (dtx_tx_ins t))) as Gi.
  { unfold dsins. apply Forall_app. split; [|constructor; [exact Oi|]]; apply Forall_map; (eapply Forall_impl; [exact dzero_obj|assumption]). }
  assert (Forall (dtxout_obj net) (dsouts n o (length (dtx_tx_ins t)))) as Go.
  { unfold dsouts. apply Forall_app. split; [|constructor; [exact Oo|]]; apply Forall_forall; intros a I; apply repeat_spec in I; subst a; apply dnull_obj. }
  assert (Forall (dwitness_obj net) (dprep n code w (dtx_tx_witnesses t))) as Gw by (apply dprep_obj; assumption).
  unfold DecredTx_copy, or_self. unfold dcopy. cbn [dtx_version dtx_lock_time dtx_expiry dtx_tx_witnesses dtx_of].
  rewrite (DecredTx_spec H net D).
  assert (dtx_args_ok (dtx_version t) (dsins n i (dtx_tx_ins t)) (dsouts n o (length (dtx_tx_ins t))) (dtx_lock_time t) (dtx_expiry t) (dprep n code w (dtx_tx_witnesses t))
          = fits (dlib_tx Single n (dsigning_copy n code (the_dtx t)))) as Ea.
  { rewrite dargs_fits; try assumption.
    - rewrite <- (the_dscopy n code w i o t Ew Ei Eo). reflexivity.
    - unfold dsins. rewrite zlen_app, zlen_cons. match goal with |- _ <= zlen ?a + (zlen ?b + 1) => pose proof (zlen_nonneg a); pose proof (zlen_nonneg b) | |- _ <= zlen ?a + (1 + zlen ?b) => pose proof (zlen_nonneg a); pose proof (zlen_nonneg b) end. lia.
    - unfold dsouts. rewrite zlen_app, zlen_cons. match goal with |- _ <= zlen ?a + (zlen ?b + 1) => pose proof (zlen_nonneg a); pose proof (zlen_nonneg b) | |- _ <= zlen ?a + (1 + zlen ?b) => pose proof (zlen_nonneg a); pose proof (zlen_nonneg b) end. lia. }
  rewrite Ea. destruct (fits (dlib_tx Single n (dsigning_copy n code (the_dtx t)))); [|reflexivity]. cbn [bind].
  fold (dscopy n code w i o t).
  assert (dtx_obj H net (dscopy n code w i o t)) as Oc by (apply dobj_of; assumption).
  assert (forall k, 0 <= k < 2 ^ 32 -> decred_sighash_final_hashing H (dscopy n code w i o t) k =
    Ok (blake256 H (le_bytes 4 k ++ blake256 H (dprefix_wire (dlib_tx Single n (the_dtx t))) ++
                    blake256 H (dsigning_wire (d_version (the_dtx t)) (dscripts (length (d_spends (the_dtx t))) n code))))) as Fin.
  { intros k K. rewrite dfinal_spec by assumption. rewrite (the_dscopy n code w i o t Ew Ei Eo).
    unfold dscopy. cbn [dtx_tx_witnesses dtx_version dtx_of]. rewrite (dprep_scripts n code w) by exact Ew.
    replace (length (d_spends (the_dtx t))) with (length (dtx_tx_witnesses t)) by (symmetry; apply map_length). reflexivity. }
  destruct anyone.
  - rewrite (dacp_spec _ n w code (dtx_tx_witnesses t) _ Oc eq_refl Ew). apply Fin. split; vm_compute; [discriminate|reflexivity].
  - apply Fin. split; vm_compute; [discriminate|reflexivity].
Qed.

Lemma dall_spec t n w script anyone : dtx_obj H net t -> nth_error (dtx_tx_witnesses t) n = Some w ->
  let code := match script with Some s => s | None => [] end in
  decred_sighash_all H net t (Z.of_nat n) script anyone =
  if fits (dsigning_copy n code (the_dtx t))
  then Ok (blake256 H (dlib_preimage (blake256 H) All anyone n code (the_dtx t))) else Err ValueError.
Proof.
  intros O Ew code. unfold decred_sighash_all. rewrite (dprep_spec t n w script O Ew). fold code.
  destruct (fits (dsigning_copy n code (the_dtx t))) eqn:F; [|reflexivity]. cbn [bind].
  assert (len code < 2 ^ 64) as L.
  { eapply fits_script; [|exact F]. unfold the_dtx. cbn [d_spends]. rewrite nth_error_map, Ew. reflexivity. }
  pose proof O as O'. destruct O' as [Fi [Fo [Fw _]]]. destruct (dtx_fields t O) as [A1 [A2 [A3 [A4 A5]]]].
  assert (Forall (dwitness_obj net) (dprep n code w (dtx_tx_witnesses t))) as Gw by (apply dprep_obj; assumption).
  assert (dtx_obj H net (dcopy n code w t)) as Oc.
  { apply dobj_of; try assumption. rewrite dargs_fits by assumption. rewrite the_dprep by exact Ew. exact F. }
  assert (forall k, 0 <= k < 2 ^ 32 -> decred_sighash_final_hashing H (dcopy n code w t) k =
    Ok (blake256 H (le_bytes 4 k ++ blake256 H (dprefix_wire (dlib_tx All n (the_dtx t))) ++
                    blake256 H (dsigning_wire (d_version (the_dtx t)) (dscripts (length (d_spends (the_dtx t))) n code))))) as Fin.
  { intros k K. rewrite dfinal_spec by assumption. rewrite (the_dcopy n code w t Ew).
    unfold dcopy. cbn [dtx_tx_witnesses dtx_version dtx_of]. rewrite (dprep_scripts n code w) by exact Ew.
    unfold dlib_tx, dsigned_tx, with_ins_outs. cbn [d_ins]. rewrite !(map_idf (dother_input All)) by reflexivity. rewrite split_parts.
    replace (length (d_spends (the_dtx t))) with (length (dtx_tx_witnesses t)) by (symmetry; apply map_length). reflexivity. }
  destruct anyone.
  - rewrite (dacp_spec _ n w code (dtx_tx_witnesses t) _ Oc eq_refl Ew). apply Fin. split; vm_compute; [discriminate|reflexivity].
  - apply Fin. split; vm_compute; [discriminate|reflexivity].
Qed.
End Net.
