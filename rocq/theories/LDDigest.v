(* Lemmas for PDigest.v: the Decred digests on every argument *)
From Coq Require Import String.
From Verif Require Import Py LBase MNet MUtils MShared MScript MTx MDecred SNum SNet SHash SScript STx SSig SDecred SDigest SDDigest
  LNet LUtils LVarint LTx LTxParse LSig LDecred LDecredSig LDecredTop LIndex LDigest.
Open Scope list_scope.
Open Scope Z_scope.
Ltac Zify.zify_post_hook ::= idtac.

Lemma index_at {A} (l : list A) i n x : place (length l) i = Some n -> nth_error l n = Some x -> index l i = Ok x.
Proof. intros P E. rewrite index_place. unfold at_index. rewrite P, E. reflexivity. Qed.
Lemma set_index_at {A} (l : list A) i n x a : place (length l) i = Some n -> nth_error l n = Some x ->
  set_index l i a = Ok (firstn n l ++ a :: skipn (S n) l).
Proof.
  intros P E. destruct (place_cases (length l) i) as [(m & F & L & D)|[F _]]; rewrite F in P; [|discriminate]. injection P as ->. destruct D as [-> | ->].
  - apply (set_index_of_nat l n x a E).
  - rewrite (set_index_wrap l (zlen l) _ a eq_refl) by (unfold zlen; lia). 
    replace (Z.of_nat n - Z.of_nat (length l) + zlen l) with (Z.of_nat n) by (unfold zlen; lia). apply (set_index_of_nat l n x a E).
Qed.

Section Decred.
Context (H : hashes) (net : network) (D : decred_only net = Ok tt).

Lemma place_wrap {A} (l : list A) i n : place (length l) i = Some n -> i = Z.of_nat n \/ (- zlen l <= i < 0 /\ i + zlen l = Z.of_nat n).
Proof.
  intros P. destruct (place_cases (length l) i) as [(m & F & L & [E|E])|[F _]]; rewrite F in P; [| |discriminate]; injection P as ->; [left; exact E|].
  right. unfold zlen. lia.
Qed.

Lemma dprep_exact t i script (code : bytes) : dtx_obj H net t -> code = match script with Some s => s | None => [] end ->
  match place (length (dtx_tx_witnesses t)) i with
  | None => decred_sighash_prep H net t i script = Err IndexError
  | Some n => exists w, nth_error (dtx_tx_witnesses t) n = Some w /\
      decred_sighash_prep H net t i script = if fits (dsigning_copy n code (the_dtx t)) then Ok (dcopy H n code w t) else Err ValueError
  end.
Proof.
  intros O ->. destruct (place (length (dtx_tx_witnesses t)) i) as [n|] eqn:P.
  - destruct (nth_has _ _ (place_lt _ _ _ P)) as [w Ew]. exists w. split; [exact Ew|].
    destruct (place_wrap _ _ _ P) as [->|[I E]]; [|rewrite (dprep_wrap H net t i script I), E]; apply (dprep_spec H net D t n w script O Ew).
  - pose proof O as O'. destruct O' as [_ [_ [Fw _]]]. unfold decred_sighash_prep.
    rewrite (mapM_Ok_map _ (dset [])) by (intros a I; apply (dclear_copy net D); rewrite Forall_forall in Fw; apply Fw, I). cbn [bind].
    rewrite index_place. unfold at_index. rewrite map_length, P. reflexivity.
Qed.

Lemma dacp_exact c i n w code ws k : dtx_obj H net c -> dtx_tx_witnesses c = dprep n code w ws -> nth_error ws n = Some w -> place (length ws) i = Some n ->
  decred_sighash_anyone_can_pay H net i c k = decred_sighash_final_hashing H c (Z.lor k SIGHASH_ANYONECANPAY).
Proof.
  intros O E N P. assert (zlen (dtx_tx_witnesses c) = zlen ws) as L by (rewrite E; apply dprep_len, N).
  destruct (place_wrap _ _ _ P) as [->|[I X]]; [|rewrite danyone_wrap by lia; rewrite L, X]; apply (dacp_spec H net D c n w code ws k O E N).
Qed.

Lemma the_dsins' n x ins : nth_error ins n = Some x ->
  map the_dinput (dsins n x ins) =
  map (dwith_sequence [0; 0; 0; 0]) (firstn n (map the_dinput ins)) ++ firstn 1 (skipn n (map the_dinput ins)) ++
  map (dwith_sequence [0; 0; 0; 0]) (skipn (S n) (map the_dinput ins)).
Proof. intros E. exact (the_dsins n x ins E). Qed.
Lemma the_dsouts' n o k : map the_doutput (dsouts n o k) = repeat dnull_output n ++ the_doutput o :: repeat dnull_output (k - S n).
Proof. unfold dsouts. rewrite map_app. cbn [map]. rewrite !map_repeat'. reflexivity. Qed.

Lemma ddigest_total ty t i script anyone : dtx_obj H net t -> ddigest H ty net t i script anyone = exact_ddigest H ty (the_dtx t) i script anyone.
Proof.
  intros O. destruct (the_dlen t) as [L1 [L2 L3]]. unfold exact_ddigest. rewrite L3. cbn zeta.
  set (code := match script with Some s => s | None => [] end). pose proof (dprep_exact t i script code O eq_refl) as X.
  destruct (place (length (dtx_tx_witnesses t)) i) as [n|] eqn:Pw.
  2:{ unfold ddigest, decred_sighash_all, decred_sighash_single. rewrite X. destruct ty; reflexivity. }
  destruct X as (w & Ew & X). clearbody code. pose proof O as O'. destruct O' as [Fi [Fo [Fw _]]]. destruct (dtx_fields H net D t O) as [A1 [A2 [A3 [A4 A5]]]].
  destruct (fits (dsigning_copy n code (the_dtx t))) eqn:F.
  2:{ unfold ddigest, decred_sighash_all, decred_sighash_single. rewrite X. destruct ty; reflexivity. }
  cbn [negb].
  assert (len code < 2 ^ 64) as L.
  { eapply fits_script; [|exact F]. unfold the_dtx. cbn [d_spends]. rewrite nth_error_map, Ew. reflexivity. }
  assert (Forall (dwitness_obj net) (dprep n code w (dtx_tx_witnesses t))) as Gw by (apply (dprep_obj net D); assumption).
  destruct ty; unfold ddigest.
  - unfold decred_sighash_all. rewrite X. cbn [bind].
    assert (dtx_obj H net (dcopy H n code w t)) as Oc.
    { apply (dobj_of H net D); try assumption. rewrite (dargs_fits net D) by assumption. rewrite the_dprep by exact Ew. exact F. }
    assert (forall k, 0 <= k < 2 ^ 32 -> decred_sighash_final_hashing H (dcopy H n code w t) k =
      Ok (blake256 H (le_bytes 4 k ++ blake256 H (dprefix_wire (the_dtx t)) ++
                      blake256 H (dsigning_wire (d_version (the_dtx t)) (dscripts (length (dtx_tx_witnesses t)) n code))))) as Fin.
    { intros k K. rewrite (dfinal_spec H net D) by assumption. rewrite (the_dcopy H n code w t Ew).
      unfold dcopy. cbn [dtx_tx_witnesses dtx_version dtx_of]. rewrite (dprep_scripts n code w) by exact Ew. reflexivity. }
    destruct anyone.
    + rewrite (dacp_exact _ i n w code (dtx_tx_witnesses t) _ Oc eq_refl Ew Pw). apply Fin. split; vm_compute; [discriminate|reflexivity].
    + apply Fin. split; vm_compute; [discriminate|reflexivity].
  - unfold decred_sighash_single. rewrite X. cbn [bind]. rewrite L1.
    unfold dcopy at 1 2 3 4 5. cbn [dtx_tx_ins dtx_tx_outs dtx_of].
    rewrite (mapM_Ok_map _ (fun _ => dnull)) by (intros a _; apply (dnull_Ok net D)). cbn [bind].
    rewrite index_place. unfold at_index. rewrite L2.
    destruct (place (length (dtx_tx_outs t)) i) as [m|] eqn:Po; [|cbn [bind]; destruct (place (length (dtx_tx_ins t)) i); reflexivity].
    destruct (nth_has _ _ (place_lt _ _ _ Po)) as [o Eo]. rewrite Eo. cbn [bind]. rewrite map_const.
    replace (nth_error (d_outs (the_dtx t)) m) with (Some (the_doutput o)) by (unfold the_dtx; cbn [d_outs]; rewrite nth_error_map, Eo; reflexivity).
    destruct (place (length (dtx_tx_ins t)) i) as [a|] eqn:Pi.
    2:{ replace (set_index (repeat dnull (length (dtx_tx_ins t))) i o) with (@Err (list dtxout) IndexError); [reflexivity|].
        symmetry. destruct (place_cases (length (dtx_tx_ins t)) i) as [(q & E & _)|[_ E]]; [congruence|].
        unfold set_index, zlen. rewrite repeat_length.
        destruct (Z.ltb_spec i 0); cbn [orb];
        match goal with |- (if ?b then _ else _) = _ => assert (b = true) as -> by (rewrite orb_true_iff, Z.ltb_lt, Z.leb_le; lia) end; reflexivity. }
    destruct (nth_has _ _ (place_lt _ _ _ Pi)) as [x Ex]. pose proof (place_lt _ _ _ Pi) as La.
    rewrite (set_index_at _ i a dnull) by (rewrite ?repeat_length; first [exact Pi|apply nth_error_repeat; exact La]). cbn [bind].
    rewrite firstn_repeat by lia. rewrite skipn_repeat. fold (dsouts a o (length (dtx_tx_ins t))).
    rewrite (mapM_Ok_map _ dzero) by (intros b I; apply (dzero_copy net D); rewrite Forall_forall in Fi; apply Fi, I). cbn [bind].
    rewrite (index_at _ i a x Pi Ex). cbn [bind].
    rewrite (set_index_at _ i a (dzero x)) by (rewrite ?map_length; first [exact Pi|rewrite nth_error_map, Ex; reflexivity]). cbn [bind].
    rewrite firstn_map, skipn_map. fold (dsins a x (dtx_tx_ins t)).
    destruct (Forall_parts _ _ _ _ Ex Fi) as [Oi [Fi1 Fi2]]. destruct (Forall_parts _ _ _ _ Eo Fo) as [Oo _].
    assert (Forall (dtxin_obj net) (dsins a x (dtx_tx_ins t))) as Gi.
    { unfold dsins. apply Forall_app. split; [|constructor; [exact Oi|]]; apply Forall_map; (eapply Forall_impl; [exact (dzero_obj net D)|assumption]). }
    assert (Forall (dtxout_obj net) (dsouts a o (length (dtx_tx_ins t)))) as Go.
    { unfold dsouts. apply Forall_app. split; [|constructor; [exact Oo|]]; apply Forall_forall; intros b I; apply repeat_spec in I; subst b; apply (dnull_obj net D). }
    unfold DecredTx_copy, or_self. unfold dcopy. cbn [dtx_version dtx_lock_time dtx_expiry dtx_tx_witnesses dtx_of].
    rewrite (DecredTx_spec H net D).
    set (c := dtx_of H (dtx_version t) (dsins a x (dtx_tx_ins t)) (dsouts a o (length (dtx_tx_ins t))) (dtx_lock_time t) (dtx_expiry t) (dprep n code w (dtx_tx_witnesses t))).
    assert (the_dtx c = dsingle_copy a (the_doutput o) (dsigning_copy n code (the_dtx t))) as Ec.
    { unfold c, the_dtx, dsingle_copy, with_ins_outs, dsigning_copy.
      cbn [dtx_version dtx_tx_ins dtx_tx_outs dtx_lock_time dtx_expiry dtx_tx_witnesses dtx_of d_version d_ins d_outs d_lock d_expiry d_spends].
      rewrite the_dprep by exact Ew. rewrite the_dsins' by exact Ex. rewrite the_dsouts', map_length. reflexivity. }
    assert (dtx_args_ok (dtx_version t) (dsins a x (dtx_tx_ins t)) (dsouts a o (length (dtx_tx_ins t))) (dtx_lock_time t) (dtx_expiry t) (dprep n code w (dtx_tx_witnesses t))
            = fits (dsingle_copy a (the_doutput o) (dsigning_copy n code (the_dtx t)))) as Ea.
    { rewrite (dargs_fits net D); try assumption.
      - rewrite <- Ec. reflexivity.
      - unfold dsins. rewrite zlen_app, zlen_cons. match goal with |- _ <= zlen ?a + (zlen ?b + 1) => pose proof (zlen_nonneg a); pose proof (zlen_nonneg b) | |- _ <= zlen ?a + (1 + zlen ?b) => pose proof (zlen_nonneg a); pose proof (zlen_nonneg b) end. lia.
      - unfold dsouts. rewrite zlen_app, zlen_cons. match goal with |- _ <= zlen ?a + (zlen ?b + 1) => pose proof (zlen_nonneg a); pose proof (zlen_nonneg b) | |- _ <= zlen ?a + (1 + zlen ?b) => pose proof (zlen_nonneg a); pose proof (zlen_nonneg b) end. lia. }
    rewrite Ea. destruct (fits (dsingle_copy a (the_doutput o) (dsigning_copy n code (the_dtx t)))); [|reflexivity]. cbn [bind negb].
    assert (dtx_obj H net c) as Oc by (apply (dobj_of H net D); assumption).
    assert (forall k, 0 <= k < 2 ^ 32 -> decred_sighash_final_hashing H c k =
      Ok (blake256 H (le_bytes 4 k ++ blake256 H (dprefix_wire (dsingle_copy a (the_doutput o) (the_dtx t))) ++
                      blake256 H (dsigning_wire (d_version (the_dtx t)) (dscripts (length (dtx_tx_witnesses t)) n code))))) as Fin.
    { intros k K. rewrite (dfinal_spec H net D) by assumption. rewrite Ec.
      unfold c. cbn [dtx_tx_witnesses dtx_version dtx_of]. rewrite (dprep_scripts n code w) by exact Ew. reflexivity. }
    destruct anyone.
    + rewrite (dacp_exact _ i n w code (dtx_tx_witnesses t) _ Oc eq_refl Ew Pw). apply Fin. split; vm_compute; [discriminate|reflexivity].
    + apply Fin. split; vm_compute; [discriminate|reflexivity].
Qed.
End Decred.
