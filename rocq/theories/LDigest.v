(* Lemmas for PDigest.v: the digest methods on every argument *)
From Coq Require Import String Lia.
From Verif Require Import Py LBase MNet MUtils MShared MScript MTx SNum SNet SHash SScript STx SSig SDigest
  LNet LUtils LVarint LVarRead LScript LBase58 LTx LTxParse LTxWire LSig LBip143 LSigBind LSigTop LIndex.
Open Scope list_scope.
Open Scope Z_scope.
Ltac Zify.zify_post_hook ::= idtac.

(** * Indices *)
Lemma place_spec k i : place k i =
  if (0 <=? i) && (i <? Z.of_nat k) then Some (Z.to_nat i)
  else if (- Z.of_nat k <=? i) && (i <? 0) then Some (Z.to_nat (i + Z.of_nat k)) else None.
Proof.
  unfold place. destruct (Z.ltb_spec i 0).
  - replace (0 <=? i) with false by lia. cbn [andb].
    destruct (Z.leb_spec (- Z.of_nat k) i).
    + replace (0 <=? i + Z.of_nat k) with true by lia. replace (i + Z.of_nat k <? Z.of_nat k) with true by lia. reflexivity.
    + replace (0 <=? i + Z.of_nat k) with false by lia. reflexivity.
  - replace (0 <=? i) with true by lia. rewrite andb_false_r. reflexivity.
Qed.
Lemma place_cases k i : (exists n, place k i = Some n /\ (n < k)%nat /\ (i = Z.of_nat n \/ i = Z.of_nat n - Z.of_nat k)) \/
  (place k i = None /\ (i < - Z.of_nat k \/ Z.of_nat k <= i)).
Proof.
  rewrite place_spec. destruct ((0 <=? i) && (i <? Z.of_nat k)) eqn:A; [left; eexists; split; [reflexivity|]; lia|].
  destruct ((- Z.of_nat k <=? i) && (i <? 0)) eqn:B; [left; eexists; split; [reflexivity|]; lia|]. right. split; [reflexivity|lia].
Qed.
Lemma place_lt k i n : place k i = Some n -> (n < k)%nat.
Proof. intros E. destruct (place_cases k i) as [(m & F & L & _)|[F _]]; rewrite F in E; [injection E as <-; exact L|discriminate]. Qed.
Lemma place_none k i : place k i = None <-> i < - Z.of_nat k \/ Z.of_nat k <= i.
Proof. destruct (place_cases k i) as [(m & F & L & D)|[F O]]; rewrite F; split; intros X; try discriminate X; try reflexivity; try exact O; lia. Qed.
Lemma place_nat k n : (n < k)%nat -> place k (Z.of_nat n) = Some n.
Proof. intros L. rewrite place_spec. replace (_ && _) with true by lia. rewrite Nat2Z.id. reflexivity. Qed.

Lemma index_place {A} (l : list A) i : index l i = match at_index l i with Some a => Ok a | None => Err IndexError end.
Proof.
  unfold at_index. destruct (place_cases (length l) i) as [(n & -> & L & [-> | ->])|[-> O]]; [| |apply index_outside; exact O].
  2: rewrite (index_wrap l (zlen l) _ eq_refl) by (unfold zlen; lia); replace (Z.of_nat n - Z.of_nat (length l) + zlen l) with (Z.of_nat n) by (unfold zlen; lia).
  all: destruct (nth_error l n) as [a|] eqn:E; [apply index_of_nat, E|apply nth_error_None in E; lia].
Qed.
Lemma at_index_map {A B} (f : A -> B) l i : at_index (map f l) i = option_map f (at_index l i).
Proof. unfold at_index. rewrite map_length. destruct (place _ i); [apply nth_error_map|reflexivity]. Qed.
Lemma at_index_in {A} (l : list A) i a : at_index l i = Some a -> In a l.
Proof. unfold at_index. destruct (place _ i); [apply nth_error_In|discriminate]. Qed.
Lemma at_index_none {A} (l : list A) i : at_index l i = None <-> place (length l) i = None.
Proof.
  unfold at_index. destruct (place (length l) i) as [n|] eqn:P; [|tauto]. split; [|discriminate].
  intros E. apply nth_error_None in E. apply place_lt in P. lia.
Qed.

(** * The length of the script *)
Lemma padded_iff (x : bytes) j : (j <= length x)%nat /\ forallb (Z.eqb 0) (skipn (length x - j) x) = true <-> exists p, x = p ++ repeat 0 j.
Proof.
  split.
  - intros [L F]. exists (firstn (length x - j) x). rewrite <- (firstn_skipn (length x - j) x) at 1. f_equal.
    assert (length (skipn (length x - j) x) = j) as E by (rewrite skipn_length; lia).
    revert F E. generalize (skipn (length x - j) x) as y. clear. intros y. revert j. induction y as [|a y IH]; intros j F E; cbn [forallb length] in *; subst j; [reflexivity|].
    apply andb_true_iff in F. destruct F as [F1 F2]. cbn [repeat]. f_equal; [lia|]. apply IH; [exact F2|reflexivity].
  - intros [p ->]. rewrite app_length, repeat_length. split; [lia|]. replace (length p + j - j)%nat with (length p) by lia.
    rewrite skipn_app, skipn_all, Nat.sub_diag. cbn [skipn app]. apply forallb_forall. intros z I. apply repeat_spec in I. subst. reflexivity.
Qed.

Lemma taken_spec name net script : get_network name = Ok net -> all_bytes script ->
  match length_taken name script with
  | Ok k => 0 <= k /\ exists v, VarInt_from_bytes net script = Ok v /\ zlen (vi_bytes v) = k
  | Err e => VarInt_from_bytes net script = Err e
  end.
Proof.
  intros En B. destruct script as [|first rest]; [reflexivity|]. unfold length_taken.
  pose proof (varint_reads name net first rest En B) as R. cbv zeta in R.
  set (w := compactsize_width first - 1) in *. set (x := if first <? 253 then [first] else firstn (Z.to_nat w) rest) in *.
  destruct R as [R1 R2]. cbv zeta.
  assert (existsb (Z.eqb (len x)) [1; 2; 4; 8] = true <-> In (len x) [1; 2; 4; 8]) as X.
  { rewrite existsb_exists. split; [intros (y & I & E); apply Z.eqb_eq in E; rewrite E; exact I|intros I; exists (len x); split; [exact I|apply Z.eqb_refl]]. }
  destruct (existsb _ _); cbn [negb]; [|apply R1; intros I; apply X in I; discriminate]. destruct X as [X _]. specialize (R2 (X eq_refl)). destruct R2 as (R3 & R4 & R5).
  set (padded := (253 <=? first) && (w / 2 <=? len x) && forallb (Z.eqb 0) (skipn (length x - Z.to_nat (w / 2)) x)).
  assert (padded = true <-> (253 <= first /\ exists p, x = p ++ repeat 0 (Z.to_nat (w / 2)))) as P.
  { unfold padded. rewrite <- padded_iff, !andb_true_iff, !Z.leb_le. unfold len.
    assert (0 <= w / 2) by (apply Z.div_pos; [|lia]; unfold w, compactsize_width; repeat match goal with |- context [if ?b then _ else _] => destruct b end; lia).
    assert ((Z.to_nat (w / 2) <= length x)%nat <-> w / 2 <= Z.of_nat (length x)) as -> by lia. tauto. }
  destruct padded eqn:Pd; cbn [andb].
  - destruct P as [P _]. specialize (P eq_refl). destruct in_dec as [U|U].
    + apply R4; assumption.
    + destruct (Z.leb_spec (le_value x) 252).
      * split; [unfold len; lia|]. eexists. split; [apply R5; assumption|]. cbn [vi_bytes]. 
        replace (le_value x <=? 252) with true by lia. rewrite zlen_cons. unfold zlen, len. rewrite repeat_length. reflexivity.
      * split; [unfold len; lia|]. eexists. split; [apply R5; assumption|]. cbn [vi_bytes]. replace (le_value x <=? 252) with false by lia. reflexivity.
  - split; [unfold len; lia|]. eexists. split; [apply R3; intros Q; apply P in Q; discriminate|]. reflexivity.
Qed.

(** * Names with a fork id *)
Lemma fork_of_spec name : match fork_of name with Some id => In (name, id) fork_ids | None => no_fork_id name end.
Proof.
  unfold fork_of. match goal with |- context [List.find ?f ?l] => destruct (List.find f l) as [[a id]|] eqn:F end; cbn [option_map snd].
  - apply find_some in F. destruct F as [I E]. cbn [fst] in E. destruct (list_eq_dec Z.eq_dec name a) as [->|]; [exact I|discriminate].
  - intros id I. pose proof (find_none _ _ F _ I) as E. cbn [fst] in E. destruct (list_eq_dec Z.eq_dec name name); [discriminate|congruence].
Qed.

Lemma at_the_input t i : at_index (t_ins (the_tx t)) i = option_map the_input (at_index (tx_tx_ins t) i).
Proof. apply at_index_map. Qed.

Section Digest.
Context (H : hashes).

(** * BIP143 *)
Lemma covered_hash name net t i ty : get_network name = Ok net -> tx_obj H net t -> (ty = Single -> i < zlen (tx_tx_outs t)) ->
  hash_outputs H net t i (type_code ty) =
  match taken_outs ty i (the_tx t) with Some outs => Ok (double_hash H name (concat (map output_wire outs))) | None => Err IndexError end.
Proof.
  intros En [_ [Fo _]] L. unfold hash_outputs. destruct ty.
  - change (type_code All =? SIGHASH_ALL) with true. cbn iota. rewrite map_outputs by assumption. rewrite (hash256_spec H name) by exact En. reflexivity.
  - change (type_code Single =? SIGHASH_ALL) with false. change (type_code Single =? SIGHASH_SINGLE) with true. cbn iota. cbn [andb].
    replace (i <? zlen (tx_tx_outs t)) with true by (specialize (L eq_refl); lia). rewrite index_place. unfold taken_outs, the_tx. cbn [t_outs].
    rewrite at_index_map. destruct (at_index (tx_tx_outs t) i) as [o|] eqn:E; [|reflexivity]. cbn [bind option_map map concat]. rewrite app_nil_r.
    rewrite (hash256_spec H name) by exact En. do 2 f_equal. apply txout_wire. rewrite Forall_forall in Fo. apply Fo. eapply at_index_in; exact E.
Qed.

Lemma signed_outpoint net t i a : tx_obj H net t -> at_index (tx_tx_ins t) i = Some a -> op_bytes (ti_outpoint a) = outpoint_wire (the_input a).
Proof.
  intros [Fi _] E. rewrite Forall_forall in Fi. destruct (Fi a (at_index_in _ _ _ E)) as [Oi _]. apply outpoint_obj_iff in Oi. apply Oi.
Qed.

Lemma segwit_exact name net t i script pv ty acp : get_network name = Ok net -> tx_obj H net t -> (ty = Single -> i < zlen (tx_tx_outs t)) ->
  segwit_sighash H net t i (type_code ty) pv script acp =
  match pv with
  | None => match at_index (t_ins (the_tx t)) i with Some _ => Err TypeError | None => Err IndexError end
  | Some v => match at_index (t_ins (the_tx t)) i, taken_outs ty i (the_tx t) with
              | Some a, Some outs => Ok (double_hash H name (bip143_raw (double_hash H name) ty acp a outs script v (type_number ty acp) (the_tx t)))
              | _, _ => Err IndexError
              end
  end.
Proof.
  intros En O L. destruct (hash_parts H name net t 0 ty acp En O) as [A [B _]]. unfold segwit_sighash.
  rewrite A, B, (covered_hash name net t i ty En O L), index_place.
  rewrite at_the_input. destruct (at_index (tx_tx_ins t) i) as [a|] eqn:E; cbn [bind option_map]; [|destruct pv; reflexivity].
  destruct pv as [v|]; cbn [add_opt bind]; [|reflexivity]. destruct (taken_outs ty i (the_tx t)) as [outs|]; cbn [bind]; [|reflexivity].
  unfold segwit_sighash_adjustment. rewrite type_code_acp. rewrite i2le_padded_Ok by (pose proof (type_number_range ty acp); lia). cbn [bind].
  rewrite (hash256_spec H name) by exact En. rewrite (signed_outpoint net t i a O E). reflexivity.
Qed.

Lemma fork_exact name net id t i script pv ty acp : get_network name = Ok net -> In (name, id) fork_ids -> tx_obj H net t ->
  (ty = Single -> i < zlen (tx_tx_outs t)) ->
  sighash_forkid H net t i script pv (type_code ty) acp =
  match pv with
  | None => Err ValueError
  | Some v => if negb (len v =? 8) then Err ValueError
              else match at_index (t_ins (the_tx t)) i, taken_outs ty i (the_tx t) with
                   | Some a, Some outs => Ok (double_hash H name (bip143_raw (double_hash H name) ty acp a outs script v (id * 256 + 64 + type_number ty acp) (the_tx t)))
                   | _, _ => Err IndexError
                   end
  end.
Proof.
  intros En I O L. destruct (hash_parts H name net t 0 ty acp En O) as [A [B _]]. destruct (FORKID_some name net id En I) as [F R]. unfold sighash_forkid.
  destruct pv as [v|]; [|reflexivity]. unfold validate_bytes, guard. change (zlen v) with (len v). destruct (len v =? 8); cbn [negb bind]; [|reflexivity].
  rewrite A, B, (covered_hash name net t i ty En O L), index_place.
  rewrite at_the_input. destruct (at_index (tx_tx_ins t) i) as [a|] eqn:E; cbn [bind option_map]; [|reflexivity].
  cbn [add_opt bind]. destruct (taken_outs ty i (the_tx t)) as [outs|]; cbn [bind]; [|reflexivity].
  unfold forkid_sighash_adjustment. rewrite F. cbn zeta. rewrite forkid_number by exact R.
  rewrite i2le_padded_Ok by (pose proof (type_number_range ty acp); lia). cbn [bind].
  rewrite (hash256_spec H name) by exact En. rewrite (signed_outpoint net t i a O E). reflexivity.
Qed.

(** * The original algorithm *)
Lemma prep_script net t i script v : VarInt_from_bytes net script = Ok v ->
  sighash_prep H net t i script = sighash_prep H net t i (compactsize 0 ++ slice_from script (zlen (vi_bytes v))).
Proof.
  intros E. unfold sighash_prep. rewrite E. destruct (mapM _ _); cbn [bind]; [|reflexivity].
  rewrite VarInt_roundtrip by (try (left; reflexivity); lia). cbn [bind vi_bytes]. rewrite slice_from_app by reflexivity. reflexivity.
Qed.

Lemma prep_outside_err net t i code : tx_obj H net t -> place (length (tx_tx_ins t)) i = None ->
  sighash_prep H net t i (compactsize 0 ++ code) = Err IndexError.
Proof.
  intros [Fi _] P. apply place_none in P. unfold sighash_prep.
  rewrite (mapM_Ok_map _ clear) by (intros a I; apply copy_clear; rewrite Forall_forall in Fi; apply Fi, I). cbn [bind].
  rewrite VarInt_roundtrip by (try (left; reflexivity); lia). cbn [bind]. rewrite index_outside by (rewrite zlen_map; unfold zlen; lia). reflexivity.
Qed.

Lemma all_exact name net t i code pv acp : get_network name = Ok net -> no_fork_id name -> tx_obj H net t -> plain t ->
  sighash_all H net t i (compactsize 0 ++ code) pv acp =
  match place (length (tx_tx_ins t)) i with
  | None => Err IndexError
  | Some n => if 1650 <? len code then Err ValueError
              else Ok (double_hash H name (original_raw All acp n (t_outs (the_tx t)) code (the_tx t)))
  end.
Proof.
  intros En N O P. destruct (place_cases (length (tx_tx_ins t)) i) as [(n & F & L & D)|[F _]]; rewrite F.
  - assert (sighash_all H net t i (compactsize 0 ++ code) pv acp = sighash_all H net t (Z.of_nat n) (compactsize 0 ++ code) pv acp) as ->.
    { destruct D as [-> |D]; [reflexivity|]. rewrite all_wrap by (unfold zlen; lia). f_equal. unfold zlen. lia. }
    destruct (nth_some _ _ L) as [a E]. rewrite (legacy_all H name net t n a 0 code pv acp En N O P E) by (try (right; lia); lia).
    change (len code) with (zlen code). rewrite Z.ltb_antisym. destruct (zlen code <=? 1650); cbn [negb]; [|reflexivity]. destruct acp; reflexivity.
  - unfold sighash_all. rewrite (FORKID_none name net En N), (plain_not_witness t P), (prep_outside_err net t i code O F). reflexivity.
Qed.

Lemma single_exact name net t i code pv acp : get_network name = Ok net -> no_fork_id name -> tx_obj H net t -> plain t -> i < zlen (tx_tx_outs t) ->
  sighash_single H net t i (compactsize 0 ++ code) pv acp =
  match place (length (tx_tx_ins t)) i with
  | None => Err IndexError
  | Some n => if 1650 <? len code then Err ValueError
              else match at_index (t_outs (the_tx t)) i with
                   | Some o => Ok (double_hash H name (original_raw Single acp n [o] code (the_tx t)))
                   | None => Err IndexError
                   end
  end.
Proof.
  intros En N O P Lo. destruct (place_cases (length (tx_tx_ins t)) i) as [(n & F & L & D)|[F _]]; rewrite F.
  2: { unfold sighash_single. replace (zlen (tx_tx_outs t) <=? i) with false by lia. cbn [guard bind].
       rewrite (FORKID_none name net En N), (plain_not_witness t P), (prep_outside_err net t i code O F). reflexivity. }
  destruct (nth_some _ _ L) as [a E]. change (len code) with (zlen code). rewrite Z.ltb_antisym.
  unfold the_tx at 1. cbn [t_outs]. rewrite at_index_map. destruct (at_index (tx_tx_outs t) i) as [o|] eqn:Ao; cbn [option_map].
  - assert (forall x, t_version x = tx_version t -> t_ins x = t_ins (the_tx t) -> t_lock x = tx_lock_time t -> nth_error (t_outs x) n = Some (the_output o) ->
      wire_tx (single_tx acp n code x) ++ le_bytes 4 (type_number Single acp) = original_raw Single acp n [the_output o] code (the_tx t)) as R.
    { intros x Ev Ei El Eo. unfold original_raw, single_tx, single_outs, legacy_tx. rewrite Ev, Ei, El, (nth_one _ _ _ Eo). reflexivity. }
    destruct D as [-> |D].
    + unfold at_index in Ao. unfold zlen in Lo. rewrite place_nat in Ao by lia. rewrite (legacy_single H name net t n a 0 code pv acp En N O P E) by (try (right; lia); lia).
      replace (zlen (tx_tx_outs t) <=? Z.of_nat n) with false by (unfold zlen; lia). rewrite R; try reflexivity.
      * destruct (zlen code <=? 1650); reflexivity.
      * unfold the_tx. cbn [t_outs]. rewrite nth_error_map, Ao. reflexivity.
    + set (outs := repeat o (S n)).
      destruct (tx_counts H net t O) as [C1 C2]. pose proof O as [Fi [Fo _]].
      assert (zlen outs = Z.of_nat (S n)) as Zo by (unfold outs, zlen; rewrite repeat_length; reflexivity).
      destruct (plain_obj H net t O P (tx_tx_ins t) outs) as [_ [O' P']]; try assumption.
      { apply Forall_forall. intros x I. apply repeat_spec in I. subst. rewrite Forall_forall in Fo. apply Fo. eapply at_index_in; exact Ao. }
      { unfold zlen in *. lia. }
      set (t' := tx_of H net (tx_version t) None (tx_tx_ins t) outs None (tx_lock_time t)) in *.
      assert (nth_error outs n = Some o) as Eo by (apply nth_error_repeat; lia).
      assert (sighash_single H net t i (compactsize 0 ++ code) pv acp = sighash_single H net t' (Z.of_nat n) (compactsize 0 ++ code) pv acp) as ->.
      { unfold at_index in Ao. destruct (place_cases (length (tx_tx_outs t)) i) as [(m & Fm & Lm & Dm)|[Fm _]]; rewrite Fm in Ao; [|discriminate].
        assert (i < 0) as Neg by lia. assert (i = Z.of_nat m - Z.of_nat (length (tx_tx_outs t))) as Em by lia.
        rewrite (single_wrap H net t t' i); try (unfold zlen in *; lia).
        - f_equal. unfold zlen. lia.
        - destruct P as [P1 P2]. unfold but_outs. cbn [t' tx_of tx_version tx_flag tx_tx_ins tx_tx_witnesses tx_lock_time]. rewrite P1, P2. auto.
        - change (tx_tx_outs t') with outs. unfold zlen in *. lia.
        - change (tx_tx_outs t') with outs. replace (Z.to_nat (i + zlen (tx_tx_ins t))) with n by (unfold zlen; lia).
          replace (Z.to_nat (i + zlen (tx_tx_outs t))) with m by (unfold zlen; lia). rewrite Ao. exact Eo. }
      rewrite (legacy_single H name net t' n a 0 code pv acp En N O' P' E) by (try (right; lia); lia).
      change (tx_tx_outs t') with outs. replace (zlen outs <=? Z.of_nat n) with false by lia. rewrite R; try reflexivity.
      * destruct (zlen code <=? 1650); reflexivity.
      * unfold the_tx. cbn [t_outs]. change (tx_tx_outs t') with outs. rewrite nth_error_map, Eo. reflexivity.
  - apply at_index_none in Ao. apply place_none in Ao. unfold zlen in Lo. assert (i = Z.of_nat n - Z.of_nat (length (tx_tx_ins t))) as Ei by lia.
    unfold sighash_single. replace (zlen (tx_tx_outs t) <=? i) with false by (unfold zlen; lia). cbn [guard bind].
    rewrite (FORKID_none name net En N), (plain_not_witness t P). rewrite prep_wrap by (unfold zlen; lia).
    replace (i + zlen (tx_tx_ins t)) with (Z.of_nat n) by (unfold zlen; lia).
    rewrite (prep_spec H net t n a 0 code O P E) by (try (right; lia); lia).
    destruct (zlen code <=? 1650); cbn [bind negb]; [|reflexivity]. cbn [tx_of tx_tx_ins tx_tx_outs].
    rewrite (mapM_Ok_map _ (fun _ => nullo)) by (intros; exact nullo_ok). cbn [bind]. rewrite index_outside by (unfold zlen; lia). reflexivity.
Qed.

Lemma digest_script name net ty t i script v pv acp : get_network name = Ok net -> no_fork_id name -> plain t -> VarInt_from_bytes net script = Ok v ->
  digest H ty net t i script pv acp = digest H ty net t i (compactsize 0 ++ slice_from script (zlen (vi_bytes v))) pv acp.
Proof.
  intros En N P E. unfold digest, sighash_all, sighash_single. rewrite (FORKID_none name net En N), (plain_not_witness t P).
  rewrite (prep_script net t i script v E). reflexivity.
Qed.

Lemma digest_unread name net ty t i script e pv acp : get_network name = Ok net -> no_fork_id name -> tx_obj H net t -> plain t ->
  VarInt_from_bytes net script = Err e -> (ty = Single -> i < zlen (tx_tx_outs t)) -> digest H ty net t i script pv acp = Err e.
Proof.
  intros En N [Fi _] P E L. unfold digest, sighash_all, sighash_single. rewrite (FORKID_none name net En N), (plain_not_witness t P).
  unfold sighash_prep. rewrite (mapM_Ok_map _ clear) by (intros a I; apply copy_clear; rewrite Forall_forall in Fi; apply Fi, I). cbn [bind].
  rewrite E. destruct ty; [reflexivity|]. replace (zlen (tx_tx_outs t) <=? i) with false by (specialize (L eq_refl); lia). reflexivity.
Qed.

Lemma digest_total name net segwit ty t i script value anyone : get_network name = Ok net -> tx_obj H net t -> (segwit = false <-> plain t) -> all_bytes script ->
  digest H ty net t i script value anyone = exact_digest H name segwit ty (the_tx t) i script value anyone.
Proof.
  intros En O W B. unfold exact_digest. cbv zeta. rewrite the_outs_len. fold (zlen (tx_tx_outs t)).
  destruct (match ty with All => false | Single => zlen (tx_tx_outs t) <=? i end) eqn:G.
  { destruct ty; [discriminate|]. unfold digest, sighash_single. rewrite G. reflexivity. }
  assert (ty = Single -> i < zlen (tx_tx_outs t)) as L by (intros ->; lia).
  pose proof (fork_of_spec name) as Fk. destruct (fork_of name) as [id|].
  - pose proof (fork_exact name net id t i script value ty anyone En Fk O L) as X. destruct (FORKID_some name net id En Fk) as [F _].
    assert (digest H ty net t i script value anyone = sighash_forkid H net t i script value (type_code ty) anyone) as ->.
    { unfold digest, sighash_all, sighash_single. rewrite F. destruct ty; [reflexivity|]. rewrite G. reflexivity. }
    rewrite X. destruct segwit; reflexivity.
  - destruct segwit.
    + assert (is_witness t = true) as Wt.
      { unfold is_witness. unfold plain in W. destruct (tx_flag t), (tx_tx_witnesses t); try reflexivity. destruct W as [_ W]. discriminate W. auto. }
      pose proof (segwit_exact name net t i script value ty anyone En O L) as X.
      assert (digest H ty net t i script value anyone = segwit_sighash H net t i (type_code ty) value script anyone) as ->.
      { unfold digest, sighash_all, sighash_single. rewrite (FORKID_none name net En Fk), Wt. destruct ty; [reflexivity|]. rewrite G. reflexivity. }
      rewrite X. destruct value; reflexivity.
    + destruct W as [P _]. specialize (P eq_refl). pose proof (taken_spec name net script En B) as T. destruct (length_taken name script) as [k|e].
      * destruct T as (K & v & V & Lv). rewrite (digest_script name net ty t i script v value anyone En Fk P V), Lv, slice_from_skipn by exact K.
        rewrite the_ins_len. unfold digest. destruct ty.
        -- rewrite (all_exact name) by assumption. destruct (place _ i); destruct value; reflexivity.
        -- rewrite (single_exact name) by auto. unfold taken_outs. destruct (place _ i); [|destruct value; reflexivity].
           destruct (at_index _ i); cbn [option_map]; destruct value; reflexivity.
      * rewrite (digest_unread name net ty t i script e value anyone) by assumption. destruct value; reflexivity.
Qed.
End Digest.
