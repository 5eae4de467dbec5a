(* Any integer as the index of an input *)
From Coq Require Import Lia ZifyBool.
From Verif Require Import Py SHash LBase MNet MUtils MShared MTx MDecred MZcash STx LVarint.
Open Scope list_scope.
Open Scope Z_scope.

Lemma index_wrap {A} (l : list A) n i : zlen l = n -> - n <= i < 0 -> index l i = index l (i + n).
Proof.
  intros L I. unfold index. replace (i <? 0) with true by lia. replace (i + n <? 0) with false by lia. cbv iota.
  rewrite L, (Z.add_comm n i). reflexivity.
Qed.
Lemma set_index_wrap {A} (l : list A) n i a : zlen l = n -> - n <= i < 0 -> set_index l i a = set_index l (i + n) a.
Proof.
  intros L I. unfold set_index. replace (i <? 0) with true by lia. replace (i + n <? 0) with false by lia. cbv iota.
  rewrite L, (Z.add_comm n i). reflexivity.
Qed.
Lemma index_outside {A} (l : list A) i : i < - zlen l \/ zlen l <= i -> index l i = Err IndexError.
Proof.
  intros I. pose proof (zlen_nonneg l). unfold index. destruct (i <? 0) eqn:E; cbv iota zeta.
  - replace (zlen l + i <? 0) with true by lia. reflexivity.
  - replace (zlen l <=? i) with true by lia. rewrite orb_true_r. reflexivity.
Qed.
Lemma index_same {A} (l l' : list A) n m i : zlen l = m -> - m <= i < 0 -> - n <= i ->
  nth_error l' (Z.to_nat (i + n)) = nth_error l (Z.to_nat (i + m)) -> index l' (i + n) = index l i.
Proof.
  intros L I J E. rewrite (index_wrap l m i L I). destruct (nth_error l (Z.to_nat (i + m))) as [a|] eqn:X.
  - transitivity (Ok a); [|symmetry]; apply index_nth; try lia; congruence.
  - apply nth_error_None in X. unfold zlen in L. lia.
Qed.
Lemma zlen_mapM {A B} (f : A -> res B) l r : mapM f l = Ok r -> zlen r = zlen l.
Proof. intros E. unfold zlen. rewrite (mapM_length f l r E). reflexivity. Qed.
Lemma zlen_set_index {A} (l r : list A) i a : set_index l i a = Ok r -> zlen r = zlen l.
Proof. unfold set_index. destruct (_ || _); [discriminate|]. intros E. injection E as <-. unfold zlen. rewrite set_nth_length. reflexivity. Qed.

Section Tx.
  Context (H : hashes) (net : network).

  Lemma tx_ins_of v f ins outs ws lt t : Tx H net v f ins outs ws lt = Ok t ->
    tx_tx_ins t = ins /\ tx_tx_outs t = outs /\ tx_version t = v /\ tx_flag t = f /\ tx_tx_witnesses t = ws /\ tx_lock_time t = lt.
  Proof using.
    unfold Tx. intros E.
    repeat match type of E with bind ?x _ = _ => destruct x; cbn [bind] in E; [|discriminate] end. cbv zeta in E.
    destruct f; [destruct (no_witness_bytes _ _ _ _); cbn [bind] in E; [|discriminate]|]; apply Ok_inj in E; subst t; cbn; auto 8.
  Qed.

  Lemma prep_wrap t i sc : - zlen (tx_tx_ins t) <= i < 0 -> sighash_prep H net t i sc = sighash_prep H net t (i + zlen (tx_tx_ins t)) sc.
  Proof using.
    intros I. unfold sighash_prep. destruct (mapM _ (tx_tx_ins t)) as [l|] eqn:M; [|reflexivity]. cbn [bind]. apply zlen_mapM in M.
    destruct (VarInt_from_bytes net sc); [|reflexivity]. cbn [bind]. rewrite (index_wrap l _ i M I).
    destruct (index l _); [|reflexivity]. cbn [bind]. destruct (TxIn_copy _ _ _ _ _); [|reflexivity]. cbn [bind].
    rewrite (set_index_wrap l _ i _ M I). reflexivity.
  Qed.
  Lemma prep_ins t i sc c : sighash_prep H net t i sc = Ok c -> zlen (tx_tx_ins c) = zlen (tx_tx_ins t) /\ tx_tx_outs c = tx_tx_outs t.
  Proof using.
    unfold sighash_prep. intros E. destruct (mapM _ (tx_tx_ins t)) as [l|] eqn:M; [|discriminate]. cbn [bind] in E. apply zlen_mapM in M.
    destruct (VarInt_from_bytes net sc); [|discriminate]. cbn [bind] in E. destruct (index l i); [|discriminate]. cbn [bind] in E.
    destruct (TxIn_copy _ _ _ _ _); [|discriminate]. cbn [bind] in E. destruct (set_index _ _ _) eqn:S; [|discriminate]. cbn [bind] in E.
    apply zlen_set_index in S. unfold Tx_copy in E. apply tx_ins_of in E. destruct E as [-> [-> _]]. split; [cbn [or_self]; congruence|reflexivity].
  Qed.
  Lemma anyone_wrap c i ty : - zlen (tx_tx_ins c) <= i < 0 ->
    sighash_anyone_can_pay H net i c ty = sighash_anyone_can_pay H net (i + zlen (tx_tx_ins c)) c ty.
  Proof using. intros I. unfold sighash_anyone_can_pay. rewrite (index_wrap _ _ i eq_refl I). reflexivity. Qed.

  Lemma all_wrap t i sc pv acp : - zlen (tx_tx_ins t) <= i < 0 ->
    sighash_all H net t i sc pv acp = sighash_all H net t (i + zlen (tx_tx_ins t)) sc pv acp.
  Proof using.
    intros I. unfold sighash_all. destruct (FORKID net).
    - unfold sighash_forkid, hash_outputs. rewrite (index_wrap _ _ i eq_refl I). reflexivity.
    - destruct (is_witness t).
      + unfold segwit_sighash, hash_outputs. rewrite (index_wrap _ _ i eq_refl I). reflexivity.
      + rewrite (prep_wrap t i sc I). destruct (sighash_prep H net t _ sc) as [c|] eqn:P; [|reflexivity]. cbn [bind].
        apply prep_ins in P. destruct P as [L _]. destruct acp; [|reflexivity]. rewrite anyone_wrap by lia. rewrite L. reflexivity.
  Qed.

  Lemma prep_outside t i sc c : i < - zlen (tx_tx_ins t) \/ zlen (tx_tx_ins t) <= i -> sighash_prep H net t i sc <> Ok c.
  Proof using.
    intros I E. unfold sighash_prep in E. destruct (mapM _ (tx_tx_ins t)) as [l|] eqn:M; [|discriminate]. cbn [bind] in E. apply zlen_mapM in M.
    destruct (VarInt_from_bytes net sc); [|discriminate]. cbn [bind] in E. rewrite index_outside in E by lia. discriminate.
  Qed.
  Lemma forkid_outside t i sc pv ty acp d : i < - zlen (tx_tx_ins t) \/ zlen (tx_tx_ins t) <= i -> sighash_forkid H net t i sc pv ty acp <> Ok d.
  Proof using. intros I E. unfold sighash_forkid in E. destruct (validate_bytes pv _); [|discriminate]. cbn [bind] in E. rewrite index_outside in E by lia. discriminate. Qed.
  Lemma segwit_outside t i sc pv ty acp : i < - zlen (tx_tx_ins t) \/ zlen (tx_tx_ins t) <= i -> segwit_sighash H net t i ty pv sc acp = Err IndexError.
  Proof using. intros I. unfold segwit_sighash. rewrite index_outside by lia. reflexivity. Qed.
  Lemma all_outside t i sc pv acp d : i < - zlen (tx_tx_ins t) \/ zlen (tx_tx_ins t) <= i -> sighash_all H net t i sc pv acp <> Ok d.
  Proof using.
    intros I E. unfold sighash_all in E. destruct (FORKID net); [exact (forkid_outside _ _ _ _ _ _ _ I E)|].
    destruct (is_witness t); [rewrite segwit_outside in E by assumption; discriminate|].
    destruct (sighash_prep H net t i sc) as [c|] eqn:P; [exact (prep_outside _ _ _ _ I P)|discriminate].
  Qed.
  Lemma single_outside t i sc pv acp d : i < - zlen (tx_tx_ins t) \/ zlen (tx_tx_ins t) <= i \/ i < - zlen (tx_tx_outs t) \/ zlen (tx_tx_outs t) <= i ->
    sighash_single H net t i sc pv acp <> Ok d.
  Proof using.
    intros I E. unfold sighash_single in E. destruct (guard _ _) eqn:G; [|discriminate]. cbn [bind] in E. unfold guard in G. destruct (zlen (tx_tx_outs t) <=? i) eqn:Z; [discriminate|].
    assert (i < - zlen (tx_tx_ins t) \/ zlen (tx_tx_ins t) <= i \/ i < - zlen (tx_tx_outs t)) as J by lia. clear I.
    destruct J as [J|[J|J]]; [assert (i < - zlen (tx_tx_ins t) \/ zlen (tx_tx_ins t) <= i) as K by lia|assert (i < - zlen (tx_tx_ins t) \/ zlen (tx_tx_ins t) <= i) as K by lia|].
    1,2: destruct (FORKID net); [exact (forkid_outside _ _ _ _ _ _ _ K E)|];
      destruct (is_witness t); [rewrite segwit_outside in E by assumption; discriminate|];
      destruct (sighash_prep H net t i sc) as [c|] eqn:P; [exact (prep_outside _ _ _ _ K P)|discriminate].
    assert (forall ty, hash_outputs H net t i ty = Err IndexError \/ ty <> SIGHASH_SINGLE) as Ho.
    { intros ty. destruct (Z.eq_dec ty SIGHASH_SINGLE) as [->|N]; [left|right; exact N]. unfold hash_outputs. cbn [Z.eqb SIGHASH_ALL SIGHASH_SINGLE Pos.eqb andb].
      pose proof (zlen_nonneg (tx_tx_outs t)). replace (i <? zlen (tx_tx_outs t)) with true by lia. rewrite index_outside by lia. reflexivity. }
    destruct (Ho SIGHASH_SINGLE) as [Ho'|N]; [|congruence]. destruct (FORKID net).
    - unfold sighash_forkid in E. destruct (validate_bytes pv _); [|discriminate]. cbn [bind] in E. destruct (index _ _); [|discriminate]. cbn [bind] in E.
      destruct (add_opt pv); [|discriminate]. cbn [bind] in E. rewrite Ho' in E. discriminate.
    - destruct (is_witness t).
      + unfold segwit_sighash in E. destruct (index _ _); [|discriminate]. cbn [bind] in E.
        destruct (add_opt pv); [|discriminate]. cbn [bind] in E. rewrite Ho' in E. discriminate.
      + destruct (sighash_prep H net t i sc) as [c|] eqn:P; [|discriminate]. cbn [bind] in E. apply prep_ins in P. destruct P as [_ P].
        destruct (mapM _ (tx_tx_ins c)); [|discriminate]. cbn [bind] in E. rewrite P, index_outside in E by lia. discriminate.
  Qed.

  Definition but_outs (t t' : tx) : Prop :=
    tx_version t' = tx_version t /\ tx_flag t' = tx_flag t /\ tx_tx_ins t' = tx_tx_ins t /\ tx_tx_witnesses t' = tx_tx_witnesses t /\ tx_lock_time t' = tx_lock_time t.
  Definition alike (r r' : res tx) : Prop :=
    match r, r' with Ok c, Ok c' => but_outs c c' | Err e, Err e' => e = e' | _, _ => False end.

  Lemma Tx_alike v f ins outs outs' ws lt : 0 < zlen outs < 2 ^ 64 -> 0 < zlen outs' < 2 ^ 64 ->
    alike (Tx H net v f ins outs ws lt) (Tx H net v f ins outs' ws lt).
  Proof using.
    intros Lo Lo'. unfold Tx.
    destruct (validate_bytes (Some v) _); cbn [bind]; [|reflexivity]. destruct (validate_bytes (Some lt) _); cbn [bind]; [|reflexivity].
    match goal with |- alike (bind ?x _) _ => destruct x; cbn [bind]; [|reflexivity] end.
    match goal with |- alike (bind ?x _) _ => destruct x; cbn [bind]; [|reflexivity] end.
    pose proof (zlen_nonneg ins).
    replace (Z.min (zlen ins) (zlen outs') =? 0) with (Z.min (zlen ins) (zlen outs) =? 0) by lia.
    destruct (guard _ _); cbn [bind]; [|reflexivity]. destruct (VarInt (zlen ins) None) eqn:N; cbn [bind]; [|reflexivity].
    rewrite (VarInt_None (zlen outs)), (VarInt_None (zlen outs')) by lia. cbn [bind]. cbv zeta. unfold no_witness_bytes. rewrite N. cbn [bind].
    rewrite (VarInt_None (zlen outs)), (VarInt_None (zlen outs')) by lia. cbn [bind].
    destruct f; cbn [alike]; unfold but_outs; cbn; auto.
  Qed.

  Lemma prep_alike t t' j sc : but_outs t t' -> 0 < zlen (tx_tx_outs t) < 2 ^ 64 -> 0 < zlen (tx_tx_outs t') < 2 ^ 64 ->
    alike (sighash_prep H net t j sc) (sighash_prep H net t' j sc).
  Proof using.
    intros [E1 [E2 [E3 [E4 E5]]]] L L'. unfold sighash_prep. rewrite E3.
    destruct (mapM _ (tx_tx_ins t)); cbn [bind]; [|reflexivity]. destruct (VarInt_from_bytes net sc); cbn [bind]; [|reflexivity].
    destruct (index _ _); cbn [bind]; [|reflexivity]. destruct (TxIn_copy _ _ _ _ _); cbn [bind]; [|reflexivity].
    destruct (set_index _ _ _); cbn [bind]; [|reflexivity]. unfold Tx_copy. cbn [or_self or_self_opt]. rewrite E1, E2, E4, E5. apply Tx_alike; assumption.
  Qed.

  Lemma single_wrap t t' i sc pv acp : but_outs t t' -> zlen (tx_tx_outs t) < 2 ^ 64 -> zlen (tx_tx_outs t') < 2 ^ 64 ->
    - zlen (tx_tx_ins t) <= i < 0 -> - zlen (tx_tx_outs t) <= i ->
    nth_error (tx_tx_outs t') (Z.to_nat (i + zlen (tx_tx_ins t))) = nth_error (tx_tx_outs t) (Z.to_nat (i + zlen (tx_tx_outs t))) ->
    sighash_single H net t i sc pv acp = sighash_single H net t' (i + zlen (tx_tx_ins t)) sc pv acp.
  Proof using.
    intros B L L' I J N. pose proof B as [E1 [E2 [E3 [E4 E5]]]].
    assert (i + zlen (tx_tx_ins t) < zlen (tx_tx_outs t')) as Z1.
    { destruct (nth_error (tx_tx_outs t) (Z.to_nat (i + zlen (tx_tx_outs t)))) eqn:X.
      - assert (nth_error (tx_tx_outs t') (Z.to_nat (i + zlen (tx_tx_ins t))) <> None) as Y by congruence. apply nth_error_Some in Y. unfold zlen in *. lia.
      - apply nth_error_None in X. unfold zlen in *. lia. }
    assert (index (tx_tx_outs t') (i + zlen (tx_tx_ins t)) = index (tx_tx_outs t) i) as Ho by (apply (index_same _ _ _ (zlen (tx_tx_outs t))); [reflexivity|lia|lia|exact N]).
    assert (index (tx_tx_ins t') (i + zlen (tx_tx_ins t)) = index (tx_tx_ins t) i) as Hi by (rewrite E3; symmetry; apply index_wrap; [reflexivity|lia]).
    pose proof (zlen_nonneg (tx_tx_outs t)) as Z2.
    unfold sighash_single. replace (zlen (tx_tx_outs t) <=? i) with false by lia. replace (zlen (tx_tx_outs t') <=? i + zlen (tx_tx_ins t)) with false by lia.
    cbn [guard bind].
    assert (hash_outputs H net t' (i + zlen (tx_tx_ins t)) SIGHASH_SINGLE = hash_outputs H net t i SIGHASH_SINGLE) as Hh.
    { unfold hash_outputs. cbn [Z.eqb SIGHASH_ALL SIGHASH_SINGLE Pos.eqb andb].
      replace (i <? zlen (tx_tx_outs t)) with true by lia. replace (i + zlen (tx_tx_ins t) <? zlen (tx_tx_outs t')) with true by lia. rewrite Ho. reflexivity. }
    assert (forall a, hash_prevouts H net t' a = hash_prevouts H net t a) as Hp by (intros a; unfold hash_prevouts; rewrite E3; reflexivity).
    assert (forall ty a, hash_sequence H net t' ty a = hash_sequence H net t ty a) as Hs by (intros ty a; unfold hash_sequence; rewrite E3; reflexivity).
    destruct (FORKID net).
    - unfold sighash_forkid. rewrite Hi, Hh, Hp, Hs, E1, E5. reflexivity.
    - replace (is_witness t') with (is_witness t) by (unfold is_witness; rewrite E2, E4; reflexivity). destruct (is_witness t).
      + unfold segwit_sighash. rewrite Hi, Hh, Hp, Hs, E1, E5. reflexivity.
      + rewrite (prep_wrap t i sc I). pose proof (prep_alike t t' (i + zlen (tx_tx_ins t)) sc B ltac:(lia) ltac:(lia)) as A.
        destruct (sighash_prep H net t _ sc) as [c|e] eqn:P, (sighash_prep H net t' _ sc) as [c'|e'] eqn:P'; cbn [alike] in A; try contradiction; cbn [bind]; [|congruence].
        apply prep_ins in P, P'. destruct P as [Q R], P' as [Q' R'], A as [F1 [F2 [F3 [F4 F5]]]]. rewrite F3, R, R', Ho.
        destruct (mapM (fun _ => TxOut _ _) (tx_tx_ins c)) as [lo|] eqn:Mo; cbn [bind]; [|reflexivity]. apply zlen_mapM in Mo.
        destruct (index (tx_tx_outs t) i); cbn [bind]; [|reflexivity].
        rewrite (set_index_wrap lo (zlen (tx_tx_ins t)) i) by lia. destruct (set_index lo _ _) as [lo'|] eqn:So; cbn [bind]; [|reflexivity].
        destruct (mapM _ (tx_tx_ins c)) as [li|] eqn:Mi; cbn [bind]; [|reflexivity]. apply zlen_mapM in Mi.
        rewrite (index_wrap (tx_tx_ins c) (zlen (tx_tx_ins t)) i) by lia. destruct (index (tx_tx_ins c) _); cbn [bind]; [|reflexivity].
        rewrite (set_index_wrap li (zlen (tx_tx_ins t)) i) by lia. destruct (set_index li _ _) as [li'|] eqn:Si; cbn [bind]; [|reflexivity]. apply zlen_set_index in Si.
        unfold Tx_copy. cbn [or_self or_self_opt]. rewrite F1, F2, F4, F5.
        destruct (Tx H net _ _ li' lo' _ _) as [u|] eqn:T; cbn [bind]; [|reflexivity]. apply tx_ins_of in T. destruct T as [T _].
        destruct acp; [|reflexivity]. rewrite anyone_wrap by (rewrite T; lia). rewrite T. replace (zlen li') with (zlen (tx_tx_ins t)) by lia. reflexivity.
  Qed.
End Tx.

Section Zcash.
  Context (H : hashes) (net : network).

  Lemma z_outputs_all outs ty i i' : ty <> SIGHASH_SINGLE -> z_hash_outputs H outs ty i = z_hash_outputs H outs ty i'.
  Proof using. intros N. unfold z_hash_outputs. apply Z.eqb_neq in N. rewrite N. reflexivity. Qed.
  Lemma z_outputs_single outs outs' n i : - n <= i < 0 -> - zlen outs <= i ->
    nth_error outs' (Z.to_nat (i + n)) = nth_error outs (Z.to_nat (i + zlen outs)) ->
    z_hash_outputs H outs' SIGHASH_SINGLE (i + n) = z_hash_outputs H outs SIGHASH_SINGLE i.
  Proof using.
    intros I J N. unfold z_hash_outputs. cbn [zmem existsb Z.eqb SIGHASH_ALL SIGHASH_SINGLE Pos.eqb orb negb].
    rewrite (index_same outs outs' n (zlen outs) i eq_refl) by (try assumption; lia).
    assert (i + n < zlen outs') as Z1.
    { destruct (nth_error outs (Z.to_nat (i + zlen outs))) eqn:X.
      - assert (nth_error outs' (Z.to_nat (i + n)) <> None) as Y by congruence. apply nth_error_Some in Y. unfold zlen in *. lia.
      - apply nth_error_None in X. unfold zlen in *. lia. }
    replace (zlen outs' <? i + n) with false by lia. pose proof (zlen_nonneg outs). replace (zlen outs <? i) with false by lia. reflexivity.
  Qed.
  Lemma z_input_wrap ins js i sc pv : - zlen ins <= i < 0 -> z_input_part ins js i sc pv = z_input_part ins js (i + zlen ins) sc pv.
  Proof using. intros I. unfold z_input_part. rewrite (index_wrap ins _ i eq_refl I). reflexivity. Qed.
  Lemma z_input_outside ins i sc pv : i < - zlen ins \/ zlen ins <= i -> z_input_part ins false i sc pv = Err IndexError.
  Proof using. intros I. unfold z_input_part. rewrite index_outside by exact I. reflexivity. Qed.

  (* sprout *)
  Lemma sprout_prep_wrap t i sc : - zlen (sp_tx_ins t) <= i < 0 -> sprout_sighash_prep H net t i sc = sprout_sighash_prep H net t (i + zlen (sp_tx_ins t)) sc.
  Proof using.
    intros I. unfold sprout_sighash_prep. destruct (zlen (sp_tx_ins t) =? 0); [reflexivity|]. destruct (mapM _ (sp_tx_ins t)) as [l|] eqn:M; [|reflexivity]. cbn [bind]. apply zlen_mapM in M.
    destruct (VarInt_from_bytes net sc); [|reflexivity]. cbn [bind]. rewrite (index_wrap l _ i M I).
    destruct (index l _); [|reflexivity]. cbn [bind]. destruct (TxIn_copy _ _ _ _ _); [|reflexivity]. cbn [bind].
    rewrite (set_index_wrap l _ i _ M I). reflexivity.
  Qed.
  Lemma sprout_all_wrap t i sc : - zlen (sp_tx_ins t) <= i < 0 ->
    sprout_sighash_all H net t i sc false = sprout_sighash_all H net t (i + zlen (sp_tx_ins t)) sc false.
  Proof using. intros I. unfold sprout_sighash_all. rewrite (sprout_prep_wrap t i sc I). reflexivity. Qed.
  Lemma sprout_all_outside t i sc d : sp_tx_ins t <> [] -> i < - zlen (sp_tx_ins t) \/ zlen (sp_tx_ins t) <= i -> sprout_sighash_all H net t i sc false <> Ok d.
  Proof using.
    intros N I E. unfold sprout_sighash_all, sprout_sighash_prep in E.
    replace (zlen (sp_tx_ins t) =? 0) with false in E by (destruct (sp_tx_ins t); [congruence|unfold zlen; cbn [length]; lia]).
    destruct (mapM _ (sp_tx_ins t)) as [l|] eqn:M; [|discriminate]. cbn [bind] in E. apply zlen_mapM in M.
    destruct (VarInt_from_bytes net sc); [|discriminate]. cbn [bind] in E. rewrite index_outside in E by lia. discriminate.
  Qed.
  Lemma sprout_all_any t i i' sc sc' : sp_tx_ins t = [] -> sprout_sighash_all H net t i sc false = sprout_sighash_all H net t i' sc' false.
  Proof using. intros N. unfold sprout_sighash_all, sprout_sighash_prep. rewrite N. reflexivity. Qed.

  (* overwinter and sapling *)
  Lemma overwinter_wrap t ty pv sc i js acp : ty <> SIGHASH_SINGLE -> - zlen (ow_tx_ins t) <= i < 0 ->
    overwinter_sighash H net t ty pv sc i js acp = overwinter_sighash H net t ty pv sc (i + zlen (ow_tx_ins t)) js acp.
  Proof using.
    intros N I. unfold overwinter_sighash. rewrite (z_outputs_all _ _ i (i + zlen (ow_tx_ins t)) N), (z_input_wrap _ js i sc pv I). reflexivity.
  Qed.
  Lemma sapling_wrap t ty pv sc i js acp : ty <> SIGHASH_SINGLE -> - zlen (sa_tx_ins t) <= i < 0 ->
    sapling_sighash H net t ty pv i js sc acp = sapling_sighash H net t ty pv (i + zlen (sa_tx_ins t)) js sc acp.
  Proof using.
    intros N I. unfold sapling_sighash. rewrite (z_outputs_all _ _ i (i + zlen (sa_tx_ins t)) N), (z_input_wrap _ js i sc pv I). reflexivity.
  Qed.
  Lemma overwinter_joinsplit t ty pv sc i i' acp : ty <> SIGHASH_SINGLE ->
    overwinter_sighash H net t ty pv sc i true acp = overwinter_sighash H net t ty pv sc i' true acp.
  Proof using. intros N. unfold overwinter_sighash. rewrite (z_outputs_all _ _ i i' N). reflexivity. Qed.
  Lemma sapling_joinsplit t ty pv sc i i' acp : ty <> SIGHASH_SINGLE ->
    sapling_sighash H net t ty pv i true sc acp = sapling_sighash H net t ty pv i' true sc acp.
  Proof using. intros N. unfold sapling_sighash. rewrite (z_outputs_all _ _ i i' N). reflexivity. Qed.
  Lemma overwinter_outside t ty pv sc i acp d : i < - zlen (ow_tx_ins t) \/ zlen (ow_tx_ins t) <= i ->
    overwinter_sighash H net t ty pv sc i false acp <> Ok d.
  Proof using.
    intros I E. unfold overwinter_sighash in E. rewrite z_input_outside in E by exact I.
    repeat match type of E with bind ?x _ = _ => destruct x; cbn [bind] in E; [|discriminate] end. cbv zeta in E.
    repeat match type of E with bind ?x _ = _ => destruct x; cbn [bind] in E; [|discriminate] end. discriminate.
  Qed.
  Lemma sapling_outside t ty pv sc i acp d : i < - zlen (sa_tx_ins t) \/ zlen (sa_tx_ins t) <= i ->
    sapling_sighash H net t ty pv i false sc acp <> Ok d.
  Proof using.
    intros I E. unfold sapling_sighash in E. rewrite z_input_outside in E by exact I.
    repeat match type of E with bind ?x _ = _ => destruct x; cbn [bind] in E; [|discriminate] end. cbv zeta in E.
    repeat match type of E with bind ?x _ = _ => destruct x; cbn [bind] in E; [|discriminate] end. discriminate.
  Qed.
  Lemma z_outputs_outside outs i : i < - zlen outs \/ zlen outs <= i -> exists e, z_hash_outputs H outs SIGHASH_SINGLE i = Err e.
  Proof using.
    intros I. unfold z_hash_outputs. cbn [zmem existsb Z.eqb SIGHASH_ALL SIGHASH_SINGLE Pos.eqb orb negb].
    rewrite index_outside by exact I. destruct (guard _ _); cbn [bind]; eexists; reflexivity.
  Qed.
  Lemma overwinter_single_outside t pv sc i js acp d : i < - zlen (ow_tx_outs t) \/ zlen (ow_tx_outs t) <= i ->
    overwinter_sighash H net t SIGHASH_SINGLE pv sc i js acp <> Ok d.
  Proof using.
    intros I E. unfold overwinter_sighash in E. destruct (z_outputs_outside _ _ I) as [e Q]. rewrite Q in E.
    repeat match type of E with bind ?x _ = _ => destruct x; cbn [bind] in E; [|discriminate] end. cbv zeta in E. cbn [bind] in E. discriminate.
  Qed.
  Lemma sapling_single_outside t pv sc i js acp d : i < - zlen (sa_tx_outs t) \/ zlen (sa_tx_outs t) <= i ->
    sapling_sighash H net t SIGHASH_SINGLE pv i js sc acp <> Ok d.
  Proof using.
    intros I E. unfold sapling_sighash in E. destruct (z_outputs_outside _ _ I) as [e Q]. rewrite Q in E.
    repeat match type of E with bind ?x _ = _ => destruct x; cbn [bind] in E; [|discriminate] end. cbv zeta in E. cbn [bind] in E. discriminate.
  Qed.
  Lemma overwinter_single_wrap t t' pv sc i js acp :
    ow_header t' = ow_header t -> ow_group_id t' = ow_group_id t -> ow_tx_ins t' = ow_tx_ins t -> ow_tx_joinsplits t' = ow_tx_joinsplits t ->
    ow_joinsplit_pubkey t' = ow_joinsplit_pubkey t -> ow_lock_time t' = ow_lock_time t -> ow_expiry_height t' = ow_expiry_height t ->
    - zlen (ow_tx_ins t) <= i < 0 -> - zlen (ow_tx_outs t) <= i ->
    nth_error (ow_tx_outs t') (Z.to_nat (i + zlen (ow_tx_ins t))) = nth_error (ow_tx_outs t) (Z.to_nat (i + zlen (ow_tx_outs t))) ->
    overwinter_sighash H net t SIGHASH_SINGLE pv sc i js acp = overwinter_sighash H net t' SIGHASH_SINGLE pv sc (i + zlen (ow_tx_ins t)) js acp.
  Proof using.
    intros E1 E2 E3 E4 E5 E6 E7 I J N. unfold overwinter_sighash.
    rewrite (z_outputs_single (ow_tx_outs t) (ow_tx_outs t') (zlen (ow_tx_ins t)) i I J N), (z_input_wrap _ js i sc pv I), E1, E2, E3, E4, E5, E6, E7. reflexivity.
  Qed.
  Lemma sapling_single_wrap t t' pv sc i js acp :
    sa_header t' = sa_header t -> sa_group_id t' = sa_group_id t -> sa_tx_ins t' = sa_tx_ins t -> sa_tx_joinsplits t' = sa_tx_joinsplits t ->
    sa_joinsplit_pubkey t' = sa_joinsplit_pubkey t -> sa_lock_time t' = sa_lock_time t -> sa_expiry_height t' = sa_expiry_height t ->
    sa_value_balance t' = sa_value_balance t -> sa_tx_shielded_spends t' = sa_tx_shielded_spends t -> sa_tx_shielded_outputs t' = sa_tx_shielded_outputs t ->
    - zlen (sa_tx_ins t) <= i < 0 -> - zlen (sa_tx_outs t) <= i ->
    nth_error (sa_tx_outs t') (Z.to_nat (i + zlen (sa_tx_ins t))) = nth_error (sa_tx_outs t) (Z.to_nat (i + zlen (sa_tx_outs t))) ->
    sapling_sighash H net t SIGHASH_SINGLE pv i js sc acp = sapling_sighash H net t' SIGHASH_SINGLE pv (i + zlen (sa_tx_ins t)) js sc acp.
  Proof using.
    intros E1 E2 E3 E4 E5 E6 E7 E8 E9 E10 I J N. unfold sapling_sighash.
    rewrite (z_outputs_single (sa_tx_outs t) (sa_tx_outs t') (zlen (sa_tx_ins t)) i I J N), (z_input_wrap _ js i sc pv I), E1, E2, E3, E4, E5, E6, E7, E8, E9, E10. reflexivity.
  Qed.
End Zcash.

Section Decred.
  Context (H : hashes) (net : network).

  Lemma dtx_ins_of v ins outs lt ex ws t : DecredTx H net v ins outs lt ex ws = Ok t ->
    dtx_tx_ins t = ins /\ dtx_tx_outs t = outs /\ dtx_tx_witnesses t = ws.
  Proof using.
    unfold DecredTx. intros E.
    repeat match type of E with bind ?x _ = _ => destruct x; cbn [bind] in E; [|discriminate] end. cbv zeta in E.
    repeat match type of E with bind ?x _ = _ => destruct x; cbn [bind] in E; [|discriminate] end.
    apply Ok_inj in E; subst t; cbn; auto.
  Qed.
  Lemma dprep_wrap t i sc : - zlen (dtx_tx_witnesses t) <= i < 0 ->
    decred_sighash_prep H net t i sc = decred_sighash_prep H net t (i + zlen (dtx_tx_witnesses t)) sc.
  Proof using.
    intros I. unfold decred_sighash_prep. destruct (mapM _ (dtx_tx_witnesses t)) as [l|] eqn:M; [|reflexivity]. cbn [bind]. apply zlen_mapM in M.
    rewrite (index_wrap l _ i M I). destruct (index l _); [|reflexivity]. cbn [bind]. destruct (DecredInputWitness_copy _ _ _ _ _ _); [|reflexivity]. cbn [bind].
    rewrite (set_index_wrap l _ i _ M I). reflexivity.
  Qed.
  Lemma dprep_lists t i sc c : decred_sighash_prep H net t i sc = Ok c ->
    dtx_tx_ins c = dtx_tx_ins t /\ dtx_tx_outs c = dtx_tx_outs t /\ zlen (dtx_tx_witnesses c) = zlen (dtx_tx_witnesses t).
  Proof using.
    unfold decred_sighash_prep. intros E. destruct (mapM _ (dtx_tx_witnesses t)) as [l|] eqn:M; [|discriminate]. cbn [bind] in E. apply zlen_mapM in M.
    destruct (index l i); [|discriminate]. cbn [bind] in E. destruct (DecredInputWitness_copy _ _ _ _ _ _); [|discriminate]. cbn [bind] in E.
    destruct (set_index _ _ _) eqn:S; [|discriminate]. cbn [bind] in E. apply zlen_set_index in S. unfold DecredTx_copy in E. cbn [or_self] in E.
    apply dtx_ins_of in E. destruct E as [-> [-> ->]]. split; [reflexivity|]. split; [reflexivity|congruence].
  Qed.
  Lemma danyone_wrap c i ty : - zlen (dtx_tx_witnesses c) <= i < 0 ->
    decred_sighash_anyone_can_pay H net i c ty = decred_sighash_anyone_can_pay H net (i + zlen (dtx_tx_witnesses c)) c ty.
  Proof using.
    intros I. unfold decred_sighash_anyone_can_pay. destruct (mapM _ (dtx_tx_witnesses c)) as [l|] eqn:M; [|reflexivity]. cbn [bind]. apply zlen_mapM in M.
    rewrite (index_wrap _ _ i eq_refl I). destruct (index _ _); [|reflexivity]. cbn [bind]. rewrite (set_index_wrap l _ i _ M I). reflexivity.
  Qed.
  Lemma decred_all_wrap t i sc acp : - zlen (dtx_tx_witnesses t) <= i < 0 ->
    decred_sighash_all H net t i sc acp = decred_sighash_all H net t (i + zlen (dtx_tx_witnesses t)) sc acp.
  Proof using.
    intros I. unfold decred_sighash_all. rewrite (dprep_wrap t i sc I). destruct (decred_sighash_prep H net t _ sc) as [c|] eqn:P; [|reflexivity]. cbn [bind].
    apply dprep_lists in P. destruct P as [_ [_ L]]. destruct acp; [|reflexivity]. rewrite danyone_wrap by lia. rewrite L. reflexivity.
  Qed.
  Lemma dprep_outside t i sc c : i < - zlen (dtx_tx_witnesses t) \/ zlen (dtx_tx_witnesses t) <= i -> decred_sighash_prep H net t i sc <> Ok c.
  Proof using.
    intros I E. unfold decred_sighash_prep in E. destruct (mapM _ (dtx_tx_witnesses t)) as [l|] eqn:M; [|discriminate]. cbn [bind] in E. apply zlen_mapM in M.
    rewrite index_outside in E by lia. discriminate.
  Qed.
  Lemma decred_all_outside t i sc acp d : i < - zlen (dtx_tx_witnesses t) \/ zlen (dtx_tx_witnesses t) <= i -> decred_sighash_all H net t i sc acp <> Ok d.
  Proof using.
    intros I E. unfold decred_sighash_all in E. destruct (decred_sighash_prep H net t i sc) as [c|] eqn:P; [exact (dprep_outside _ _ _ _ I P)|discriminate].
  Qed.
  Lemma decred_single_wrap t i sc acp n : zlen (dtx_tx_witnesses t) = n -> zlen (dtx_tx_ins t) = n -> zlen (dtx_tx_outs t) = n -> - n <= i < 0 ->
    decred_sighash_single H net t i sc acp = decred_sighash_single H net t (i + n) sc acp.
  Proof using.
    intros Lw Li Lo I. unfold decred_sighash_single. rewrite (dprep_wrap t i sc) by lia. rewrite Lw.
    destruct (decred_sighash_prep H net t _ sc) as [c|] eqn:P; [|reflexivity]. cbn [bind]. apply dprep_lists in P. destruct P as [-> [-> L]].
    destruct (mapM (fun _ => DecredTxOut _ _ _ _) (dtx_tx_ins t)) as [lo|e] eqn:Mo; cbn [bind]; [|destruct e; reflexivity]. apply zlen_mapM in Mo.
    rewrite (index_wrap (dtx_tx_outs t) n i) by lia. destruct (index (dtx_tx_outs t) _) as [o|e]; cbn [bind]; [|destruct e; reflexivity].
    rewrite (set_index_wrap lo n i) by lia. destruct (set_index lo _ _) as [lo'|e]; cbn [bind]; [|destruct e; reflexivity].
    destruct (mapM _ (dtx_tx_ins t)) as [li|] eqn:Mi; cbn [bind]; [|reflexivity]. apply zlen_mapM in Mi.
    rewrite (index_wrap (dtx_tx_ins t) n i) by lia. destruct (index (dtx_tx_ins t) _); cbn [bind]; [|reflexivity].
    rewrite (set_index_wrap li n i) by lia. destruct (set_index li _ _) as [li'|]; cbn [bind]; [|reflexivity].
    unfold DecredTx_copy. cbn [or_self]. destruct (DecredTx H net _ li' lo' _ _ _) as [u|] eqn:T; cbn [bind]; [|reflexivity].
    apply dtx_ins_of in T. destruct T as [_ [_ T]]. destruct acp; [|reflexivity]. rewrite danyone_wrap by (rewrite T; lia). rewrite T.
    replace (zlen (dtx_tx_witnesses c)) with n by lia. reflexivity.
  Qed.
  Lemma decred_single_outside t i sc acp d :
    i < - zlen (dtx_tx_witnesses t) \/ zlen (dtx_tx_witnesses t) <= i \/ i < - zlen (dtx_tx_ins t) \/ zlen (dtx_tx_ins t) <= i \/
    i < - zlen (dtx_tx_outs t) \/ zlen (dtx_tx_outs t) <= i ->
    decred_sighash_single H net t i sc acp <> Ok d.
  Proof using.
    intros I E. unfold decred_sighash_single in E. destruct (decred_sighash_prep H net t i sc) as [c|] eqn:P; [|discriminate]. cbn [bind] in E.
    destruct (Z_lt_dec i (- zlen (dtx_tx_witnesses t))) as [W|W]; [exact (dprep_outside _ _ _ _ (or_introl W) P)|].
    destruct (Z_le_dec (zlen (dtx_tx_witnesses t)) i) as [W'|W']; [exact (dprep_outside _ _ _ _ (or_intror W') P)|].
    apply dprep_lists in P. destruct P as [Qi [Qo _]]. rewrite Qi, Qo in E.
    match type of E with bind ?x _ = _ => destruct x as [lo|] eqn:X; [|discriminate] end. cbn [bind] in E.
    match type of E with bind ?x _ = _ => destruct x; [|discriminate E] end. cbn [bind] in E.
    destruct (index (dtx_tx_ins t) i) eqn:Y; [|discriminate E]. clear E.
    destruct (mapM (fun _ => DecredTxOut _ _ _ _) (dtx_tx_ins t)); cbn [bind] in X; [|destruct e; cbn in X; discriminate X].
    destruct (index (dtx_tx_outs t) i) eqn:Z; [|cbn [bind] in X; destruct e; cbn in X; discriminate X].
    assert (forall A (l : list A) a, index l i = Ok a -> - zlen l <= i < zlen l) as In.
    { intros A l b Q. destruct (Z_lt_dec i (- zlen l)); [rewrite index_outside in Q by lia; discriminate|]. destruct (Z_le_dec (zlen l) i); [rewrite index_outside in Q by lia; discriminate|]. lia. }
    apply In in Y, Z. lia.
  Qed.
End Decred.
