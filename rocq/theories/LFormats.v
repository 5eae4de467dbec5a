(* Lemmas for C95: what the parser of one transaction format makes of the bytes of
   another *)
From Coq Require Import String.
From Verif Require Import Py LBase MNet MUtils MShared MScript MTx MZcash SNum SNet SHash SScript STx SZcash
  LNet LUtils LTx LTxParse LParse LTrunc LIdem LZcash LZcashTx LSapling LSprout.
Open Scope list_scope.
Open Scope Z_scope.

(** * Headers *)

Lemma overwinter_head H net s t : OverwinterTx_from_bytes H net s = Ok t -> slice s 0 4 = [3; 0; 0; 128] /\ slice s 4 8 = [112; 130; 196; 3].
Proof.
  unfold OverwinterTx_from_bytes. cbv zeta. destruct (leqb_spec (slice s 0 4) [3; 0; 0; 128]); [|discriminate].
  destruct (leqb_spec (slice s 4 8) [112; 130; 196; 3]); [auto|discriminate].
Qed.
Lemma sapling_head H net s t : SaplingTx_from_bytes H net s = Ok t -> slice s 0 4 = [4; 0; 0; 128] /\ slice s 4 8 = [133; 32; 47; 137].
Proof.
  unfold SaplingTx_from_bytes. cbv zeta. destruct (leqb_spec (slice s 0 4) [4; 0; 0; 128]); [|discriminate].
  destruct (leqb_spec (slice s 4 8) [133; 32; 47; 137]); [auto|discriminate].
Qed.
Lemma overwinter_refuses H net s : slice s 0 4 <> [3; 0; 0; 128] \/ slice s 4 8 <> [112; 130; 196; 3] -> OverwinterTx_from_bytes H net s = Err ValueError.
Proof.
  intros N. unfold OverwinterTx_from_bytes. cbv zeta. destruct (leqb_spec (slice s 0 4) [3; 0; 0; 128]); [|reflexivity].
  destruct (leqb_spec (slice s 4 8) [112; 130; 196; 3]); [|reflexivity]. destruct N; contradiction.
Qed.
Lemma sapling_refuses H net s : slice s 0 4 <> [4; 0; 0; 128] \/ slice s 4 8 <> [133; 32; 47; 137] -> SaplingTx_from_bytes H net s = Err ValueError.
Proof.
  intros N. unfold SaplingTx_from_bytes. cbv zeta. destruct (leqb_spec (slice s 0 4) [4; 0; 0; 128]); [|reflexivity].
  destruct (leqb_spec (slice s 4 8) [133; 32; 47; 137]); [|reflexivity]. destruct N; contradiction.
Qed.

(** * Sprout transactions read as Bitcoin transactions *)

Lemma VarInt_zero net r v : VarInt_from_bytes net (0 :: r) = Ok v -> vi_number v = 0.
Proof.
  unfold VarInt_from_bytes. change (index (0 :: r) 0) with (Ok 0 : res Z). cbn [bind]. change (0 <=? 252) with true. cbv iota.
  assert (slice (0 :: r) 0 1 = [0]) as -> by (rewrite slice_firstn by lia; reflexivity).
  vm_compute. intros E. injection E as <-. reflexivity.
Qed.

Section As.
Context (H : hashes) (name : str) (net : network) (En : get_network name = Ok net).

Lemma sprout_parts s t : is_bytes s -> SproutTx_from_bytes H net s = Ok t ->
  exists n m c1 c2, VarInt_from_bytes net (slice_from s 4) = Ok n /\
    read_many (TxIn_from_bytes net) (fun i => zlen (ti_bytes i)) (S (length s)) s (vi_number n) (4 + zlen (vi_bytes n)) = Ok (sp_tx_ins t, c1) /\
    VarInt_from_bytes net (slice_from s c1) = Ok m /\
    read_many (TxOut_from_bytes net) (fun o => zlen (to_bytes_ o)) (S (length s)) s (vi_number m) (c1 + zlen (vi_bytes m)) = Ok (sp_tx_outs t, c2) /\
    sp_version t = slice s 0 4 /\ sp_lock_time t = slice s c2 (c2 + 4) /\ zlen (sp_version t) = 4 /\ zlen (sp_lock_time t) = 4 /\
    zlen (sp_tx_ins t) < 2 ^ 64 /\ zlen (sp_tx_outs t) < 2 ^ 64 /\ (0 <= c2 -> c2 + 4 < zlen s).
Proof.
  intros B E. pose proof (sprout_v1_never H net s t E) as V2. unfold SproutTx_from_bytes in E. cbv zeta in E.
  apply bind_Ok in E. destruct E as [n [N E]]. apply bind_Ok in E. destruct E as [[ins c1] [I E]].
  apply bind_Ok in E. destruct E as [m [M E]]. apply bind_Ok in E. destruct E as [[outs c2] [O E]].
  apply bind_Ok in E. destruct E as [[[js pk] sg] [J E]].
  destruct js as [js|]; [|destruct (SproutTx_None H net (Some (slice s 0 4)) ins outs (slice s c2 (c2 + 4)) pk sg) as [e X]; rewrite X in E; discriminate].
  apply SproutTx_Ok in E; [|apply is_bytes_slice; [exact B|lia|lia]]. destruct E as [A ->].
  exists n, m, c1, c2. cbn [sp_of sp_tx_ins sp_tx_outs sp_version sp_lock_time]. unfold sp_args_ok in A. rewrite !andb_true_iff in A.
  destruct A as [[[[[_ L] V] L1] L2] _]. do 6 (split; [first [exact N|exact I|exact M|exact O|reflexivity]|]).
  assert (0 <= c2 -> c2 + 4 < zlen s) as R.
  { intros C. rewrite le2i_le, V2 in J. change (2 =? 2) with true in J. cbv iota in J. apply bind_Ok in J. destruct J as [k [K _]].
    apply VarInt_read_shape in K. destruct K as [_ [_ K]]. rewrite zlen_slice_from in K by lia. lia. }
  split; [|repeat split; try lia; exact R]. unfold sp_version_ok in V. destruct (leqb_spec (slice s 0 4) v1) as [->|_]; [reflexivity|].
  destruct (leqb_spec (slice s 0 4) v2) as [->|_]; [reflexivity|discriminate].
Qed.

Lemma no_flag s n ins c : VarInt_from_bytes net (slice_from s 4) = Ok n ->
  read_many (TxIn_from_bytes net) (fun i => zlen (ti_bytes i)) (S (length s)) s (vi_number n) (4 + zlen (vi_bytes n)) = Ok (ins, c) ->
  ins <> [] -> slice s 4 6 <> [0; 1].
Proof.
  intros N I Ni F. rewrite slice_firstn in F by lia.
  assert (exists r, slice_from s 4 = 0 :: r) as [r R].
  { rewrite slice_from_skipn by lia. change (Z.to_nat 4) with 4%nat in *. change (Z.to_nat (6 - 4)) with 2%nat in F.
    destruct (skipn 4 s) as [|a [|b r]]; try discriminate. injection F as -> ->. eauto. }
  rewrite R in N. apply VarInt_zero in N. rewrite N, read_many_done in I by lia. apply Ok_inj in I. injection I as <- _. contradiction.
Qed.

Lemma sprout_as_tx s t : is_bytes s -> SproutTx_from_bytes H net s = Ok t -> slice s 4 6 <> [0; 1] ->
  (sp_tx_ins t <> [] /\ sp_tx_outs t <> [] -> exists u, Tx_from_bytes H net s = Ok u /\ tx_version u = sp_version t /\ tx_flag u = None /\
    tx_tx_ins u = sp_tx_ins t /\ tx_tx_outs u = sp_tx_outs t /\ tx_lock_time u = sp_lock_time t) /\
  (sp_tx_ins t = [] \/ sp_tx_outs t = [] -> Tx_from_bytes H net s = Err ValueError).
Proof.
  intros B E F. destruct (sprout_parts s t B E) as [n [m [c1 [c2 [N [I [M [O [V [L [Lv [Ll [Li [Lo _]]]]]]]]]]]]]].
  assert (Tx_from_bytes H net s = Tx H net (sp_version t) None (sp_tx_ins t) (sp_tx_outs t) (Some []) (sp_lock_time t)) as X.
  { unfold Tx_from_bytes. rewrite (segwit_flag name net En). destruct (leqb_spec (slice s 4 6) marker_and_flag) as [Y|_]; [contradiction|].
    rewrite N. cbn [bind]. cbv zeta. rewrite I. cbn [bind]. rewrite M. cbn [bind]. rewrite O. cbn [bind andb]. rewrite V, L. reflexivity. }
  rewrite X. split.
  - intros [Ni No]. rewrite Tx_spec. unfold tx_args_ok. rewrite Lv, Ll. cbn [flag_ok wits_ok andb Z.eqb Pos.eqb zlen length].
    assert (1 <= zlen (sp_tx_ins t) /\ 1 <= zlen (sp_tx_outs t)) as [A1 A2].
    { destruct (sp_tx_ins t); [contradiction|]. destruct (sp_tx_outs t); [contradiction|]. rewrite !zlen_cons. pose proof (zlen_nonneg l). pose proof (zlen_nonneg l0). lia. }
    match goal with |- context [if ?c then _ else _] => assert (c = true) as -> end.
    { unfold wits_ok. rewrite !andb_true_iff. repeat split; try reflexivity; lia. }
    eexists. split; [reflexivity|]. cbn. repeat split; reflexivity.
  - intros Z. rewrite Tx_spec. unfold tx_args_ok. match goal with |- (if ?c then _ else _) = _ => assert (c = false) as -> end; [|reflexivity].
    destruct Z as [->| ->]; cbn [zlen length Z.of_nat Z.leb Z.compare]; rewrite ?andb_false_r; reflexivity.
Qed.

(** * Bitcoin transactions read as Sprout transactions *)

Lemma tx_not_sprout s u t : is_bytes s -> Tx_from_bytes H net s = Ok u -> tx_flag u = None -> tx_bytes u = s -> SproutTx_from_bytes H net s <> Ok t.
Proof.
  intros B E Fl W S. destruct (sprout_parts s t B S) as [n [m [c1 [c2 [N [I [M [O [V [L [Lv [Ll [Li [Lo R]]]]]]]]]]]]]].
  pose proof (segwit_flag name net En) as SF.
  destruct (Tx_from_bytes_inv H net s u E) as [k [fl [w1 [is [d1 [w2 [os [d2 [ws [d3 [K [V1 [R1 [V2 [R2 [R3 T]]]]]]]]]]]]]]]].
  apply Tx_Ok in T. destruct T as [A ->]. cbn [tx_of tx_flag tx_bytes] in Fl, W. subst fl.
  assert (k = 4) as -> by (destruct (leqb (slice s 4 6) (SEGWIT_TX_FLAG net)); [discriminate|congruence]).
  rewrite N in V1. apply Ok_inj in V1. subst w1. rewrite I in R1. apply Ok_inj in R1. injection R1 as <- <-.
  rewrite M in V2. apply Ok_inj in V2. subst w2. rewrite O in R2. apply Ok_inj in R2. injection R2 as <- <-.
  cbn [andb] in R3. apply Ok_inj in R3. injection R3 as <- <-.
  pose proof (VarInt_read_shape _ _ _ N) as [A1 [A2 _]]. pose proof (VarInt_read_size _ _ _ (is_bytes_slice_from s 4 B ltac:(lia)) N) as A3.
  apply (read_many_size _ _ _ B) in I; [|exact (txin_room name net En)|lia]. destruct I as [I1 [I2 [I3 [I4 I5]]]].
  pose proof (VarInt_read_shape _ _ _ M) as [B1 [B2 _]]. pose proof (VarInt_read_size _ _ _ (is_bytes_slice_from s c1 B ltac:(lia)) M) as B3.
  apply (read_many_size _ _ _ B) in O; [|exact (txout_room net)|lia]. destruct O as [O1 [O2 [O3 [O4 O5]]]].
  assert (zlen s <= c2 + 4) as X.
  { rewrite <- W. unfold body. rewrite !zlen_app, !sum_bytes. cbn [map fold_right]. rewrite ?zlen_nil.
    rewrite I1, O1, !Z.max_r by lia. unfold tx_args_ok in A. rewrite !andb_true_iff in A. destruct A as [[[[[[[A4 A5] _] _] _] _] _] _].
    apply Z.eqb_eq in A4, A5. rewrite A4, A5. clear - A3 B3 I2 O2. unfold bytes in *. change (zlen (@nil Z)) with 0. lia. }
  lia.
Qed.

(** * A header read as a count of inputs *)

Lemma sum_at_least {A} (f : A -> Z) k l : Forall (fun x => k <= f x) l -> k * zlen l <= fold_right Z.add 0 (map f l).
Proof. induction 1 as [|x l F _ IH]; [rewrite zlen_nil; cbn; lia|]. rewrite zlen_cons. cbn [map fold_right]. lia. Qed.

Lemma VarInt_one k r v : 0 <= k <= 252 -> VarInt_from_bytes net (k :: r) = Ok v -> vi_number v = k /\ 1 <= zlen (vi_bytes v).
Proof.
  intros K E. pose proof (VarInt_read_shape _ _ _ E) as [_ [Y _]]. split; [|exact Y]. unfold VarInt_from_bytes in E. rewrite index_0 in E. cbn [bind] in E.
  destruct (Z.leb_spec k 252); [|lia]. assert (slice (k :: r) 0 1 = [k]) as X by (rewrite slice_firstn by lia; reflexivity). rewrite X in E.
  change (zlen [k]) with 1 in E. change (zmem 1 [1; 2; 4; 8]) with true in E. cbn [negb bind andb] in E. rewrite le2i_le in E. cbn [le_value] in E.
  rewrite Z.mul_0_r, Z.add_0_r in E. unfold VarInt in E.
  repeat match type of E with
  | bind (guard ?c _) _ = _ => destruct c; cbn [guard bind] in E; [discriminate|]
  | bind ?c _ = _ => destruct c; cbn [bind] in E; [|discriminate]
  | (let '(_, _) := ?c in _) = _ => destruct c
  end; try (apply Ok_inj in E; subst v; reflexivity).
Qed.

Lemma tx_count s u k : is_bytes s -> 1 <= k <= 252 -> slice s 4 5 = [k] -> Tx_from_bytes H net s = Ok u ->
  zlen (tx_tx_ins u) = k /\ 19 + 41 * k <= zlen s.
Proof.
  intros B Hk F E. pose proof (segwit_flag name net En) as SF.
  destruct (Tx_from_bytes_inv H net s u E) as [j [fl [w1 [is [d1 [w2 [os [d2 [ws [d3 [K [V1 [R1 [V2 [R2 [R3 T]]]]]]]]]]]]]]]].
  assert (exists r, slice_from s 4 = k :: r) as [r Hr].
  { rewrite slice_firstn in F by lia. rewrite slice_from_skipn by lia. change (Z.to_nat (5 - 4)) with 1%nat in F.
    destruct (skipn (Z.to_nat 4) s) as [|a r]; [discriminate|]. injection F as ->. eauto. }
  assert (slice s 4 6 <> [0; 1]) as Nf.
  { intros X. rewrite slice_firstn in X by lia. rewrite slice_from_skipn in Hr by lia. rewrite Hr in X. change (Z.to_nat (6 - 4)) with 2%nat in X.
    cbn [firstn] in X. injection X as X _. lia. }
  rewrite SF in K. destruct (leqb_spec (slice s 4 6) marker_and_flag) as [X|_]; [contradiction|]. injection K as <- <-.
  cbn [andb] in R3. apply Ok_inj in R3. injection R3 as <- <-.
  rewrite Hr in V1. apply VarInt_one in V1; [|lia]. destruct V1 as [N1 N2]. rewrite N1 in R1.
  apply (read_many_size _ _ _ B) in R1; [|exact (txin_room name net En)|lia]. destruct R1 as [I1 [I2 [I3 [I4 I5]]]].
  pose proof (VarInt_read_shape _ _ _ V2) as [B1 [B2 _]].
  apply (read_many_size _ _ _ B) in R2; [|exact (txout_room net)|lia]. destruct R2 as [O1 [O2 [O3 [O4 O5]]]].
  apply Tx_Ok in T. destruct T as [A ->]. cbn [tx_of tx_tx_ins]. split; [lia|].
  unfold tx_args_ok in A. rewrite !andb_true_iff in A. destruct A as [[[[[[[_ A5] _] _] _] _] A6] _].
  assert (41 * zlen is <= fold_right Z.add 0 (map (fun i => zlen (ti_bytes i)) is)) as Si.
  { apply sum_at_least. eapply Forall_impl; [|exact I5]. intros z [b [Bb Ez]]. pose proof (ends_txin net b Bb) as X. rewrite Ez in X. apply X. }
  assert (9 * zlen os <= fold_right Z.add 0 (map (fun i => zlen (to_bytes_ i)) os)) as So.
  { apply sum_at_least. eapply Forall_impl; [|exact O5]. intros z [b [Bb Ez]]. pose proof (ends_txout net b) as X. rewrite Ez in X. apply X. }
  rewrite zlen_slice in A5 by lia. lia.
Qed.
End As.
