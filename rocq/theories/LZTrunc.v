(* Lemmas for truncated Zcash serializations *)
From Coq Require Import String.
From Verif Require Import Py LBase MNet MUtils MShared MScript MTx MZcash SNum SNet SHash SScript STx SZcash STrunc SParse LNet LUtils LVarint LTx LTxParse LZcash LZcashTx LSapling LSprout LTrunc LParse.
Open Scope list_scope.
Open Scope Z_scope.
Ltac Zify.zify_post_hook ::= idtac.

(** * vectors *)

(* A vector whose bytes may end early, with objects of which no part is accepted:
   either it is read completely, or at most one byte is left behind it (when the
   length is cut). *)
Lemma vec_cut {A X} net (fb : bytes -> res A) size (w : X -> bytes) (xs : list X) (ys : list A) :
  Forall2 (fun x y => (forall r, fb (w x ++ r) = Ok y) /\ size y = zlen (w x)) xs ys ->
  (forall b y, fb b = Ok y -> 0 <= size y) ->
  (forall x q s y, In x xs -> s <> [] -> w x = q ++ s -> fb q = Ok y -> zlen q - 0 <= size y) ->
  zlen xs < 2 ^ 16 -> readable net (zlen xs) ->
  forall fuel pre r q tail p c v zs c', p = pre ++ r -> c = zlen pre -> r ++ q = compactsize (zlen xs) ++ concat (map w xs) ++ tail ->
  VarInt_from_bytes net (slice_from p c) = Ok v ->
  read_many fb size fuel p (vi_number v) (c + zlen (vi_bytes v)) = Ok (zs, c') ->
  (exists r', r = compactsize (zlen xs) ++ concat (map w xs) ++ r' /\ tail = r' ++ q /\ zs = ys /\
     c' = c + zlen (compactsize (zlen xs)) + zlen (concat (map w xs)) /\
     v = {| vi_number := zlen xs; vi_bytes := compactsize (zlen xs) |}) \/
  (zlen p <= c' \/ 253 <= zlen xs /\ zlen p - 1 <= c').
Proof.
  intros F G D N R fuel pre r q tail p c v zs c' -> Hc E V RM.
  pose proof (zlen_nonneg xs) as Zx. rewrite slice_from_app in V by (symmetry; exact Hc).
  pose proof (VarInt_read_shape _ _ _ V) as [V1 [V2 _]].
  apply app_eq_app in E. destruct E as [l [[E1 E2]|[E1 E2]]].
  - subst r. rewrite VarInt_roundtrip in V by (try exact R; change (2 ^ 64) with 18446744073709551616; change (2 ^ 16) with 65536 in N; lia).
    apply Ok_inj in V. subst v. cbn [vi_number vi_bytes] in *. rewrite (app_assoc pre) in RM.
    destruct (read_many_cut fb size w 0 xs ys F G D fuel (pre ++ compactsize (zlen xs)) l q tail (zlen xs) (c + zlen (compactsize (zlen xs))) zs c') as [[r' [X1 [X2 [X3 X4]]]]|Xr];
      [reflexivity|rewrite zlen_app; lia|symmetry; exact E2|exact RM| |].
    + left. exists r'. rewrite X1. auto.
    + right. rewrite <- app_assoc in Xr. lia.
  - destruct l as [|b l].
    + rewrite app_nil_r in E1. subst r. rewrite <- (app_nil_r (compactsize _)) in V.
      rewrite VarInt_roundtrip in V by (try exact R; change (2 ^ 64) with 18446744073709551616; change (2 ^ 16) with 65536 in N; lia).
      apply Ok_inj in V. subst v. cbn [vi_number vi_bytes app] in *.
      replace (pre ++ compactsize (zlen xs)) with ((pre ++ compactsize (zlen xs)) ++ []) in RM by apply app_nil_r.
      destruct (read_many_cut fb size w 0 xs ys F G D fuel (pre ++ compactsize (zlen xs)) [] q tail (zlen xs) (c + zlen (compactsize (zlen xs))) zs c') as [[r' [X1 [X2 [X3 X4]]]]|Xr];
        [reflexivity|rewrite zlen_app; lia|exact E2|exact RM| |].
      * left. exists r'. rewrite <- X1, app_nil_r. auto.
      * right. rewrite app_nil_r in Xr. lia.
    + right. apply (compactsize_cut net (zlen xs) r (b :: l)) in V; [|lia|discriminate|exact E1].
      apply read_many_forward in RM; [|exact G]. rewrite zlen_app. right. split; [|lia].
      destruct (Z.lt_ge_cases (zlen xs) 253) as [X0|X0]; [exfalso|exact X0].
      assert (zlen (compactsize (zlen xs)) = 1) as C1 by (rewrite zlen_compactsize; destruct (Z.ltb_spec (zlen xs) 253); lia).
      rewrite E1, zlen_app, zlen_cons in C1. pose proof (zlen_nonneg l). lia.
Qed.

(* objects of one width *)
Lemma fixed_cut {A} (fb : bytes -> res A) (w : A -> bytes) k :
  (forall b y, fb b = Ok y -> k <= zlen b) -> forall x, zlen (w x) = k ->
  forall q s y, s <> [] -> w x = q ++ s -> fb q = Ok y -> zlen q - 0 <= zlen (w y).
Proof.
  intros K x L q s y S E Y. apply K in Y. apply zlen_pos in S. rewrite E, zlen_app in L. lia.
Qed.

Lemma concat_ge {A} (P : A -> Prop) (w : A -> bytes) k l : (forall x, P x -> k <= zlen (w x)) -> Forall P l -> zlen l * k <= zlen (concat (map w l)).
Proof.
  intros E F. induction F as [|x l Px F IH]; [reflexivity|]. cbn [map concat]. rewrite zlen_app, zlen_cons. specialize (E x Px). lia.
Qed.

(** * inputs and outputs *)

Lemma vecs_cut name net pre ins outs ins' k tail p q fuel v1 v2 is c2 os c4 : get_network name = Ok net ->
  Forall2 (fun i i' => (forall r, TxIn_from_bytes net (ti_bytes i ++ r) = Ok i') /\ zlen (ti_bytes i') = zlen (ti_bytes i)) ins ins' ->
  Forall txin_obj ins -> Forall (fun i => readable net (zlen (ti_script_sig i))) ins ->
  Forall txout_obj outs -> Forall (fun o => zlen (to_output_script o) < 252) outs ->
  readable net (zlen ins) -> readable net (zlen outs) -> zlen ins < 2 ^ 16 -> zlen outs < 2 ^ 16 -> zlen pre = k ->
  p ++ q = pre ++ compactsize (zlen ins) ++ concat (map ti_bytes ins) ++ compactsize (zlen outs) ++ concat (map to_bytes_ outs) ++ tail ->
  VarInt_from_bytes net (slice_from p k) = Ok v1 ->
  read_many (TxIn_from_bytes net) (fun i => zlen (ti_bytes i)) fuel p (vi_number v1) (k + zlen (vi_bytes v1)) = Ok (is, c2) ->
  VarInt_from_bytes net (slice_from p c2) = Ok v2 ->
  read_many (TxOut_from_bytes net) (fun o => zlen (to_bytes_ o)) fuel p (vi_number v2) (c2 + zlen (vi_bytes v2)) = Ok (os, c4) ->
  c4 + 4 <= zlen p ->
  is = ins' /\ os = outs /\ zlen (vi_bytes v2) = zlen (compactsize (zlen outs)) /\
  exists pre' r, p = pre' ++ r /\ tail = r ++ q /\ c4 = zlen pre' /\
    pre' = pre ++ compactsize (zlen ins) ++ concat (map ti_bytes ins) ++ compactsize (zlen outs) ++ concat (map to_bytes_ outs).
Proof.
  intros En F Fi Ri Fo Lo Rn Rm Ni No K E V1 R1 V2 R2 L4.
  pose proof (VarInt_read_shape _ _ _ V1) as [N1 [B1 B1']]. pose proof (VarInt_read_shape _ _ _ V2) as [N2 [B2 B2']].
  pose proof (zlen_nonneg pre) as Z3. rewrite zlen_slice_from in B1' by lia.
  apply long_prefix in E; [|lia]. destruct E as [r1 [P1 E]].
  assert (c2 <= c4 - 1) as C24.
  { apply read_many_forward in R2; [lia|intros; apply zlen_nonneg]. }
  destruct (vec_cut net (TxIn_from_bytes net) (fun i => zlen (ti_bytes i)) ti_bytes ins ins' F) with (fuel := fuel) (pre := pre) (r := r1) (q := q)
    (tail := compactsize (zlen outs) ++ concat (map to_bytes_ outs) ++ tail) (p := p) (c := k) (v := v1) (zs := is) (c' := c2) as [[r2 [P2 [E2 [-> [Hc2 _]]]]]|X].
  { intros; apply zlen_nonneg. }
  { intros x q' s' y' I S' E' Y'. rewrite Forall_forall in Fi, Ri. destruct (TxIn_cut net x q' s' (Fi x I) (Ri x I) S' E') as [e X].
    rewrite X in Y'. discriminate. }
  { exact Ni. } { exact Rn. } { exact P1. } { symmetry; exact K. } { symmetry; exact E. } { exact V1. } { exact R1. }
  2: { exfalso. lia. }
  set (p2 := pre ++ compactsize (zlen ins) ++ concat (map ti_bytes ins)).
  assert (p = p2 ++ r2) as Pp by (unfold p2; rewrite P1, P2, <- !app_assoc; reflexivity).
  assert (zlen p2 = c2) as Lp2 by (unfold p2; rewrite !zlen_app; lia).
  destruct (vec_cut net (TxOut_from_bytes net) (fun o => zlen (to_bytes_ o)) to_bytes_ outs outs) with (fuel := fuel) (pre := p2) (r := r2) (q := q)
    (tail := tail) (p := p) (c := c2) (v := v2) (zs := os) (c' := c4) as [[r3 [P3 [E3 [-> [Hc4 Hv]]]]]|X].
  { apply Forall2_refl_in. intros x I. rewrite Forall_forall in Fo, Lo. split; [|reflexivity]. intros r. apply TxOut_parse; auto. }
  { intros; apply zlen_nonneg. }
  { intros x q' s' z I S' E' Z'. rewrite Forall_forall in Fo, Lo. apply (TxOut_cut net x q' s' z); auto. }
  { exact No. } { exact Rm. } { exact Pp. } { symmetry; exact Lp2. } { symmetry; exact E2. } { exact V2. } { exact R2. }
  2: { exfalso. lia. }
  split; [reflexivity|]. split; [reflexivity|]. split; [rewrite Hv; reflexivity|].
  exists (p2 ++ compactsize (zlen outs) ++ concat (map to_bytes_ outs)), r3.
  split; [rewrite Pp, P3, <- !app_assoc; reflexivity|]. split; [exact E3|]. split; [rewrite !zlen_app; lia|].
  unfold p2. rewrite <- !app_assoc. reflexivity.
Qed.

Lemma transparent_counts ins outs : Forall txin_obj ins -> Forall txout_obj outs ->
  zlen (concat (map ti_bytes ins)) <= 100000 -> zlen (concat (map to_bytes_ outs)) <= 100000 -> zlen ins < 2 ^ 16 /\ zlen outs < 2 ^ 16.
Proof.
  intros Fi Fo Li Lo.
  assert (zlen ins * 41 <= zlen (concat (map ti_bytes ins))) as A.
  { apply (concat_ge txin_obj); [|exact Fi]. intros x O. rewrite (txin_bytes x O), !zlen_app. apply txin_obj_iff in O. destruct O as [O1 [O2 _]].
    apply outpoint_obj_iff in O1. destruct O1 as [A [B C]]. rewrite C, zlen_app.
    pose proof (zlen_compactsize_pos (zlen (ti_script_sig x))). pose proof (zlen_nonneg (ti_script_sig x)). lia. }
  assert (zlen outs * 9 <= zlen (concat (map to_bytes_ outs))) as B.
  { apply (concat_ge txout_obj); [|exact Fo]. intros x O. apply txout_obj_iff in O. destruct O as [A1 [A2 ->]]. rewrite !zlen_app.
    pose proof (zlen_compactsize_pos (zlen (to_output_script x))). pose proof (zlen_nonneg (to_output_script x)). lia. }
  change (2 ^ 16) with 65536. lia.
Qed.

Lemma sprout_js_needs net b y : SproutJoinsplit_from_bytes net b = Ok y -> 1802 <= zlen b.
Proof. intros E. pose proof (ends_sprout_js net b) as X. rewrite E in X. cbn [ends] in X. tauto. Qed.
Lemma sapling_js_needs net b y : SaplingJoinsplit_from_bytes net b = Ok y -> 1698 <= zlen b.
Proof. intros E. pose proof (ends_sapling_js net b) as X. rewrite E in X. cbn [ends] in X. tauto. Qed.
Lemma spend_needs net b y : SaplingShieldedSpend_from_bytes net b = Ok y -> 384 <= zlen b.
Proof. intros E. pose proof (ends_spend net b) as X. rewrite E in X. cbn [ends] in X. tauto. Qed.
Lemma sout_needs net b y : SaplingShieldedOutput_from_bytes net b = Ok y -> 948 <= zlen b.
Proof. intros E. pose proof (ends_sout net b) as X. rewrite E in X. cbn [ends] in X. tauto. Qed.

(* the transparent part of a transaction that can be parsed *)
Lemma parts_ready name net ins outs : get_network name = Ok net -> parsable_parts name ins outs -> Forall txin_obj ins -> Forall txout_obj outs ->
  readable net (zlen ins) /\ readable net (zlen outs) /\ Forall (fun i => readable net (zlen (ti_script_sig i))) ins /\
  Forall (fun o => zlen (to_output_script o) < 252) outs /\
  exists ins', Forall2 (fun i i' => (forall r, TxIn_from_bytes net (ti_bytes i ++ r) = Ok i') /\ zlen (ti_bytes i') = zlen (ti_bytes i)) ins ins' /\
    Forall2 same_input ins ins' /\ Forall txin_obj ins'.
Proof.
  intros En [R1 [R2 [Pi Po]]] Fi Fo. split; [apply (readable_spec name net _ En R1)|]. split; [apply (readable_spec name net _ En R2)|].
  split. { eapply Forall_impl; [|exact Pi]. intros i [X _]. apply (readable_spec name net _ En X). }
  split; [exact Po|]. apply (parsable_ins name net _ En Fi). apply Forall_map. exact Pi.
Qed.

Lemma slice_width {A} (p : list A) a n : 0 <= a -> 0 < n -> zlen (slice p a (a + n)) = n -> a + n <= zlen p.
Proof. intros A0 N. rewrite zlen_slice by lia. lia. Qed.

Lemma small_compact n : 0 <= n <= 5 -> zlen (compactsize n) = 1.
Proof. intros N. rewrite zlen_compactsize. destruct (Z.ltb_spec n 253); lia. Qed.

Section Tx.
Context (H : hashes).

(** * Overwinter *)

Lemma Overwinter_inv net p t' : OverwinterTx_from_bytes H net p = Ok t' ->
  exists v1 is c2 v2 os c4 js pk sg,
    VarInt_from_bytes net (slice_from p 8) = Ok v1 /\
    read_many (TxIn_from_bytes net) (fun i => zlen (ti_bytes i)) (S (length p)) p (vi_number v1) (8 + zlen (vi_bytes v1)) = Ok (is, c2) /\
    VarInt_from_bytes net (slice_from p c2) = Ok v2 /\
    read_many (TxOut_from_bytes net) (fun o => zlen (to_bytes_ o)) (S (length p)) p (vi_number v2) (c2 + zlen (vi_bytes v2)) = Ok (os, c4) /\
    (if c4 + 4 + 4 =? zlen p
     then Ok ([], None, None)
     else num <- VarInt_from_bytes net (slice_from p (c4 + 4 + 4)) ;;
          ' (js, current) <- read_many (SproutJoinsplit_from_bytes net) (fun j => zlen (js_bytes j)) (S (length p)) p (vi_number num) (c4 + 4 + 4 + zlen (vi_bytes v2)) ;;
          Ok (js, Some (slice p current (current + 32)), Some (slice p (current + 32) (current + 32 + 64)))) = Ok (js, pk, sg) /\
    OverwinterTx H net is os (slice p c4 (c4 + 4)) (slice p (c4 + 4) (c4 + 4 + 4)) js pk sg = Ok t'.
Proof.
  unfold OverwinterTx_from_bytes. intros E. apply bind_Ok in E. destruct E as [u [_ E]].
  apply bind_Ok in E. destruct E as [v1 [V1 E]]. apply bind_Ok in E. destruct E as [[is c2] [R1 E]].
  apply bind_Ok in E. destruct E as [v2 [V2 E]]. apply bind_Ok in E. destruct E as [[os c4] [R2 E]].
  apply bind_Ok in E. destruct E as [[[js pk] sg] [R3 E]].
  exists v1, is, c2, v2, os, c4, js, pk, sg. auto 10.
Qed.

Lemma overwinter_keys net t : overwinter_obj H net t ->
  (ow_tx_joinsplits t = [] -> ow_joinsplit_pubkey t = None /\ ow_joinsplit_sig t = None) /\
  (ow_tx_joinsplits t <> [] -> zlen (opt (ow_joinsplit_pubkey t)) = 32 /\ zlen (opt (ow_joinsplit_sig t)) = 64).
Proof.
  intros O. apply overwinter_obj_iff in O. destruct O as [_ [_ [_ [A E]]]].
  apply (f_equal ow_joinsplit_pubkey) in E as E1. apply (f_equal ow_joinsplit_sig) in E as E2. cbn [ow_of ow_joinsplit_pubkey ow_joinsplit_sig] in E1, E2. clear E.
  unfold ow_args_ok in A. rewrite !andb_true_iff in A. destruct A as [[[[[[[[[[_ _] _] _] _] _] A7] _] _] _] _].
  split.
  - intros J. rewrite J in E1, E2. auto.
  - intros J. destruct (Z.eqb_spec (zlen (ow_tx_joinsplits t)) 0) as [J0|J0]; [apply zlen_0 in J0; contradiction|]. cbn [orb] in A7.
    apply andb_true_iff in A7. destruct A7 as [K1 K2].
    destruct (ow_joinsplit_pubkey t); [|discriminate]. destruct (ow_joinsplit_sig t); [|discriminate]. cbn [wopt opt] in *. lia.
Qed.

(* the bytes up to the expiry height *)
Definition ow_head (t : overwinter_tx) : bytes :=
  overwinter_header ++ inputs_wire (ow_tx_ins t) ++ outputs_wire (ow_tx_outs t) ++ ow_lock_time t ++ ow_expiry_height t.

Lemma Overwinter_cut name net t p q t' : get_network name = Ok net -> overwinter_obj H net t -> parsable_parts name (ow_tx_ins t) (ow_tx_outs t) ->
  zlen (ow_tx_outs t) < 253 \/ ow_tx_joinsplits t = [] -> q <> [] -> ow_bytes t = p ++ q ->
  OverwinterTx_from_bytes H net p = Ok t' -> ow_tx_ins t <> [] /\ p = ow_head t.
Proof.
  intros En O P C Q E T. pose proof (overwinter_keys net t O) as [K1 K2].
  assert (ow_head t ++ joinsplits_wire sprout_joinsplit_wire (ow_tx_joinsplits t) (ow_joinsplit_pubkey t) (ow_joinsplit_sig t) = p ++ q) as E0.
  { rewrite <- E, (overwinter_bytes H net t O). unfold overwinter_wire, overwinter_layout, ow_head. rewrite <- !app_assoc. reflexivity. }
  apply overwinter_obj_iff in O. destruct O as [Fi [Fo [Fj [A _]]]].
  unfold ow_args_ok in A. rewrite !andb_true_iff in A. destruct A as [[[[[[[[[[A1 A2] A3] A4] A5] A6] A7] A8] A9] A10] A11].
  apply Z.eqb_eq in A3, A4. apply Z.leb_le in A6, A11.
  destruct (parts_ready name net _ _ En P Fi Fo) as [R1 [R2 [Ri [Lo [ins' [F2 [SI _]]]]]]]. destruct (same_inputs _ _ SI) as [_ [_ S3]].
  unfold ow_head, joinsplits_wire in E0. rewrite (inputs_wire_bytes _ Fi), (outputs_wire_bytes _ Fo), (js_wire_bytes net _ Fj) in E0.
  rewrite <- !app_assoc in E0. symmetry in E0.
  set (js0 := ow_tx_joinsplits t) in *.
  set (tail := ow_lock_time t ++ ow_expiry_height t ++ compactsize (zlen js0) ++ concat (map js_bytes js0) ++ opt (ow_joinsplit_pubkey t) ++ opt (ow_joinsplit_sig t)) in *.
  assert (zlen (ow_tx_ins t) < 2 ^ 16 /\ zlen (ow_tx_outs t) < 2 ^ 16) as [N1 N2].
  { unfold ow_body, transparent in A11. rewrite !zlen_app in A11.
    repeat match type of A11 with context [zlen ?x] => lazymatch goal with _ : 0 <= zlen x |- _ => fail | _ => pose proof (zlen_nonneg x) end end.
    apply transparent_counts; try assumption; lia. }
  apply Overwinter_inv in T. destruct T as [v1 [is [c2 [v2 [os [c4 [js [pk [sg [V1 [I1 [V2 [I2 [J T]]]]]]]]]]]]]].
  apply OverwinterTx_Ok in T. destruct T as [T _]. unfold ow_args_ok in T. rewrite !andb_true_iff in T.
  destruct T as [[[[[[[[[[_ _] T3] T4] _] T6] T7] T8] _] _] _]. apply Z.eqb_eq in T3, T4.
  pose proof (VarInt_read_shape _ _ _ V1) as [_ [B1 _]]. pose proof (VarInt_read_shape _ _ _ V2) as [_ [B2 _]].
  assert (0 <= c4) as C4.
  { apply read_many_forward in I1; [|intros; apply zlen_nonneg]. apply read_many_forward in I2; [|intros; apply zlen_nonneg]. lia. }
  apply slice_width in T3; [|lia..]. apply slice_width in T4; [|lia..].
  destruct (vecs_cut name net overwinter_header (ow_tx_ins t) (ow_tx_outs t) ins' 8 tail p q (S (length p)) v1 v2 is c2 os c4 En F2 Fi Ri Fo Lo R1 R2 N1 N2 eq_refl E0 V1 I1 V2 I2)
    as [-> [-> [Lv [pre [r [Pp [Et [Hc Ep]]]]]]]]; [lia|].
  assert (zlen p = c4 + zlen r) as Lp by (rewrite Pp, zlen_app; lia).
  unfold tail in Et. rewrite app_assoc in Et. symmetry in Et. apply long_prefix in Et; [|rewrite zlen_app; lia]. destruct Et as [r' [Er Et]].
  rewrite Er, !zlen_app in Lp. rewrite Er, app_assoc in Pp.
  set (pre2 := pre ++ ow_lock_time t ++ ow_expiry_height t) in *. assert (zlen pre2 = c4 + 4 + 4) as L2 by (unfold pre2; rewrite !zlen_app; lia).
  destruct (list_eq_dec_nil r') as [R0|R0].
  - subst r'. cbn [app] in *. rewrite zlen_nil in Lp. destruct (Z.eqb_spec (c4 + 4 + 4) (zlen p)) as [_|X]; [|lia].
    apply Ok_inj in J. injection J as <- <- <-. cbn [zlen length Z.of_nat Z.eqb andb] in T8. rewrite S3 in T8.
    split. { intros X. rewrite X in T8. discriminate. }
    rewrite Pp, app_nil_r. unfold pre2, ow_head. rewrite Ep, (inputs_wire_bytes _ Fi), (outputs_wire_bytes _ Fo), <- !app_assoc. reflexivity.
  - exfalso. apply zlen_pos in R0. apply zlen_pos in Q. destruct (Z.eqb_spec (c4 + 4 + 4) (zlen p)) as [X|_]; [lia|].
    pose proof (zlen_nonneg js0) as Zj. pose proof (small_compact (zlen js0) (conj Zj A6)) as Cs.
    symmetry in Et. apply long_prefix in Et; [|lia]. destruct Et as [r2 [Er2 Et]].
    apply bind_Ok in J. destruct J as [num [Vn J]]. apply bind_Ok in J. destruct J as [[js' c6] [RM J]]. apply Ok_inj in J. injection J as -> <- <-.
    rewrite Pp, slice_from_app, Er2 in Vn by exact L2. rewrite VarInt_roundtrip in Vn by (try (apply readable_small; lia); lia).
    apply Ok_inj in Vn. subst num. cbn [vi_number vi_bytes] in *.
    destruct (list_eq_dec_nil js0) as [J0|J0].
    { destruct (K1 J0) as [Ka Kb]. rewrite J0, Ka, Kb in Et. cbn [map concat opt app] in Et. symmetry in Et. apply app_eq_nil in Et. destruct Et as [_ ->]. rewrite zlen_nil in Q. lia. }
    destruct C as [C|C]; [|contradiction]. destruct (K2 J0) as [Lk Ls].
    assert (zlen (compactsize (zlen (ow_tx_outs t))) = 1) as Co. { rewrite zlen_compactsize. destruct (Z.ltb_spec (zlen (ow_tx_outs t)) 253); lia. }
    pose proof (read_many_shape _ _ _ _ _ _ _ _ RM) as [Lz [Cz _]]. rewrite sum_zlen in Cz.
    assert (0 <= c6) as Zc by (rewrite Cz; match goal with |- context [concat ?l] => pose proof (zlen_nonneg (concat l)) end; lia).
    assert (0 < zlen js0) as Jp by (apply zlen_pos in J0; lia).
    destruct (Z.eqb_spec (zlen js) 0) as [X|_]; [lia|]. cbn [orb] in T7. apply andb_true_iff in T7. destruct T7 as [T7 T7']. cbn [wopt] in T7, T7'.
    apply Z.eqb_eq in T7, T7'. apply slice_width in T7; [|lia..]. apply slice_width in T7'; [|lia..].
    rewrite Pp, Er2, app_assoc in RM.
    destruct (read_many_cut (SproutJoinsplit_from_bytes net) (fun j => zlen (js_bytes j)) js_bytes 0 js0 js0) with (fuel := S (length p)) (pre := pre2 ++ compactsize (zlen js0)) (r := r2) (q := q)
      (tail := opt (ow_joinsplit_pubkey t) ++ opt (ow_joinsplit_sig t)) (n := zlen js0) (c := c4 + 4 + 4 + zlen (vi_bytes v2)) (zs := js) (c' := c6) as [[r3 [X1 [X2 [X3 X4]]]]|X].
    { apply Forall2_refl_in. intros x I. rewrite Forall_forall in Fj. split; [|reflexivity]. intros rr. apply sprout_joinsplit_parse, Fj, I. }
    { intros; apply zlen_nonneg. }
    { intros x q' s' y I S' E' Y'. rewrite Forall_forall in Fj. apply (fixed_cut (SproutJoinsplit_from_bytes net) js_bytes 1802 (sprout_js_needs net) x (js_len net x (Fj x I)) q' s' y S' E' Y'). }
    { reflexivity. } { rewrite zlen_app. lia. } { symmetry. exact Et. } { rewrite <- RM. f_equal. f_equal. rewrite Pp, Er2, <- !app_assoc. reflexivity. }
    + assert (zlen r3 + zlen q = 96) as L96 by (rewrite <- zlen_app, <- X2, zlen_app; lia).
      assert (zlen p = c6 + zlen r3); [|lia]. rewrite Pp, Er2, X1, !zlen_app. lia.
    + rewrite <- app_assoc, <- Er2, <- Pp in X. lia.
Qed.

Lemma Overwinter_cut_accepted name net t : get_network name = Ok net -> overwinter_obj H net t -> parsable_parts name (ow_tx_ins t) (ow_tx_outs t) ->
  ow_tx_ins t <> [] ->
  exists t', OverwinterTx_from_bytes H net (ow_head t) = Ok t' /\ overwinter_obj H net t' /\ map the_input (ow_tx_ins t') = map the_input (ow_tx_ins t) /\
    ow_tx_outs t' = ow_tx_outs t /\ ow_lock_time t' = ow_lock_time t /\ ow_expiry_height t' = ow_expiry_height t /\ ow_tx_joinsplits t' = [].
Proof.
  intros En O P N. apply overwinter_obj_iff in O. destruct O as [Fi [Fo [Fj [A _]]]].
  unfold ow_args_ok in A. rewrite !andb_true_iff in A. destruct A as [[[[[[[[[[A1 A2] A3] A4] A5] A6] A7] A8] A9] A10] A11].
  destruct (parts_ready name net _ _ En P Fi Fo) as [R1 [R2 [Ri [Lo [ins' [F2 [SI Fi']]]]]]]. destruct (same_inputs _ _ SI) as [S1 [S2 S3]].
  set (bs := ow_head t).
  assert (bs = overwinter_header ++ compactsize (zlen (ow_tx_ins t)) ++ concat (map ti_bytes (ow_tx_ins t)) ++ compactsize (zlen (ow_tx_outs t)) ++ concat (map to_bytes_ (ow_tx_outs t))
    ++ ow_lock_time t ++ ow_expiry_height t) as Eb.
  { unfold bs, ow_head. rewrite (inputs_wire_bytes _ Fi), (outputs_wire_bytes _ Fo), <- !app_assoc. reflexivity. }
  destruct (tx_parse_prefix name net overwinter_header (ow_tx_ins t) (ow_tx_outs t) ins' 8 (ow_lock_time t ++ ow_expiry_height t) En F2 Fi Fo Lo) with (bs := bs)
    as [X1 [X2 [X3 [X4 [pre [X5 X6]]]]]]; [assumption|assumption|lia|lia|reflexivity|exact Eb|].
  assert (ow_args_ok net ins' (ow_tx_outs t) (ow_lock_time t) (ow_expiry_height t) [] None None = true) as A'.
  { unfold ow_args_ok. rewrite A1, A2, A3, A4, A5, S3, A9, A10. cbn [zlen length Z.of_nat Z.leb Z.compare Z.eqb orb andb].
    destruct (Z.eqb_spec (zlen (ow_tx_ins t)) 0) as [Z0|_]; [apply zlen_0 in Z0; contradiction|]. cbn [negb andb].
    apply Z.leb_le. apply Z.leb_le in A11. unfold ow_body, transparent in *. rewrite S2, S3. rewrite !zlen_app in *.
    pose proof (zlen_compactsize_pos (zlen (ow_tx_joinsplits t))). change (zlen (compactsize (zlen (@nil sprout_joinsplit)))) with 1.
    cbn [zlen length Z.of_nat Z.eqb]. rewrite ?zlen_nil.
    match type of A11 with context [if ?b then ?x else ?y] => pose proof (zlen_nonneg (if b then x else y)) end. unfold zlen in *. cbn [length] in *. lia. }
  exists (ow_of H net ins' (ow_tx_outs t) (ow_lock_time t) (ow_expiry_height t) [] None None). split; [|split; [|split; [exact S1|]]].
  - unfold OverwinterTx_from_bytes.
    replace (slice bs 0 4) with [3; 0; 0; 0x80] by (unfold bs, ow_head; symmetry; apply (slice_app [] [3; 0; 0; 0x80] _ 0 4); reflexivity).
    replace (slice bs 4 8) with [0x70; 0x82; 0xc4; 0x03] by (unfold bs, ow_head; symmetry; apply (slice_app [3; 0; 0; 0x80] [0x70; 0x82; 0xc4; 0x03] _ 4 8); reflexivity).
    rewrite !leqb_refl. cbv [guard negb orb]. cbn [bind].
    rewrite X1. cbn [bind vi_number vi_bytes]. rewrite X2. cbn [bind]. rewrite X3. cbn [bind vi_number vi_bytes]. rewrite X4. cbn [bind].
    set (c4 := 8 + _ + _ + _ + _) in *.
    assert (slice bs c4 (c4 + 4) = ow_lock_time t) as -> by (rewrite X5; apply slice_app; lia).
    assert (slice bs (c4 + 4) (c4 + 4 + 4) = ow_expiry_height t) as ->.
    { rewrite X5, app_assoc. rewrite <- (app_nil_r (ow_expiry_height t)) at 1. apply slice_app; rewrite ?zlen_app; lia. }
    assert (zlen bs = c4 + 4 + 4) as Lb by (rewrite X5, !zlen_app; lia).
    destruct (Z.eqb_spec (c4 + 4 + 4) (zlen bs)) as [_|X]; [|lia]. cbn [bind]. apply OverwinterTx_Ok. split; [exact A'|reflexivity].
  - apply overwinter_obj_iff. cbn [ow_of ow_tx_ins ow_tx_outs ow_lock_time ow_expiry_height ow_tx_joinsplits ow_joinsplit_pubkey ow_joinsplit_sig].
    split; [exact Fi'|]. split; [exact Fo|]. split; [constructor|]. split; [exact A'|reflexivity].
  - repeat split.
Qed.
End Tx.

Section Tx2.
Context (H : hashes).

(** * Sapling *)

Lemma Sapling_inv net p t' : SaplingTx_from_bytes H net p = Ok t' ->
  exists v1 is c2 v2 os c4 v3 sp c5 v4 so c6 v5 js c7,
    VarInt_from_bytes net (slice_from p 8) = Ok v1 /\
    read_many (TxIn_from_bytes net) (fun i => zlen (ti_bytes i)) (S (length p)) p (vi_number v1) (8 + zlen (vi_bytes v1)) = Ok (is, c2) /\
    VarInt_from_bytes net (slice_from p c2) = Ok v2 /\
    read_many (TxOut_from_bytes net) (fun o => zlen (to_bytes_ o)) (S (length p)) p (vi_number v2) (c2 + zlen (vi_bytes v2)) = Ok (os, c4) /\
    VarInt_from_bytes net (slice_from p (c4 + 4 + 4 + 8)) = Ok v3 /\
    read_many (SaplingShieldedSpend_from_bytes net) (fun s => zlen (ss_bytes s)) (S (length p)) p (vi_number v3) (c4 + 4 + 4 + 8 + zlen (vi_bytes v3)) = Ok (sp, c5) /\
    VarInt_from_bytes net (slice_from p c5) = Ok v4 /\
    read_many (SaplingShieldedOutput_from_bytes net) (fun s => zlen (so_bytes s)) (S (length p)) p (vi_number v4) (c5 + zlen (vi_bytes v4)) = Ok (so, c6) /\
    VarInt_from_bytes net (slice_from p c6) = Ok v5 /\
    read_many (SaplingJoinsplit_from_bytes net) (fun j => zlen (js_bytes j)) (S (length p)) p (vi_number v5) (c6 + zlen (vi_bytes v2)) = Ok (js, c7) /\
    (let '(pk, sg, c) := if 0 <? zlen js
       then (Some (slice p c7 (c7 + 32)), Some (slice p (c7 + 32) (c7 + 32 + 64)), c7 + 32 + 64) else (None, None, c7) in
     SaplingTx H net is os (slice p c4 (c4 + 4)) (slice p (c4 + 4) (c4 + 4 + 4)) (slice p (c4 + 4 + 4) (c4 + 4 + 4 + 8)) (Some sp) (Some so) (Some js) pk sg
       (if 0 <? zlen sp + zlen so then Some (slice p c (c + 64)) else None)) = Ok t'.
Proof.
  unfold SaplingTx_from_bytes. intros E. apply bind_Ok in E. destruct E as [u [_ E]].
  apply bind_Ok in E. destruct E as [v1 [V1 E]]. apply bind_Ok in E. destruct E as [[is c2] [R1 E]].
  apply bind_Ok in E. destruct E as [v2 [V2 E]]. apply bind_Ok in E. destruct E as [[os c4] [R2 E]].
  apply bind_Ok in E. destruct E as [v3 [V3 E]]. apply bind_Ok in E. destruct E as [[sp c5] [R3 E]].
  apply bind_Ok in E. destruct E as [v4 [V4 E]]. apply bind_Ok in E. destruct E as [[so c6] [R4 E]].
  apply bind_Ok in E. destruct E as [v5 [V5 E]]. apply bind_Ok in E. destruct E as [[js c7] [R5 E]].
  exists v1, is, c2, v2, os, c4, v3, sp, c5, v4, so, c6, v5, js, c7. auto 20.
Qed.

(* Sapling: every cut is refused *)
Lemma Sapling_cut name net t p q t' : get_network name = Ok net -> sapling_obj H net t -> parsable_parts name (sa_tx_ins t) (sa_tx_outs t) ->
  readable_size name (count (sa_tx_shielded_spends t)) ->
  zlen (sa_tx_outs t) < 253 \/ sa_tx_joinsplits t = [] /\ sa_tx_shielded_spends t = [] /\ sa_tx_shielded_outputs t = [] ->
  q <> [] -> sa_bytes t = p ++ q -> SaplingTx_from_bytes H net p = Ok t' -> False.
Proof.
  intros En O P Rs C Q E T. pose proof (sapling_keys H net t O) as [K1 [K2 [K3 K4]]]. pose proof (sapling_sizes H net t O) as [Z1 Z2].
  rewrite (sapling_bytes H net t O) in E. unfold sapling_wire, sapling_layout, joinsplits_wire in E.
  apply sapling_obj_iff in O. destruct O as [Fi [Fo [Fs [Fu [Fj [A _]]]]]].
  rewrite (inputs_wire_bytes _ Fi), (outputs_wire_bytes _ Fo), (spends_wire_bytes net _ Fs), (souts_wire_bytes net _ Fu), (sjs_wire_bytes net _ Fj) in E.
  unfold sa_args_ok in A. rewrite !andb_true_iff in A.
  destruct A as [[[[[[[[[[[[[[[A1 A2] A3] A4] A5] A6] A7] A8] A9] A10] A11] A12] A13] A14] A15] A16].
  apply Z.eqb_eq in A3, A4, A5. apply Z.leb_le in A9, A16.
  destruct (parts_ready name net _ _ En P Fi Fo) as [R1 [R2 [Ri [Lo [ins' [F2 [SI _]]]]]]]. destruct (same_inputs _ _ SI) as [_ [_ S3]].
  apply (readable_spec name net _ En) in Rs. change (count (sa_tx_shielded_spends t)) with (zlen (sa_tx_shielded_spends t)) in Rs.
  assert (zlen (sa_tx_ins t) < 2 ^ 16 /\ zlen (sa_tx_outs t) < 2 ^ 16) as [N1 N2].
  { unfold sa_body, transparent in A16. rewrite !zlen_app in A16.
    repeat match type of A16 with context [zlen ?x] => lazymatch goal with _ : 0 <= zlen x |- _ => fail | _ => pose proof (zlen_nonneg x) end end.
    apply transparent_counts; try assumption; lia. }
  rewrite <- !app_assoc in E. symmetry in E.
  set (sp0 := sa_tx_shielded_spends t) in *. set (so0 := sa_tx_shielded_outputs t) in *. set (js0 := sa_tx_joinsplits t) in *.
  set (sigs := opt (sa_joinsplit_pubkey t) ++ opt (sa_joinsplit_sig t) ++ opt (sa_binding_sig t)) in *.
  match type of E with _ = _ ++ _ ++ _ ++ _ ++ _ ++ ?x => set (tail := x) in * end.
  apply Sapling_inv in T. destruct T as [v1 [is [c2 [v2 [os [c4 [v3 [sp [c5 [v4 [so [c6 [v5 [js [c7 [V1 [I1 [V2 [I2 [V3 [I3 [V4 [I4 [V5 [I5 T]]]]]]]]]]]]]]]]]]]]]]]]].
  pose proof (VarInt_read_shape _ _ _ V1) as [_ [B1 _]]. pose proof (VarInt_read_shape _ _ _ V2) as [_ [B2 _]].
  pose proof (VarInt_read_shape _ _ _ V3) as [_ [B3 B3']]. pose proof (VarInt_read_shape _ _ _ V4) as [_ [B4 B4']]. pose proof (VarInt_read_shape _ _ _ V5) as [_ [B5 B5']].
  assert (0 <= c4 /\ c4 + 17 <= c5 /\ c5 + 1 <= c6) as [C4 [C5 C6]].
  { apply read_many_forward in I1; [|intros; apply zlen_nonneg]. apply read_many_forward in I2; [|intros; apply zlen_nonneg].
    apply read_many_forward in I3; [|intros; apply zlen_nonneg]. apply read_many_forward in I4; [|intros; apply zlen_nonneg]. lia. }
  rewrite zlen_slice_from in B3', B4', B5' by lia.
  destruct (vecs_cut name net sapling_header (sa_tx_ins t) (sa_tx_outs t) ins' 8 tail p q (S (length p)) v1 v2 is c2 os c4 En F2 Fi Ri Fo Lo R1 R2 N1 N2 eq_refl E V1 I1 V2 I2)
    as [-> [-> [Lv [pre [r [Pp [Et [Hc Ep]]]]]]]]; [lia|].
  assert (zlen p = c4 + zlen r) as Lp by (rewrite Pp, zlen_app; lia).
  set (fix3 := sa_lock_time t ++ sa_expiry_height t ++ sa_value_balance t). assert (zlen fix3 = 16) as Lf by (unfold fix3; rewrite !zlen_app; lia).
  assert (tail = fix3 ++ compactsize (zlen sp0) ++ concat (map ss_bytes sp0) ++ compactsize (zlen so0) ++ concat (map so_bytes so0) ++ compactsize (zlen js0) ++ concat (map js_bytes js0) ++ sigs) as Et'.
  { unfold tail, fix3, sigs. rewrite <- !app_assoc. reflexivity. }
  rewrite Et in Et'. clear Et. apply long_prefix in Et'; [|lia]. destruct Et' as [r0 [Er Et]].
  rewrite Er, app_assoc in Pp. set (p0 := pre ++ fix3) in *. assert (zlen p0 = c4 + 4 + 4 + 8) as L0 by (unfold p0; rewrite zlen_app; lia).
  (* the spends *)
  destruct (vec_cut net (SaplingShieldedSpend_from_bytes net) (fun s => zlen (ss_bytes s)) ss_bytes sp0 sp0) with (fuel := S (length p)) (pre := p0) (r := r0) (q := q)
    (tail := compactsize (zlen so0) ++ concat (map so_bytes so0) ++ compactsize (zlen js0) ++ concat (map js_bytes js0) ++ sigs) (p := p) (c := c4 + 4 + 4 + 8) (v := v3) (zs := sp) (c' := c5)
    as [[r1 [P1 [E1 [-> [Hc5 _]]]]]|X].
  { apply Forall2_refl_in. intros x I. rewrite Forall_forall in Fs. split; [|reflexivity]. intros rr. apply spend_parse, Fs, I. }
  { intros; apply zlen_nonneg. }
  { intros x q' s' y I S' E' Y'. rewrite Forall_forall in Fs. apply (fixed_cut (SaplingShieldedSpend_from_bytes net) ss_bytes 384 (spend_needs net) x (spend_len net x (Fs x I)) q' s' y S' E' Y'). }
  { exact Z2. } { exact Rs. } { exact Pp. } { symmetry; exact L0. } { symmetry; exact Et. } { exact V3. } { exact I3. }
  2: { lia. }
  rewrite P1, !app_assoc in Pp. set (p1 := (p0 ++ compactsize (zlen sp0)) ++ concat (map ss_bytes sp0)) in *.
  assert (zlen p1 = c5) as L1 by (unfold p1; rewrite !zlen_app; lia).
  (* the outputs *)
  destruct (vec_cut net (SaplingShieldedOutput_from_bytes net) (fun s => zlen (so_bytes s)) so_bytes so0 so0) with (fuel := S (length p)) (pre := p1) (r := r1) (q := q)
    (tail := compactsize (zlen js0) ++ concat (map js_bytes js0) ++ sigs) (p := p) (c := c5) (v := v4) (zs := so) (c' := c6)
    as [[r2 [P2 [E2 [-> [Hc6 _]]]]]|X].
  { apply Forall2_refl_in. intros x I. rewrite Forall_forall in Fu. split; [|reflexivity]. intros rr. apply shielded_output_parse, Fu, I. }
  { intros; apply zlen_nonneg. }
  { intros x q' s' y I S' E' Y'. rewrite Forall_forall in Fu. apply (fixed_cut (SaplingShieldedOutput_from_bytes net) so_bytes 948 (sout_needs net) x (sout_len net x (Fu x I)) q' s' y S' E' Y'). }
  { change (2 ^ 16) with 65536. lia. } { apply readable_small. lia. } { exact Pp. } { symmetry; exact L1. } { symmetry; exact E1. } { exact V4. } { exact I4. }
  2: { rewrite slice_beyond in V5 by lia. discriminate V5. }
  rewrite P2, !app_assoc in Pp. set (p2 := (p1 ++ compactsize (zlen so0)) ++ concat (map so_bytes so0)) in *.
  assert (zlen p2 = c6) as L2 by (unfold p2; rewrite !zlen_app; lia).
  (* the number of JoinSplits *)
  pose proof (zlen_nonneg js0) as Zj. pose proof (small_compact (zlen js0) (conj Zj A9)) as Cs.
  assert (zlen p = c6 + zlen r2) as Lp2 by (rewrite Pp, zlen_app; lia).
  symmetry in E2. apply long_prefix in E2; [|lia]. destruct E2 as [r3 [Er3 E3]].
  rewrite Pp, slice_from_app, Er3 in V5 by exact L2. rewrite VarInt_roundtrip in V5 by (try (apply readable_small; lia); lia).
  apply Ok_inj in V5. subst v5. cbn [vi_number vi_bytes] in *.
  assert (zlen (sigs) = (if 0 <? zlen js0 then 96 else 0) + (if 0 <? zlen sp0 + zlen so0 then 64 else 0)) as Lsig.
  { unfold sigs. rewrite !zlen_app. pose proof (zlen_nonneg sp0). pose proof (zlen_nonneg so0).
    assert (zlen (opt (sa_joinsplit_pubkey t)) + zlen (opt (sa_joinsplit_sig t)) = (if 0 <? zlen js0 then 96 else 0)) as X1.
    { destruct (Z.ltb_spec 0 (zlen js0)) as [J|J].
      - destruct K2 as [pk [sg [-> [-> [Lk Ls]]]]]; [intros X; apply (f_equal zlen) in X; change (zlen js0 = 0) in X; lia|]. cbn [opt]. lia.
      - destruct K1 as [-> ->]; [apply zlen_0; lia|]. reflexivity. }
    assert (zlen (opt (sa_binding_sig t)) = (if 0 <? zlen sp0 + zlen so0 then 64 else 0)) as X2.
    { destruct (Z.ltb_spec 0 (zlen sp0 + zlen so0)) as [J|J].
      - destruct K4 as [b [-> Lb]]; [intros [X X']; apply (f_equal zlen) in X, X'; change (zlen sp0 = 0) in X; change (zlen so0 = 0) in X'; lia|]. exact Lb.
      - rewrite K3; [reflexivity|split; apply zlen_0; lia]. }
    lia. }
  apply zlen_pos in Q.
  assert (zlen r3 + zlen q = zlen (concat (map js_bytes js0)) + zlen sigs) as Lr by (rewrite <- zlen_app, <- E3, zlen_app; reflexivity).
  assert (zlen p = c6 + 1 + zlen r3) as Lp3 by (rewrite Lp2, Er3, zlen_app; lia).
  destruct C as [C|[C1 [C2 C3]]].
  2: { rewrite C1, C2, C3 in *. cbn in Lr, Lsig. pose proof (zlen_nonneg r3). rewrite Lsig in Lr. lia. }
  assert (zlen (compactsize (zlen (sa_tx_outs t))) = 1) as Co. { rewrite zlen_compactsize. destruct (Z.ltb_spec (zlen (sa_tx_outs t)) 253); lia. }
  pose proof (read_many_shape _ _ _ _ _ _ _ _ I5) as [Lz [Cz _]]. rewrite Z.max_r in Lz by lia. rewrite Lz in T.
  assert (0 <= c7) as Zc by (rewrite sum_zlen in Cz; rewrite Cz; match goal with |- context [concat ?l] => pose proof (zlen_nonneg (concat l)) end; lia).
  (* the JoinSplits *)
  assert (zlen p <= c7 \/ c7 = c6 + 1 + zlen (concat (map js_bytes js0))) as H7.
  { destruct (read_many_cut (SaplingJoinsplit_from_bytes net) (fun j => zlen (js_bytes j)) js_bytes 0 js0 js0) with (fuel := S (length p)) (pre := p2 ++ compactsize (zlen js0)) (r := r3) (q := q)
      (tail := sigs) (n := zlen js0) (c := c6 + zlen (vi_bytes v2)) (zs := js) (c' := c7) as [[r4 [X1 [X2 [X3 X4]]]]|X].
    { apply Forall2_refl_in. intros x I. rewrite Forall_forall in Fj. split; [|reflexivity]. intros rr. apply sapling_joinsplit_parse, Fj, I. }
    { intros; apply zlen_nonneg. }
    { intros x q' s' y I S' E' Y'. rewrite Forall_forall in Fj. apply (fixed_cut (SaplingJoinsplit_from_bytes net) js_bytes 1698 (sapling_js_needs net) x (sjs_len net x (Fj x I)) q' s' y S' E' Y'). }
    { reflexivity. } { rewrite zlen_app. lia. } { symmetry. exact E3. } { rewrite <- I5. f_equal. rewrite Pp, Er3, <- !app_assoc. reflexivity. }
    - right. lia.
    - left. rewrite <- app_assoc, <- Er3, <- Pp in X. lia. }
  destruct (Z.ltb_spec 0 (zlen js0)) as [J|J]; apply SaplingTx_Ok in T; destruct T as [T _]; unfold sa_args_ok in T; rewrite !andb_true_iff in T;
    destruct T as [[[[[[[[[[[[[[[_ _] _] _] _] _] _] T8] _] T10] _] _] _] _] _] _].
  - rewrite Lz in T10. destruct (Z.eqb_spec (zlen js0) 0) as [X|_]; [lia|]. cbn [orb] in T10. apply andb_true_iff in T10. destruct T10 as [T1 T2]. cbn [wopt] in T1, T2.
    apply Z.eqb_eq in T1, T2. apply slice_width in T1; [|lia..]. apply slice_width in T2; [|lia..].
    destruct (Z.ltb_spec 0 (zlen sp0 + zlen so0)) as [K|K]; [|lia].
    cbn [sa_binding] in T8. apply Z.eqb_eq in T8. apply slice_width in T8; lia.
  - assert (js0 = []) as J0 by (apply zlen_0; lia). rewrite J0 in *. cbn [map concat] in *. rewrite zlen_nil in Lr, H7.
    destruct (Z.ltb_spec 0 (zlen sp0 + zlen so0)) as [K|K]; [|pose proof (zlen_nonneg r3); lia].
    cbn [sa_binding] in T8. apply Z.eqb_eq in T8. apply slice_width in T8; lia.
Qed.

(** * Sprout *)

Lemma Sprout_inv net p t' : SproutTx_from_bytes H net p = Ok t' ->
  exists v1 is c2 v2 os c4 js pk sg,
    VarInt_from_bytes net (slice_from p 4) = Ok v1 /\
    read_many (TxIn_from_bytes net) (fun i => zlen (ti_bytes i)) (S (length p)) p (vi_number v1) (4 + zlen (vi_bytes v1)) = Ok (is, c2) /\
    VarInt_from_bytes net (slice_from p c2) = Ok v2 /\
    read_many (TxOut_from_bytes net) (fun o => zlen (to_bytes_ o)) (S (length p)) p (vi_number v2) (c2 + zlen (vi_bytes v2)) = Ok (os, c4) /\
    (if le2i (slice p 0 4) false =? 2
     then num <- VarInt_from_bytes net (slice_from p (c4 + 4)) ;;
          ' (js, current) <- read_many (SproutJoinsplit_from_bytes net) (fun j => zlen (js_bytes j)) (S (length p)) p (vi_number num) (c4 + 4 + zlen (vi_bytes num)) ;;
          Ok (Some js, Some (slice p current (current + 32)), Some (slice p (current + 32) (current + 32 + 64)))
     else Ok (None, None, None)) = Ok (js, pk, sg) /\
    SproutTx H net (Some (slice p 0 4)) is os (slice p c4 (c4 + 4)) js pk sg = Ok t'.
Proof.
  unfold SproutTx_from_bytes. intros E.
  apply bind_Ok in E. destruct E as [v1 [V1 E]]. apply bind_Ok in E. destruct E as [[is c2] [R1 E]].
  apply bind_Ok in E. destruct E as [v2 [V2 E]]. apply bind_Ok in E. destruct E as [[os c4] [R2 E]].
  apply bind_Ok in E. destruct E as [[[js pk] sg] [R3 E]].
  exists v1, is, c2, v2, os, c4, js, pk, sg. auto 10.
Qed.

(* what is left without the signature *)
Lemma Sprout_cut name net t p q t' : get_network name = Ok net -> sprout_obj H net t -> parsable_parts name (sp_tx_ins t) (sp_tx_outs t) ->
  q <> [] -> sp_bytes t = p ++ q -> SproutTx_from_bytes H net p = Ok t' -> sp_joinsplit_sig t = Some q /\ zlen q = 64 /\ le_value (sp_version t) = 2.
Proof.
  intros En O P Q E T. pose proof (sprout_version H net t O) as V.
  rewrite (sprout_bytes H net t O) in E. unfold sprout_wire, sprout_layout in E.
  apply sprout_obj_iff in O. destruct O as [js0 [Bv [Fi [Fo [J0 [Fj [A _]]]]]]].
  rewrite (inputs_wire_bytes _ Fi), (outputs_wire_bytes _ Fo) in E. apply zlen_pos in Q.
  unfold sp_args_ok in A. rewrite !andb_true_iff in A. destruct A as [[[[[[A1 A2] A3] _] A5] A6] A7].
  apply Z.eqb_eq in A3. apply Z.leb_le in A7.
  destruct (parts_ready name net _ _ En P Fi Fo) as [R1 [R2 [Ri [Lo [ins' [F2 [SI _]]]]]]].
  assert (zlen (sp_tx_ins t) < 2 ^ 16 /\ zlen (sp_tx_outs t) < 2 ^ 16) as [N1 N2].
  { unfold sp_body, transparent in A7. rewrite !zlen_app in A7.
    repeat match type of A7 with context [zlen ?x] => lazymatch goal with _ : 0 <= zlen x |- _ => fail | _ => pose proof (zlen_nonneg x) end end.
    apply transparent_counts; try assumption; lia. }
  rewrite <- !app_assoc in E. symmetry in E.
  match type of E with _ = _ ++ _ ++ _ ++ _ ++ _ ++ ?x => set (tail := x) in * end.
  apply Sprout_inv in T. destruct T as [v1 [is [c2 [v2 [os [c4 [js [pk [sg [W1 [I1 [W2 [I2 [J T]]]]]]]]]]]]]].
  pose proof (VarInt_read_shape _ _ _ W1) as [_ [B1 B1']]. pose proof (VarInt_read_shape _ _ _ W2) as [_ [B2 _]]. rewrite zlen_slice_from in B1' by lia.
  assert (0 <= c4) as C4.
  { apply read_many_forward in I1; [|intros; apply zlen_nonneg]. apply read_many_forward in I2; [|intros; apply zlen_nonneg]. lia. }
  assert (zlen (sp_version t) = 4) as L4 by (destruct V as [[-> _]|[-> _]]; reflexivity).
  assert (slice p 0 4 = sp_version t) as Sv.
  { destruct (long_prefix p q _ _ E) as [r [-> _]]; [lia|]. apply (slice_app [] (sp_version t) r 0 4); [reflexivity|]. lia. }
  rewrite Sv in J, T.
  destruct V as [[V _]|[V [js1 [pk0 [sg0 [J1 [L5 [Kk [Lk [Ks Ls]]]]]]]]]].
  { rewrite V in J. exfalso. assert (le2i LSprout.v1 false =? 2 = false) as X by reflexivity. rewrite X in J. apply Ok_inj in J. injection J as <- <- <-.
    destruct (SproutTx_None H net (Some (sp_version t)) is os (slice p c4 (c4 + 4)) None None) as [e X1]. refine (_ (eq_trans (eq_sym X1) T)). discriminate. }
  rewrite J0 in J1. injection J1 as <-. 
  assert (le2i (sp_version t) false =? 2 = true) as X by (rewrite V; reflexivity). rewrite X in J. clear X.
  apply bind_Ok in J. destruct J as [num [Vn J]]. apply bind_Ok in J. destruct J as [[js' c6] [RM J]]. apply Ok_inj in J. injection J as <- <- <-.
  apply SproutTx_Ok in T; [|apply all_bytes_is_bytes; exact Bv]. destruct T as [T _]. unfold sp_args_ok in T. rewrite !andb_true_iff in T.
  destruct T as [[[[[[_ _] T3] T4] _] _] _]. apply Z.eqb_eq in T3. apply slice_width in T3; [|lia..].
  unfold sp_version_ok in T4. assert (leqb (sp_version t) LSprout.v1 = false) as X by (rewrite V; reflexivity). rewrite X in T4. clear X.
  rewrite !andb_true_iff in T4. destruct T4 as [[[_ _] T5] T6]. cbn [wopt sp_sig] in T5, T6. apply Z.eqb_eq in T5.
  pose proof (VarInt_read_shape _ _ _ Vn) as [_ [Bn Bn']]. rewrite zlen_slice_from in Bn' by lia.
  assert (c4 + 4 + 1 <= c6) as C6 by (apply read_many_forward in RM; [lia|intros; apply zlen_nonneg]).
  apply slice_width in T5; [|lia..].
  destruct (vecs_cut name net (sp_version t) (sp_tx_ins t) (sp_tx_outs t) ins' 4 tail p q (S (length p)) v1 v2 is c2 os c4 En F2 Fi Ri Fo Lo R1 R2 N1 N2 L4 E W1 I1 W2 I2)
    as [-> [-> [_ [pre [r [Pp [Et [Hc Ep]]]]]]]]; [lia|].
  assert (tail = sp_lock_time t ++ compactsize (zlen js0) ++ concat (map js_bytes js0) ++ pk0 ++ sg0) as Et'.
  { unfold tail. assert (le_value (sp_version t) = 2) as X by (rewrite V; reflexivity). f_equal. unfold joinsplits_wire. rewrite ?X, J0, Kk, Ks. cbn [opts opt Z.eqb Pos.eqb].
    rewrite (js_wire_bytes net _ Fj), <- !app_assoc. reflexivity. }
  assert (zlen p = c4 + zlen r) as Lp by (rewrite Pp, zlen_app; lia).
  rewrite Et in Et'. clear Et. apply long_prefix in Et'; [|lia]. destruct Et' as [r0 [Er Et]].
  rewrite Er, app_assoc in Pp. set (p0 := pre ++ sp_lock_time t) in *. assert (zlen p0 = c4 + 4) as L0 by (unfold p0; rewrite zlen_app; lia).
  destruct (vec_cut net (SproutJoinsplit_from_bytes net) (fun j => zlen (js_bytes j)) js_bytes js0 js0) with (fuel := S (length p)) (pre := p0) (r := r0) (q := q)
    (tail := pk0 ++ sg0) (p := p) (c := c4 + 4) (v := num) (zs := js') (c' := c6) as [[r1 [P1 [E1 [-> [Hc6 _]]]]]|X].
  { apply Forall2_refl_in. intros x I. rewrite Forall_forall in Fj. split; [|reflexivity]. intros rr. apply sprout_joinsplit_parse, Fj, I. }
  { intros; apply zlen_nonneg. }
  { intros x q' s' y I S' E' Y'. rewrite Forall_forall in Fj. apply (fixed_cut (SproutJoinsplit_from_bytes net) js_bytes 1802 (sprout_js_needs net) x (js_len net x (Fj x I)) q' s' y S' E' Y'). }
  { exact (Z.le_lt_trans _ _ _ L5 (eq_refl : 5 < 65536)). } { apply readable_small. exact (Z.le_lt_trans _ _ _ L5 (eq_refl : 5 < 253)). } { exact Pp. } { symmetry; exact L0. } { symmetry; exact Et. } { exact Vn. } { exact RM. }
  2: { exfalso. lia. }
  assert (zlen p = c6 + zlen r1) as Lp1 by (rewrite Pp, P1, !zlen_app; lia).
  symmetry in E1. apply long_prefix in E1; [|lia]. destruct E1 as [r2 [Er2 E2]].
  assert (zlen sg0 = zlen r2 + zlen q) as Lq by (rewrite E2, zlen_app; reflexivity).
  rewrite Er2, zlen_app in Lp1. pose proof (zlen_nonneg r2) as Zr.
  destruct Ls as [->|Ls]; [rewrite zlen_nil in Lq; lia|].
  apply orb_true_iff in T6. destruct T6 as [T6|T6].
  - destruct (leqb_spec (slice p (c6 + 32) (c6 + 32 + 64)) []) as [X|X]; [|discriminate].
    apply (f_equal zlen) in X. rewrite zlen_nil, zlen_slice in X by lia.
    assert (r2 = []) as -> by (apply zlen_0; lia). cbn [app] in E2. subst sg0. rewrite zlen_nil in Lq.
    split; [exact Ks|]. split; [lia|]. rewrite V. reflexivity.
  - exfalso. apply Z.eqb_eq in T6. apply slice_width in T6; lia.
Qed.

Lemma Sprout_cut_accepted name net t p q : get_network name = Ok net -> sprout_obj H net t -> parsable_parts name (sp_tx_ins t) (sp_tx_outs t) ->
  sp_joinsplit_sig t = Some q -> q <> [] -> sp_bytes t = p ++ q ->
  exists t', SproutTx_from_bytes H net p = Ok t' /\ sprout_obj H net t' /\ sp_bytes t' = p /\ sp_version t' = sp_version t /\
    map the_input (sp_tx_ins t') = map the_input (sp_tx_ins t) /\ sp_tx_outs t' = sp_tx_outs t /\ sp_lock_time t' = sp_lock_time t /\
    sp_tx_joinsplits t' = sp_tx_joinsplits t /\ sp_joinsplit_pubkey t' = sp_joinsplit_pubkey t /\ sp_joinsplit_sig t' = Some [].
Proof.
  intros En O P Sg Q E. pose proof (sprout_version H net t O) as V.
  destruct V as [[_ [_ [_ V]]]|[V [js [pk [sg [J1 [L5 [Kk [Lk [Ks Ls]]]]]]]]]]; [congruence|].
  rewrite Sg in Ks. injection Ks as <-. destruct Ls as [Ls|Ls]; [contradiction|].
  pose proof O as O'. apply sprout_obj_iff in O'. destruct O' as [js0 [Bv [Fi [Fo [J0 [Fj [A Et]]]]]]]. rewrite J1 in J0. injection J0 as <-.
  assert (sp_args_ok net (sp_version t) (sp_tx_ins t) (sp_tx_outs t) (sp_lock_time t) js (Some pk) (Some []) = true) as A'.
  { unfold sp_args_ok in *. rewrite Kk, Sg in A. rewrite !andb_true_iff in *. destruct A as [[[[[[A1 A2] A3] A4] A5] A6] A7].
    repeat match goal with |- _ /\ _ => split end; try assumption.
    - unfold sp_version_ok in *. rewrite V in *. change (leqb v2 LSprout.v1) with false in *. cbn iota in *. rewrite !andb_true_iff in *. destruct A4 as [[[X1 X2] X3] _]. auto.
    - apply Z.leb_le. apply Z.leb_le in A7. unfold sp_body in *. rewrite V in *. change (leqb v2 v2) with true in *. cbn iota in *. cbn [opt] in *. rewrite !zlen_app in *.
      rewrite ?zlen_nil. lia. }
  set (t1 := sp_of H net (sp_version t) (sp_tx_ins t) (sp_tx_outs t) (sp_lock_time t) js (Some pk) (Some [])).
  assert (sprout_obj H net t1) as O1.
  { apply sprout_obj_iff. exists js. unfold t1. cbn [sp_of sp_version sp_tx_ins sp_tx_outs sp_lock_time sp_tx_joinsplits sp_joinsplit_pubkey sp_joinsplit_sig].
    assert (leqb (sp_version t) v2 = true) as X by (rewrite V; reflexivity). rewrite X. auto 10. }
  assert (sp_bytes t1 = p) as B1.
  { apply (f_equal sp_bytes) in Et. rewrite E, Kk, Sg in Et. unfold t1. cbn [sp_of sp_bytes] in *. unfold sp_body in *. rewrite V in *. change (leqb v2 v2) with true in *. cbn iota in *. cbn [opt] in *.
    rewrite !app_assoc in Et. apply app_inv_tail in Et. rewrite Et, <- !app_assoc, app_nil_r. reflexivity. }
  destruct (sprout_parse H net name t1 [] En O1) as [t' [T' [O' S']]].
  { unfold t1. exact P. } { unfold t1. cbn [sp_of sp_version]. rewrite V. reflexivity. } { auto. }
  rewrite app_nil_r, B1 in T'. exists t'. split; [exact T'|]. split; [exact O'|].
  destruct S' as [S1 [S2 [S3 [S4 [S5 [S6 [S7 [S8 [S9 _]]]]]]]]].
  rewrite S1, S3, S4, S5, S6, S7, S8, S9. unfold t1. cbn [sp_of sp_version sp_tx_ins sp_tx_outs sp_lock_time sp_tx_joinsplits sp_joinsplit_pubkey sp_joinsplit_sig].
  assert (leqb (sp_version t) v2 = true) as X by (rewrite V; reflexivity). rewrite X. rewrite J1, Kk. repeat split. exact B1.
Qed.
End Tx2.
