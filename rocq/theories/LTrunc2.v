(* Lemmas about MTx.v: truncated witnesses with long items *)
From Coq Require Import String.
From Verif Require Import Py LBase MNet MUtils MShared MScript MTx SNum SNet SScript STx STrunc LNet LUtils LVarint LScript LBase58 LTx LTxParse LTrunc.
Open Scope list_scope.
Open Scope Z_scope.
Ltac Zify.zify_post_hook ::= idtac.

(* As read_many_cut: when a truncated object leaves at most three bytes unread, or four
   and then the cut satisfies C, the whole loop leaves at most three, or it ends with
   an object that is cut so. *)
Lemma read_many_cut4 {A X} (fb : bytes -> res A) size (w : X -> bytes) (C : X -> bytes -> Prop) xs ys :
  Forall2 (fun x y => (forall r, fb (w x ++ r) = Ok y) /\ size y = zlen (w x)) xs ys ->
  (forall b y, fb b = Ok y -> 1 <= size y) ->
  (forall x q s y, In x xs -> s <> [] -> w x = q ++ s -> fb q = Ok y -> zlen q - 3 <= size y \/ (zlen q - 4 <= size y /\ C x q)) ->
  forall fuel pre r q tail n c zs c', n = zlen xs -> c = zlen pre -> r ++ q = concat (map w xs) ++ tail ->
  read_many fb size fuel (pre ++ r) n c = Ok (zs, c') ->
  (exists r', r = concat (map w xs) ++ r' /\ tail = r' ++ q /\ zs = ys /\ c' = c + zlen (concat (map w xs))) \/
  zlen (pre ++ r) - 3 <= c' \/
  (zlen (pre ++ r) - 4 <= c' /\ exists xs0 x q0, xs = xs0 ++ [x] /\ r = concat (map w xs0) ++ q0 /\ C x q0).
Proof.
  intros F G. induction F as [|x y xs ys [P S] F IH]; intros D fuel pre r q tail n c zs c' Hn Hc Hr E.
  - left. rewrite zlen_nil in Hn. rewrite read_many_done in E by lia. apply Ok_inj in E. injection E as <- <-.
    cbn [map concat] in *. exists r. cbn [app]. rewrite zlen_nil. repeat split; [symmetry; exact Hr|lia].
  - rewrite zlen_cons in Hn. pose proof (zlen_nonneg xs) as Zx.
    destruct fuel as [|fuel]; [cbn [read_many] in E; destruct (Z.leb_spec n 0); [lia|discriminate]|].
    rewrite read_many_step in E by lia. rewrite slice_from_app in E by (symmetry; exact Hc).
    cbn [map concat] in *. rewrite <- app_assoc in Hr.
    assert (forall l, r = w x ++ l -> concat (map w xs) ++ tail = l ++ q ->
      (exists r', r = (w x ++ concat (map w xs)) ++ r' /\ tail = r' ++ q /\ zs = y :: ys /\ c' = c + zlen (w x ++ concat (map w xs))) \/
      zlen (pre ++ r) - 3 <= c' \/
      (zlen (pre ++ r) - 4 <= c' /\ exists xs0 x0 q0, x :: xs = xs0 ++ [x0] /\ r = concat (map w xs0) ++ q0 /\ C x0 q0)) as Whole.
    { intros l H1 H2. subst r. rewrite P in E. cbn [bind] in E. apply bind_Ok in E. destruct E as [[zs1 c1] [R E]].
      apply Ok_inj in E. injection E as <- <-. rewrite (app_assoc pre) in R.
      destruct (IH (fun x q s y I => D x q s y (or_intror I)) fuel (pre ++ w x) l q tail (n - 1) (c + size y) zs1 c1) as [[r' [E1 [E2 [E3 E4]]]]|[E1|[E1 [xs0 [x0 [q0 [E2 [E3 E4]]]]]]]];
        [lia|rewrite zlen_app; lia|symmetry; exact H2|exact R| | |].
      * left. exists r'. rewrite E1, <- app_assoc, zlen_app. split; [reflexivity|]. split; [exact E2|]. split; [congruence|lia].
      * right. left. rewrite <- app_assoc in E1. exact E1.
      * right. right. rewrite <- app_assoc in E1. split; [exact E1|]. exists (x :: xs0), x0, q0. cbn [map concat app].
        split; [rewrite E2; reflexivity|]. split; [rewrite E3, app_assoc; reflexivity|exact E4]. }
    apply app_eq_app in Hr. destruct Hr as [l [[H1 H2]|[H1 H2]]].
    + exact (Whole l H1 H2).
    + destruct l as [|b l].
      { rewrite app_nil_r in H1. apply (Whole []); [rewrite app_nil_r; congruence|]. cbn [app] in *. congruence. }
      clear Whole. right. apply bind_Ok in E. destruct E as [z [Z1 E]]. apply bind_Ok in E. destruct E as [[zs1 c1] [R E]].
      apply Ok_inj in E. injection E as <- <-.
      assert (zlen r - 3 <= size z \/ (zlen r - 4 <= size z /\ C x r)) as Dz
        by (apply (D x r (b :: l)); [left; reflexivity|discriminate|exact H1|exact Z1]).
      pose proof R as R'. apply read_many_forward in R'; [|intros b' y' B'; specialize (G b' y' B'); lia].
      rewrite zlen_app. destruct Dz as [Dz|[Dz Cx]]; [left; lia|].
      destruct xs as [|x1 xs].
      * right. split; [lia|]. exists [], x, r. cbn [map concat app]. auto.
      * left. rewrite zlen_cons in Hn, Zx. pose proof (zlen_nonneg xs).
        destruct fuel as [|fuel]; [cbn [read_many] in R; destruct (Z.leb_spec (n - 1) 0); [lia|discriminate]|].
        rewrite read_many_step in R by lia. apply bind_Ok in R. destruct R as [z2 [Z2 R]]. apply bind_Ok in R. destruct R as [[zs2 c2] [R E]].
        apply Ok_inj in E. injection E as <- <-. apply G in Z2.
        apply read_many_forward in R; [lia|]. intros b' y' B'. specialize (G b' y' B'). lia.
Qed.

(* reading complete objects, then one that takes all that is left *)
Lemma read_many_last {A X} (fb : bytes -> res A) size (w : X -> bytes) xs ys q z :
  Forall2 (fun x y => (forall r, fb (w x ++ r) = Ok y) /\ size y = zlen (w x)) xs ys -> fb q = Ok z ->
  forall fuel pre n c, (length xs < fuel)%nat -> n = zlen xs + 1 -> c = zlen pre ->
  read_many fb size fuel (pre ++ concat (map w xs) ++ q) n c = Ok (ys ++ [z], c + zlen (concat (map w xs)) + size z).
Proof.
  intros F Q. induction F as [|x y xs ys [P S] F IH]; intros fuel pre n c Hf Hn Hc.
  - cbn [map concat app]. rewrite zlen_nil. rewrite zlen_nil in Hn. destruct fuel as [|fuel]; [cbn [length] in Hf; lia|].
    rewrite read_many_step by lia. rewrite slice_from_app by (symmetry; exact Hc). rewrite Q. cbn [bind].
    rewrite read_many_done by lia. cbn [bind]. rewrite Z.add_0_r. reflexivity.
  - cbn [length] in Hf. destruct fuel as [|fuel]; [lia|]. rewrite zlen_cons in Hn.
    pose proof (zlen_nonneg xs). rewrite read_many_step by lia.
    cbn [map concat]. rewrite <- app_assoc, slice_from_app by (symmetry; exact Hc). rewrite P. cbn [bind].
    rewrite (app_assoc pre). rewrite (IH fuel (pre ++ w x)) by (try (rewrite zlen_app); lia).
    cbn [bind app]. rewrite zlen_app, S, !Z.add_assoc. reflexivity.
Qed.

(** * items *)

Definition item_cut4 (x : witem) (q : bytes) : Prop :=
  2 ^ 16 <= zlen (wi_item x) /\ exists l s, q = compactsize (zlen (wi_item x)) ++ l /\ wi_item x = l ++ s /\ zlen l < 253.

Lemma zlen_compactsize_32 n : 0 <= n < 2 ^ 32 ->
  zlen (compactsize n) <= 5 /\ (4 < zlen (compactsize n) -> 2 ^ 16 <= n) /\ (253 <= n -> 3 <= zlen (compactsize n)) /\ (zlen (compactsize n) = 1 \/ 3 <= zlen (compactsize n)).
Proof.
  intros N. rewrite zlen_compactsize. destruct (Z.ltb_spec n 253); [lia|]. destruct (Z.ltb_spec n (2 ^ 16)); [lia|].
  destruct (Z.ltb_spec n (2 ^ 32)); lia.
Qed.

Lemma Item_size net b y : WitnessStackItem_from_bytes net b = Ok y -> 1 <= zlen (wi_bytes y).
Proof.
  unfold WitnessStackItem_from_bytes. intros E. apply bind_Ok in E. destruct E as [v [_ E]]. rewrite WitnessStackItem_spec in E.
  destruct (_ <? 2 ^ 64) in E; [|discriminate]. apply Ok_inj in E. subst y. cbn [wi_bytes]. rewrite zlen_app.
  match goal with |- context [compactsize ?n] => pose proof (zlen_compactsize_pos n) end.
  match goal with |- context [_ + zlen ?l] => pose proof (zlen_nonneg l) end. lia.
Qed.

(* what is read when the length of an item is complete, but the item is not *)
Lemma Item_rest net n l : 0 <= n < 2 ^ 64 -> readable net n -> zlen l <= n ->
  WitnessStackItem_from_bytes net (compactsize n ++ l) = Ok {| wi_item := l; wi_bytes := compactsize (zlen l) ++ l |}.
Proof.
  intros N R L. unfold WitnessStackItem_from_bytes. rewrite VarInt_roundtrip by (try exact R; lia). cbn [bind vi_number vi_bytes].
  assert (slice (compactsize n ++ l) (zlen (compactsize n)) (zlen (compactsize n) + n) = l) as ->.
  { rewrite slice_skip by (pose proof (zlen_compactsize_pos n); lia).
    rewrite slice_firstn by lia. replace (Z.to_nat (zlen (compactsize n) - zlen (compactsize n))) with 0%nat by lia. cbn [skipn].
    apply firstn_all2. unfold zlen in *. lia. }
  rewrite WitnessStackItem_spec. destruct (Z.ltb_spec (zlen l) (2 ^ 64)); [reflexivity|lia].
Qed.

Lemma Item_cut4 net w q s y : witem_obj w -> zlen (wi_item w) < 2 ^ 32 -> readable net (zlen (wi_item w)) -> s <> [] -> wi_bytes w = q ++ s ->
  WitnessStackItem_from_bytes net q = Ok y -> zlen q - 3 <= zlen (wi_bytes y) \/ (zlen q - 4 <= zlen (wi_bytes y) /\ item_cut4 w q).
Proof.
  intros O L R S E Y. apply witem_obj_iff in O. destruct O as [_ C].
  set (n := zlen (wi_item w)) in *. assert (0 <= n) as N by apply zlen_nonneg.
  destruct (zlen_compactsize_32 n ltac:(lia)) as [L5 [L4 [L3 L2]]].
  rewrite C in E. apply app_eq_app in E. destruct E as [l [[E1 E2]|[E1 E2]]].
  - destruct l as [|b l].
    + rewrite app_nil_r in E1. rewrite <- E1 in *. cbn [app] in E2. subst s.
      rewrite <- (app_nil_r (compactsize n)) in Y. rewrite Item_rest in Y by (try exact R; rewrite ?zlen_nil; lia).
      apply Ok_inj in Y. subst y. cbn [wi_bytes]. rewrite zlen_nil, app_nil_r. change (zlen (compactsize 0)) with 1.
      destruct (Z.ltb_spec 4 (zlen (compactsize n))) as [X|X]; [|left; lia]. right. split; [lia|]. split; [apply L4, X|].
      exists [], (wi_item w). rewrite app_nil_r, zlen_nil. split; [reflexivity|]. split; [reflexivity|lia].
    + left. apply Item_size in Y. assert (zlen (compactsize n) = zlen q + (1 + zlen l)) as X by (rewrite E1, zlen_app, zlen_cons; lia).
      pose proof (zlen_nonneg l). lia.
  - assert (zlen l + zlen s = n) as Ln by (unfold n; rewrite E2, zlen_app; reflexivity).
    pose proof (zlen_nonneg s). pose proof (zlen_nonneg l).
    rewrite E1 in Y. rewrite Item_rest in Y by (try exact R; lia). apply Ok_inj in Y. subst y. cbn [wi_bytes].
    rewrite E1, !zlen_app. destruct (zlen_compactsize_32 (zlen l) ltac:(lia)) as [M5 [M4 [M3 M2]]].
    destruct (Z.ltb_spec 4 (zlen (compactsize n))) as [X|X]; [|left; lia].
    destruct (Z.ltb_spec (zlen l) 253) as [Y|Y]; [|left; lia].
    right. split; [lia|]. split; [apply L4, X|]. exists l, s. auto.
Qed.

(** * witnesses *)

Definition witness_cut4 (w : witness) (q : bytes) : Prop :=
  exists its x q', wit_stack w = its ++ [x] /\ q = compactsize (zlen (wit_stack w)) ++ concat (map wi_bytes its) ++ q' /\ item_cut4 x q'.

Definition medium_witness (w : witness) : Prop := zlen (wit_stack w) < 2 ^ 32 /\ Forall (fun i => zlen (wi_item i) < 2 ^ 32) (wit_stack w).

Lemma Witness_size net b y : InputWitness_from_bytes net b = Ok y -> 1 <= zlen (wit_bytes y).
Proof.
  unfold InputWitness_from_bytes. intros E. apply bind_Ok in E. destruct E as [v [_ E]]. apply bind_Ok in E. destruct E as [[zs c] [_ E]].
  rewrite InputWitness_spec in E.
  destruct (_ <? 2 ^ 64) in E; [|discriminate]. apply Ok_inj in E. subst y. cbn [wit_bytes]. rewrite zlen_app.
  pose proof (zlen_compactsize_pos (zlen zs)). pose proof (zlen_nonneg (concat (map wi_bytes zs))). lia.
Qed.

Lemma Witness_cut4 net w q s y : witness_obj w -> readable_witness net w -> medium_witness w -> s <> [] -> wit_bytes w = q ++ s ->
  InputWitness_from_bytes net q = Ok y -> zlen q - 3 <= zlen (wit_bytes y) \/ (zlen q - 4 <= zlen (wit_bytes y) /\ witness_cut4 w q).
Proof.
  intros O [R1 R2] [M1 M2] S E Y0. pose proof Y0 as Y. apply witness_obj_iff in O. destruct O as [F [_ C]].
  set (n := zlen (wit_stack w)) in *. assert (0 <= n) as N by apply zlen_nonneg.
  destruct (zlen_compactsize_32 n ltac:(lia)) as [L5 _].
  unfold InputWitness_from_bytes in Y. apply bind_Ok in Y. destruct Y as [v [V Y]].
  apply bind_Ok in Y. destruct Y as [[zs c'] [RM Y]]. rewrite InputWitness_spec in Y.
  destruct (zlen zs <? 2 ^ 64) eqn:I64; [|discriminate]. apply Ok_inj in Y. 
  rewrite C in E.
  assert (forall l, q = compactsize n ++ l -> concat (map wi_bytes (wit_stack w)) = l ++ s ->
    zlen q - 3 <= zlen (wit_bytes y) \/ (zlen q - 4 <= zlen (wit_bytes y) /\ witness_cut4 w q)) as K.
  { intros l E1 E2. subst q. rewrite VarInt_roundtrip in V by (try exact R1; lia).
    apply Ok_inj in V. subst v. cbn [vi_number vi_bytes] in RM.
    pose proof (read_many_shape _ _ _ _ _ _ _ _ RM) as [Lz [Cz _]]. rewrite sum_zlen in Cz.
    rewrite Z.max_r in Lz by lia.
    apply (read_many_cut4 _ _ wi_bytes item_cut4 (wit_stack w) (wit_stack w)) with (q := s) (tail := []) in RM.
    + subst y. cbn [wit_bytes]. rewrite !zlen_app in *. rewrite Lz.
      destruct RM as [[r' [_ [T _]]]|[RM|[RM [its [x [q0 [X1 [X2 X3]]]]]]]].
      * symmetry in T. apply app_eq_nil in T. tauto.
      * left. lia.
      * right. split; [lia|]. exists its, x, q0. split; [exact X1|]. split; [|exact X3]. rewrite X2. reflexivity.
    + apply Forall2_refl_in. intros x I. rewrite Forall_forall in F, R2. split; [|reflexivity].
      intros r. apply WitnessStackItem_parse; [apply F, I|apply R2, I].
    + intros b z. apply Item_size.
    + intros x q' s' z I S' E' Z'. rewrite Forall_forall in F, R2, M2. apply (Item_cut4 net x q' s' z); auto.
    + reflexivity.
    + reflexivity.
    + rewrite app_nil_r. symmetry. exact E2. }
  apply app_eq_app in E. destruct E as [l [[E1 E2]|[E1 E2]]]; [|exact (K l E1 E2)].
  destruct l as [|b l].
  - rewrite app_nil_r in E1. apply (K []); [rewrite app_nil_r; auto|]. cbn [app] in *. auto.
  - left. apply Witness_size in Y0. assert (zlen (compactsize n) = zlen q + (1 + zlen l)) as X by (rewrite E1, zlen_app, zlen_cons; lia).
    pose proof (zlen_nonneg l). lia.
Qed.

(* the converse: such a cut is accepted and leaves four bytes *)
Lemma Witness_cut4_accepted net w its x l s : witness_obj w -> readable_witness net w -> zlen (wi_item x) < 2 ^ 32 ->
  wit_stack w = its ++ [x] -> 2 ^ 16 <= zlen (wi_item x) -> wi_item x = l ++ s -> zlen l < 253 ->
  let q := compactsize (zlen (wit_stack w)) ++ concat (map wi_bytes its) ++ compactsize (zlen (wi_item x)) ++ l in
  exists y, InputWitness_from_bytes net q = Ok y /\ witness_obj y /\ the_stack y = map wi_item its ++ [l] /\ zlen (wit_bytes y) = zlen q - 4.
Proof.
  intros O [R1 R2] M Es L16 El L253 q. apply witness_obj_iff in O. destruct O as [F [B64 C]].
  set (n := zlen (wit_stack w)) in *. assert (0 <= n) as N by apply zlen_nonneg.
  pose proof (zlen_nonneg l) as Zl. pose proof (zlen_nonneg its) as Zi.
  assert (n = zlen its + 1) as En by (unfold n; rewrite Es, zlen_app; reflexivity).
  assert (zlen l <= zlen (wi_item x)) as Lx by (rewrite El, zlen_app; pose proof (zlen_nonneg s); lia).
  assert (In x (wit_stack w)) as Ix by (rewrite Es; apply in_or_app; right; left; reflexivity).
  assert (readable net (zlen (wi_item x))) as Rx by (rewrite Forall_forall in R2; apply R2, Ix).
  set (z := {| wi_item := l; wi_bytes := compactsize (zlen l) ++ l |}).
  assert (Forall witem_obj its) as Fi by (rewrite Es, Forall_app in F; apply F).
  assert (Forall (fun i => readable net (zlen (wi_item i))) its) as Ri by (rewrite Es, Forall_app in R2; apply R2).
  exists {| wit_stack := its ++ [z]; wit_bytes := compactsize n ++ concat (map wi_bytes (its ++ [z])) |}.
  assert (n = zlen (its ++ [z])) as En' by (rewrite zlen_app; exact En).
  split; [|split; [|split]].
  - unfold InputWitness_from_bytes, q. rewrite VarInt_roundtrip by (try exact R1; lia). cbn [bind vi_number vi_bytes].
    rewrite (read_many_last _ _ wi_bytes its its (compactsize (zlen (wi_item x)) ++ l) z).
    + cbn [bind]. rewrite InputWitness_spec, <- En'. destruct (Z.ltb_spec n (2 ^ 64)); [reflexivity|lia].
    + apply Forall2_refl_in. intros i I. rewrite Forall_forall in Fi, Ri. split; [|reflexivity].
      intros r. apply WitnessStackItem_parse; [apply Fi, I|apply Ri, I].
    + unfold z. apply Item_rest; [lia|exact Rx|exact Lx].
    + rewrite !app_length. enough (length its <= length (concat (map wi_bytes its)))%nat by lia.
      apply length_concat_ge. intros i I. rewrite Forall_forall in Fi. apply Fi, witem_obj_iff in I. destruct I as [_ ->].
      rewrite zlen_app. pose proof (zlen_compactsize_pos (zlen (wi_item i))). pose proof (zlen_nonneg (wi_item i)). lia.
    + exact En.
    + reflexivity.
  - apply witness_obj_iff. cbn [wit_stack wit_bytes]. rewrite <- En'. split; [|split; [lia|reflexivity]].
    apply Forall_app. split; [exact Fi|]. constructor; [|constructor]. apply witem_obj_iff. unfold z. cbn [wi_item wi_bytes]. split; [lia|reflexivity].
  - unfold the_stack. cbn [wit_stack]. rewrite map_app. reflexivity.
  - cbn [wit_bytes]. unfold q. rewrite map_app, concat_app, !zlen_app. cbn [map concat]. rewrite app_nil_r. unfold z. cbn [wi_bytes].
    rewrite zlen_app. rewrite (zlen_compactsize (zlen l)), (zlen_compactsize (zlen (wi_item x))).
    destruct (Z.ltb_spec (zlen l) 253); [|lia]. destruct (Z.ltb_spec (zlen (wi_item x)) 253); [lia|].
    destruct (Z.ltb_spec (zlen (wi_item x)) (2 ^ 16)); [lia|]. destruct (Z.ltb_spec (zlen (wi_item x)) (2 ^ 32)); lia.
Qed.

(** * transactions *)

Section Tx.
Context (H : hashes).

Lemma Tx_cut4 name net t p q t' : get_network name = Ok net -> tx_obj H net t -> parsable name (the_tx t) ->
  Forall medium_witness (the_witnesses t) -> q <> [] -> tx_bytes t = p ++ q -> Tx_from_bytes H net p = Ok t' ->
  tx_flag t <> None /\ (zlen p = zlen (wire_tx (stripped (the_tx t))) + 2 \/
    exists ws w its x l s, the_witnesses t = ws ++ [w] /\ wit_stack w = its ++ [x] /\ 2 ^ 16 <= zlen (wi_item x) /\
      wi_item x = l ++ s /\ zlen l < 253 /\ zlen p = zlen (tx_bytes t) - 4 - zlen s).
Proof.
  intros En O P SW Q E T. pose proof (proj1 (tx_obj_iff H net t) O) as [Fi [Fo [Fw [A Et]]]].
  destruct P as [[R1 [R2 [Pi Pw]]] Po]. unfold the_tx in R1, R2, Pi, Po, Pw. cbn [t_ins t_outs t_witness] in *.
  unfold count in R1, R2. rewrite map_length in R1, R2. fold (zlen (tx_tx_ins t)) in R1. fold (zlen (tx_tx_outs t)) in R2.
  destruct (parsable_ins name net _ En Fi Pi) as [ins' [F2 [SI Fi']]]. destruct (same_inputs _ _ SI) as [S1 [S2 S3]].
  assert (Forall (fun i => readable net (zlen (ti_script_sig i))) (tx_tx_ins t)) as Ri.
  { rewrite Forall_map in Pi. eapply Forall_impl; [|exact Pi]. intros i [X _]. apply (readable_spec name net _ En X). }
  rewrite Forall_map in Po. apply (readable_spec name net _ En) in R1. apply (readable_spec name net _ En) in R2.
  pose proof A as A'. unfold tx_args_ok in A'. rewrite !andb_true_iff in A'.
  destruct A' as [[[[[[[A1 A2] A3] A4] A5] A6] A7] A8]. apply Z.eqb_eq in A1, A2.
  assert (SEGWIT_TX_FLAG net = marker_and_flag) as SF by (apply (segwit_flag name), En).
  assert (tx_bytes t = body (tx_flag t) (tx_version t) (tx_tx_ins t) (tx_tx_outs t) (tx_tx_witnesses t) (tx_lock_time t)) as Eb
    by (rewrite Et; reflexivity).
  rewrite Eb in E. unfold body in E.
  set (wsb := match tx_tx_witnesses t with Some ws => concat (map wit_bytes ws) | None => [] end) in *.
  pose proof (zlen_pos _ Q) as Lq.
  (* the parse *)
  apply Tx_from_bytes_inv in T. destruct T as [k [fl [v1 [is [c2 [v2 [os [c4 [ws [c5 [Hk [V1 [I1 [V2 [I2 [W T]]]]]]]]]]]]]]]].
  apply Tx_Ok in T. destruct T as [T _]. unfold tx_args_ok in T. rewrite !andb_true_iff in T.
  destruct T as [[[[[[[_ T2] _] _] T5] _] T7] _]. apply Z.eqb_eq in T2. apply Z.leb_le in T5, T7.
  assert (k = 4 \/ k = 6) as K46 by (destruct (leqb (slice p 4 6) _); injection Hk as <- _; auto).
  pose proof (VarInt_read_shape _ _ _ V1) as [N1 [B1 _]]. pose proof (VarInt_read_shape _ _ _ V2) as [N2 [B2 _]].
  assert (46 <= zlen p) as L46.
  { destruct (read_many_first _ _ _ _ _ _ _ _ I1 T5) as [y Y]. apply TxIn_long in Y. rewrite zlen_slice_from in Y by lia. lia. }
  assert (c2 <= c4) as C24.
  { apply read_many_forward in I2; [lia|]. intros. apply zlen_nonneg. }
  assert (0 <= c2) as C2. { apply read_many_forward in I1; [lia|]. intros. apply zlen_nonneg. }
  assert (c4 <= c5) as C45.
  { destruct (_ && _) in W; [|apply Ok_inj in W; injection W as _ <-; lia]. apply read_many_forward in W; [lia|]. intros. apply zlen_nonneg. }
  rewrite zlen_slice in T2 by lia.
  rewrite (stripped_length H name net t En O).
  destruct (tx_flag t) as [f|] eqn:Ef.
  - split; [discriminate|].
    unfold flag_ok in A3. apply leqb_eq in A3. rewrite SF in A3. subst f.
    assert (leqb (slice p 4 6) (SEGWIT_TX_FLAG net) = true) as HF.
    { pose proof E as X. symmetry in X. rewrite (app_assoc (tx_version t)) in X.
      apply long_prefix in X; [|rewrite zlen_app, A1; change (zlen marker_and_flag) with 2; lia].
      destruct X as [r [-> _]]. rewrite SF, <- app_assoc. apply flagged_head, A1. }
    rewrite HF, SF in Hk. injection Hk as <- <-.
    rewrite (app_assoc (tx_version t)) in E.
    destruct (cut_prefix name net (tx_version t ++ marker_and_flag) (tx_tx_ins t) (tx_tx_outs t) ins' 6 (wsb ++ tx_lock_time t) p q
      (S (length p)) v1 v2 is c2 os c4 En F2 Fi Ri Fo Po R1 R2) as [-> [-> [Nv [pre' [r [Pp [Et' [C4 Pre]]]]]]]];
      [lia|lia|rewrite zlen_app, A1; reflexivity|symmetry; exact E|exact V1|exact I1|exact V2|exact I2|exact T5|exact T7|lia|].
    assert (slice_from p c4 = r) as Sr by (rewrite Pp; apply slice_from_app; lia).
    change (negb (leqb marker_and_flag [])) with true in W. cbn [andb] in W. rewrite Sr in W.
    assert (zlen p = c4 + zlen r) as Lp by (rewrite Pp, zlen_app; lia).
    destruct (Z.ltb_spec 4 (zlen r)) as [G|G].
    2:{ left. apply Ok_inj in W. injection W as <- <-. assert (zlen r = 4) as Lr by lia.
        rewrite Lp, C4, Pre, Lr, A2. rewrite !zlen_app. change (zlen marker_and_flag) with 2. lia. }
    right.
    assert (zlen r + zlen q = zlen wsb + 4) as Lrq by (rewrite <- zlen_app, <- Et', zlen_app; lia).
    destruct (tx_tx_witnesses t) as [ws0|] eqn:Ew; [|exfalso; change (zlen wsb) with 0 in Lrq; lia].
    assert (the_witnesses t = ws0) as Tw by (unfold the_witnesses; rewrite Ew; reflexivity). rewrite Tw in *.
    unfold wits_ok in A4. cbn [andb] in A4. apply orb_true_iff in A4. destruct A4 as [A4|A4].
    { exfalso. apply Z.eqb_eq, zlen_0 in A4. subst ws0. change (zlen wsb) with 0 in Lrq. lia. }
    apply Z.eqb_eq in A4. pose proof (parsable_ws name net _ En Fw Pw) as Rw. rewrite Forall_forall in Rw, SW.
    rewrite Pp in W. rewrite Nv in W.
    apply (read_many_cut4 _ _ wit_bytes witness_cut4 ws0 ws0) with (q := q) (tail := tx_lock_time t) in W.
    + destruct W as [[r' [X1 [X2 [_ X3]]]]|[X|[X [ws1 [w [q0 [X1 [X2 X3]]]]]]]].
      * exfalso. assert (zlen p = c5 + zlen r') by (rewrite Pp, X1, !zlen_app; lia).
        assert (zlen r' + zlen q = 4) by (rewrite <- zlen_app, <- X2; exact A2). lia.
      * exfalso. rewrite <- Pp in X. lia.
      * destruct X3 as [its [x [q1 [Y1 [Y2 [Y3 [l [s [Y4 [Y5 Y6]]]]]]]]]].
        exists ws1, w, its, x, l, s. split; [exact X1|]. split; [exact Y1|]. split; [exact Y3|]. split; [exact Y5|]. split; [exact Y6|].
        assert (witness_obj w) as Ow by (apply (Rw w); rewrite X1; apply in_or_app; right; left; reflexivity).
        apply witness_obj_iff in Ow. destruct Ow as [Ow1 [_ Ow2]].
        assert (witem_obj x) as Ox by (rewrite Forall_forall in Ow1; apply Ow1; rewrite Y1; apply in_or_app; right; left; reflexivity).
        apply witem_obj_iff in Ox. destruct Ox as [_ Ox].
        assert (zlen wsb = zlen r + zlen s) as Lw.
        { unfold wsb. rewrite X1, X2, Y2, Y4. rewrite map_app, concat_app. cbn [map concat]. rewrite app_nil_r, Ow2, Y1.
          rewrite map_app, concat_app. cbn [map concat]. rewrite app_nil_r, Ox. rewrite Y5 at 2. rewrite !zlen_app. lia. }
        assert (zlen (tx_bytes t) = zlen p + zlen q) as Lt by (transitivity (zlen (p ++ q)); [rewrite <- E, Eb; unfold body, wsb; rewrite <- app_assoc; reflexivity|apply zlen_app]).
        lia.
    + apply Forall2_refl_in. intros x I. split; [|reflexivity]. intros r0. apply InputWitness_parse; apply (Rw x I).
    + intros b z. apply Witness_size.
    + intros x q' s' y I S' E' Y. destruct (Rw x I) as [O1 O2]. apply (Witness_cut4 net x q' s' y); auto.
    + symmetry. exact A4.
    + exact C4.
    + symmetry. exact Et'.
  - exfalso.
    assert (wsb = []) as Wb.
    { unfold wsb. destruct (tx_tx_witnesses t) as [ws0|]; [|reflexivity]. unfold wits_ok in A4. cbn [andb] in A4. rewrite orb_false_r in A4.
      apply Z.eqb_eq, zlen_0 in A4. subst ws0. reflexivity. }
    rewrite Wb in E. cbn [app] in E.
    assert (leqb (slice p 4 6) (SEGWIT_TX_FLAG net) = false) as HF.
    { pose proof E as X. symmetry in X. rewrite (app_assoc (tx_version t)) in X.
      apply long_prefix in X; [|rewrite zlen_app, A1; pose proof (zlen_compactsize_pos (zlen (tx_tx_ins t))); lia].
      destruct X as [r [-> _]]. rewrite SF, <- app_assoc. apply legacy_head; [exact A1|]. lia. }
    rewrite HF in Hk. injection Hk as <- <-. cbn [andb] in W. apply Ok_inj in W. injection W as <- <-.
    destruct (cut_prefix name net (tx_version t) (tx_tx_ins t) (tx_tx_outs t) ins' 4 (tx_lock_time t) p q
      (S (length p)) v1 v2 is c2 os c4 En F2 Fi Ri Fo Po R1 R2) as [-> [-> [Nv [pre' [r [Pp [Et' [C4 Pre]]]]]]]];
      [lia|lia|exact A1|symmetry; exact E|exact V1|exact I1|exact V2|exact I2|exact T5|exact T7|lia|].
    assert (zlen p = c4 + zlen r) as Lp by (rewrite Pp, zlen_app; lia).
    assert (zlen r + zlen q = 4) as Lrq by (rewrite <- zlen_app, <- Et'; exact A2). lia.
Qed.

Lemma Tx_cut4_accepted name net t p q ws w its x l s : get_network name = Ok net -> tx_obj H net t -> parsable name (the_tx t) ->
  tx_flag t <> None -> tx_bytes t = p ++ q -> the_witnesses t = ws ++ [w] -> wit_stack w = its ++ [x] -> 2 ^ 16 <= zlen (wi_item x) ->
  zlen (wi_item x) < 2 ^ 32 -> wi_item x = l ++ s -> zlen l < 253 -> zlen p = zlen (tx_bytes t) - 4 - zlen s ->
  exists front r t', p = front ++ r /\ zlen r = 4 /\ Tx_from_bytes H net p = Ok t' /\
    the_tx t' = {| t_version := t_version (the_tx t); t_ins := t_ins (the_tx t); t_outs := t_outs (the_tx t);
                   t_witness := Some (map the_stack ws ++ [map wi_item its ++ [l]]); t_lock := r |}.
Proof.
  intros En O P Hf E Ws Wi L16 L32 El L253 Lp. pose proof (proj1 (tx_obj_iff H net t) O) as [Fi [Fo [Fw [A Et]]]].
  destruct P as [[R1 [R2 [Pi Pw]]] Po]. unfold the_tx in R1, R2, Pi, Po, Pw. cbn [t_ins t_outs t_witness] in *.
  unfold count in R1, R2. rewrite map_length in R1, R2. fold (zlen (tx_tx_ins t)) in R1. fold (zlen (tx_tx_outs t)) in R2.
  destruct (parsable_ins name net _ En Fi Pi) as [ins' [F2 [S Fi']]]. destruct (same_inputs _ _ S) as [S1 [S2 S3]].
  rewrite Forall_map in Po. apply (readable_spec name net _ En) in R1. apply (readable_spec name net _ En) in R2.
  pose proof A as A'. unfold tx_args_ok in A'. rewrite !andb_true_iff in A'.
  destruct A' as [[[[[[[A1 A2] A3] A4] A5] A6] A7] A8]. apply Z.eqb_eq in A1, A2.
  assert (SEGWIT_TX_FLAG net = marker_and_flag) as SF by (apply (segwit_flag name), En).
  assert (tx_bytes t = body (tx_flag t) (tx_version t) (tx_tx_ins t) (tx_tx_outs t) (tx_tx_witnesses t) (tx_lock_time t)) as Eb
    by (rewrite Et; reflexivity).
  destruct (tx_flag t) as [f|] eqn:Ef; [|congruence]. unfold flag_ok in A3. apply leqb_eq in A3. rewrite SF in A3. subst f.
  assert (tx_tx_witnesses t = Some (ws ++ [w])) as Ew.
  { unfold the_witnesses in Ws. destruct (tx_tx_witnesses t); [congruence|]. symmetry in Ws. apply app_eq_nil in Ws. destruct Ws. discriminate. }
  rewrite Ew in *. unfold wits_ok in A4. cbn [andb] in A4.
  assert (zlen (ws ++ [w]) = zlen ws + 1) as Lws by (rewrite zlen_app; reflexivity). pose proof (zlen_nonneg ws) as Zws.
  destruct (Z.eqb_spec (zlen (ws ++ [w])) 0) as [X|_]; [lia|]. cbn [orb] in A4. apply Z.eqb_eq in A4.
  rewrite Ws in Pw. pose proof (parsable_ws name net _ En Fw Pw) as Rw. rewrite Forall_app in Rw. destruct Rw as [Rws Rw].
  inversion Rw as [|w0 nil0 [Ow Rw'] _]; subst w0 nil0. clear Rw.
  destruct (Witness_cut4_accepted net w its x l s Ow Rw' L32 Wi L16 El L253) as [y [Y1 [Y2 [Y3 Y4]]]].
  set (lastq := compactsize (zlen (wit_stack w)) ++ concat (map wi_bytes its) ++ compactsize (zlen (wi_item x)) ++ l) in *.
  pose proof Ow as Ow'. apply witness_obj_iff in Ow'. destruct Ow' as [Ow1 [_ Ow2]].
  assert (witem_obj x) as Ox by (rewrite Forall_forall in Ow1; apply Ow1; rewrite Wi; apply in_or_app; right; left; reflexivity).
  apply witem_obj_iff in Ox. destruct Ox as [_ Ox].
  assert (wit_bytes w = lastq ++ s) as Elast.
  { rewrite Ow2. rewrite Wi at 2. rewrite map_app, concat_app. cbn [map concat]. rewrite app_nil_r, Ox. rewrite El at 2.
    unfold lastq. rewrite <- !app_assoc. reflexivity. }
  set (pre := tx_version t ++ marker_and_flag).
  assert (p = pre ++ compactsize (zlen (tx_tx_ins t)) ++ concat (map ti_bytes (tx_tx_ins t)) ++ compactsize (zlen (tx_tx_outs t)) ++
              concat (map to_bytes_ (tx_tx_outs t)) ++ concat (map wit_bytes ws) ++ lastq) as Ep.
  { rewrite Eb in E, Lp. unfold body in E, Lp. rewrite map_app, concat_app in E, Lp. cbn [map concat] in E, Lp. rewrite app_nil_r, Elast in E, Lp.
    match goal with |- p = ?b => assert (p ++ q = b ++ s ++ tx_lock_time t) as X end.
    { rewrite <- E. unfold pre. rewrite <- !app_assoc. reflexivity. }
    apply long_prefix in X.
    - destruct X as [r [X1 X2]]. rewrite X1 in Lp. unfold pre in Lp. rewrite !zlen_app in Lp. change (zlen marker_and_flag) with 2 in Lp. pose proof (zlen_nonneg r).
      assert (zlen r = 0) as X0 by lia. apply zlen_0 in X0. rewrite X0, app_nil_r in X1. exact X1.
    - unfold pre. rewrite !zlen_app in Lp. rewrite !zlen_app. lia. }
  destruct (tx_parse_prefix name net pre (tx_tx_ins t) (tx_tx_outs t) ins' 6 (concat (map wit_bytes ws) ++ lastq) En F2 Fi Fo Po R1 R2) with (bs := p)
        as [X1 [X2 [X3 [X4 [pre' [X5 X6]]]]]];
        [lia|lia|unfold pre; rewrite zlen_app, A1; reflexivity|exact Ep|].
  set (c4 := 6 + _ + _ + _ + _) in *.
  assert (5 <= zlen lastq) as Llast. { pose proof (Witness_size net _ _ Y1). lia. }
  set (r := skipn (length p - 4) p). set (front := firstn (length p - 4) p).
  assert (p = front ++ r) as Efr by (symmetry; apply firstn_skipn).
  assert (zlen p = c4 + zlen (concat (map wit_bytes ws)) + zlen lastq) as Lpp by (rewrite X5, !zlen_app; lia).
  assert (0 <= c4) as Zc4 by (rewrite <- X6; apply zlen_nonneg).
  pose proof (zlen_nonneg (concat (map wit_bytes ws))) as Zwb.
  assert (zlen r = 4) as Lr by (unfold r; unfold zlen in *; rewrite skipn_length; lia).
  assert (Tx_from_bytes H net p = Tx H net (tx_version t) (Some marker_and_flag) ins' (tx_tx_outs t) (Some (ws ++ [y])) r) as T.
  { unfold Tx_from_bytes. rewrite SF.
    replace (leqb (slice p 4 6) marker_and_flag) with true by (symmetry; rewrite Ep; unfold pre; rewrite <- !app_assoc; apply flagged_head, A1).
    replace (slice p 0 4) with (tx_version t) by (rewrite Ep; unfold pre; rewrite <- !app_assoc; symmetry; apply (slice_app [] (tx_version t)); [reflexivity|lia]).
    rewrite X1. cbn [bind vi_number vi_bytes]. rewrite X2. cbn [bind]. rewrite X3. cbn [bind vi_number vi_bytes]. rewrite X4. cbn [bind].
    replace (negb (leqb marker_and_flag [])) with true by reflexivity. cbn [andb]. fold c4.
    assert (slice_from p c4 = concat (map wit_bytes ws) ++ lastq) as -> by (rewrite X5; apply slice_from_app, X6).
    rewrite zlen_app. destruct (Z.ltb_spec 4 (zlen (concat (map wit_bytes ws)) + zlen lastq)); [|lia].
    rewrite <- A4. rewrite X5 at 2.
    rewrite (read_many_last _ _ wit_bytes ws ws lastq y).
    - cbn [bind].
      match goal with |- context [slice p ?a (?a + 4)] => assert (slice p a (a + 4) = r) as -> end; [|reflexivity].
      rewrite Efr at 1. assert (c4 + zlen (concat (map wit_bytes ws)) + zlen (wit_bytes y) = zlen front) as Lfr.
      { assert (zlen p = zlen front + zlen r) by (rewrite Efr at 1; apply zlen_app). lia. }
      rewrite <- (app_nil_r r) at 1. apply slice_app; [symmetry; exact Lfr|lia].
    - apply Forall2_refl_in. intros v I. rewrite Forall_forall in Rws. specialize (Rws v I). split; [|reflexivity].
      intros r0. apply InputWitness_parse; apply Rws.
    - exact Y1.
    - rewrite X5, !app_length. enough (length ws <= length (concat (map wit_bytes ws)))%nat by lia.
      apply length_concat_ge. intros v I. apply witness_nonempty. rewrite Forall_forall in Rws. apply (Rws v I).
    - exact Lws.
    - symmetry. exact X6. }
  exists front, r. rewrite T, Tx_spec. unfold tx_args_ok. rewrite S3, A1, Lr, A5, A6, A7, A8. unfold flag_ok, wits_ok. rewrite SF.
  assert (zlen (ws ++ [y]) = zlen (ws ++ [w])) as Ly by (rewrite !zlen_app; reflexivity).
  rewrite Ly, A4, (Z.eqb_refl (zlen (tx_tx_ins t))). cbn [andb]. rewrite orb_true_r. cbn [Z.eqb Pos.eqb andb].
  change (leqb marker_and_flag marker_and_flag) with true. cbn [andb].
  eexists. split; [exact Efr|]. split; [reflexivity|]. split; [reflexivity|].
  unfold the_tx. cbn [tx_of tx_tx_ins tx_tx_outs tx_tx_witnesses tx_version tx_flag tx_lock_time the_witnesses t_version t_ins t_outs].
  rewrite S1, map_app. cbn [map]. rewrite Y3. reflexivity.
Qed.
End Tx.
