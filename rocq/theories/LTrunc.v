(* Lemmas about MTx.v: parsing a proper prefix of what was serialized *)
From Coq Require Import String.
From Verif Require Import Py LBase MNet MUtils MShared MScript MTx SNum SNet SScript STx LNet LUtils LVarint LScript LBase58 LTx LTxParse.
Open Scope list_scope.
Open Scope Z_scope.
Ltac Zify.zify_post_hook ::= idtac.

Lemma zlen_pos {A} (l : list A) : l <> [] -> 1 <= zlen l.
Proof. destruct l; [congruence|]. intros _. rewrite zlen_cons. pose proof (zlen_nonneg l). lia. Qed.

Lemma slice_beyond {A} (p : list A) c : zlen p <= c -> slice_from p c = [].
Proof. intros L. pose proof (zlen_nonneg p). apply zlen_0. rewrite zlen_slice_from by lia. lia. Qed.

(** * VarInt *)

Lemma VarInt_shape n l v : VarInt n l = Ok v -> vi_number v = n /\ 0 <= n /\ 1 <= zlen (vi_bytes v).
Proof.
  unfold VarInt. intros E. destruct (n <? 0) eqn:N; [discriminate E|]. cbn [guard bind] in E.
  destruct (0xffffffffffffffff <? n) eqn:M; [discriminate E|]. cbn [guard bind] in E.
  assert (forall b (l : option Z), 1 <= zlen b -> 1 <= zlen (match l with Some l => pad_to b l | None => b end)) as P.
  { intros b [k|] B; [|exact B]. unfold pad_to. rewrite zlen_app. pose proof (zlen_nonneg (zrepeat 0 (k - zlen b))). lia. }
  destruct (n <=? 0xfc) eqn:C.
  - rewrite i2le_small in E by lia. cbn [bind app] in E. apply Ok_inj in E. subst v. cbn [vi_number vi_bytes].
    split; [reflexivity|]. split; [lia|]. apply P. reflexivity.
  - assert (forall x (b : bytes) l, (i <- i2le n ;; Ok {| vi_number := n; vi_bytes := match l with Some l => pad_to ((x :: b) ++ i) l | None => (x :: b) ++ i end |}) = Ok v ->
      vi_number v = n /\ 0 <= n /\ 1 <= zlen (vi_bytes v)) as K.
    { intros x b k F. apply bind_Ok in F. destruct F as [i [_ F]]. apply Ok_inj in F. subst v. cbn [vi_number vi_bytes].
      split; [reflexivity|]. split; [lia|]. apply P. cbn [app]. rewrite zlen_cons. pose proof (zlen_nonneg (b ++ i)). lia. }
    destruct ((n <=? 0xffff) || _); [exact (K 253 [] (Some 3) E)|].
    destruct ((n <=? 0xffffffff) || _); [exact (K 254 [] (Some 5) E)|].
    replace (n <=? 0xffffffffffffffff) with true in E by lia. cbn [orb] in E. exact (K 255 [] (Some 9) E).
Qed.

Lemma VarInt_read_shape net b v : VarInt_from_bytes net b = Ok v -> 0 <= vi_number v /\ 1 <= zlen (vi_bytes v) /\ 1 <= zlen b.
Proof.
  unfold VarInt_from_bytes. intros E. apply bind_Ok in E. destruct E as [f [F E]].
  assert (1 <= zlen b) as B. { apply zlen_pos. intros ->. discriminate F. }
  match type of E with (match ?x with pair _ _ => _ end) = _ => destruct x as [num nc] end.
  destruct (negb (zmem (zlen num) [1; 2; 4; 8])); [discriminate E|]. cbn [guard bind] in E.
  destruct (nc && compact_only net); [discriminate E|]. cbn [guard bind] in E.
  apply VarInt_shape in E. destruct E as [-> [E1 E2]]. auto.
Qed.

(* a proper prefix of a CompactSize below 2^16 is refused, or has two bytes *)
Lemma compactsize_cut net n q s v : 0 <= n < 2 ^ 16 -> s <> [] -> compactsize n = q ++ s ->
  VarInt_from_bytes net q = Ok v -> zlen q = 2.
Proof.
  intros N S E V. apply zlen_pos in S.
  assert (zlen q + zlen s <= 3) as L.
  { rewrite <- zlen_app, <- E, zlen_compactsize. destruct (n <? 253); [lia|]. destruct (Z.ltb_spec n (2 ^ 16)); lia. }
  pose proof (VarInt_read_shape net q v V) as [_ [_ Q]].
  destruct (Z.eq_dec (zlen q) 2) as [Q2|Q2]; [exact Q2|]. exfalso.
  assert (zlen q = 1) as Q1 by lia.
  destruct q as [|b [|b' q]]; [rewrite zlen_nil in Q1; lia| |rewrite !zlen_cons in Q1; pose proof (zlen_nonneg q); lia].
  unfold compactsize in E. destruct (Z.ltb_spec n 253).
  - injection E as _ E. destruct s; [rewrite zlen_nil in S; lia|discriminate].
  - destruct (Z.ltb_spec n (2 ^ 16)); [|lia]. cbn [app] in E. injection E as <- _.
    rewrite VarInt_truncated in V; [discriminate|lia| |rewrite zlen_nil; lia..].
    reflexivity.
Qed.

(** * reading many *)

Lemma read_many_shape {A} (fb : bytes -> res A) size : forall fuel p n c zs c', read_many fb size fuel p n c = Ok (zs, c') ->
  zlen zs = Z.max 0 n /\ c' = c + fold_right Z.add 0 (map size zs) /\ Forall (fun z => exists b, fb b = Ok z) zs.
Proof.
  induction fuel as [|f IH]; intros p n c zs c' E.
  - cbn [read_many] in E. destruct (Z.leb_spec n 0); [|discriminate]. apply Ok_inj in E. injection E as <- <-.
    rewrite zlen_nil. cbn. split; [lia|]. split; [lia|constructor].
  - destruct (Z.leb_spec n 0) as [N|N].
    + rewrite read_many_done in E by exact N. apply Ok_inj in E. injection E as <- <-.
      rewrite zlen_nil. cbn. split; [lia|]. split; [lia|constructor].
    + rewrite read_many_step in E by exact N. apply bind_Ok in E. destruct E as [x [X E]].
      apply bind_Ok in E. destruct E as [[xs c1] [R E]]. apply Ok_inj in E. injection E as <- <-.
      destruct (IH _ _ _ _ _ R) as [L [C F]]. rewrite zlen_cons, L, C. cbn [map fold_right].
      split; [lia|]. split; [lia|]. constructor; eauto.
Qed.

Lemma read_many_forward {A} (fb : bytes -> res A) size : (forall b y, fb b = Ok y -> 0 <= size y) ->
  forall fuel p n c zs c', read_many fb size fuel p n c = Ok (zs, c') -> c <= c'.
Proof.
  intros G fuel p n c zs c' E. apply read_many_shape in E. destruct E as [_ [-> F]].
  enough (0 <= fold_right Z.add 0 (map size zs)) by lia.
  induction F as [|z zs [b B] _ IH]; cbn [map fold_right]; [lia|]. specialize (G b z B). lia.
Qed.

(* the first object of a non-empty sequence was read *)
Lemma read_many_first {A} (fb : bytes -> res A) size fuel p n c zs c' : read_many fb size fuel p n c = Ok (zs, c') ->
  1 <= zlen zs -> exists y, fb (slice_from p c) = Ok y.
Proof.
  intros E L. pose proof (read_many_shape fb size _ _ _ _ _ _ E) as [L' _].
  destruct fuel as [|f].
  { cbn [read_many] in E. destruct (Z.leb_spec n 0); [lia|discriminate]. }
  rewrite read_many_step in E by lia. apply bind_Ok in E. destruct E as [x [X _]]. eauto.
Qed.

(* Reading |xs| objects from bytes that end inside them.  When a truncated object
   leaves at most d bytes unread, so does the whole loop. *)
Lemma read_many_cut {A X} (fb : bytes -> res A) size (w : X -> bytes) d xs ys :
  Forall2 (fun x y => (forall r, fb (w x ++ r) = Ok y) /\ size y = zlen (w x)) xs ys ->
  (forall b y, fb b = Ok y -> 0 <= size y) ->
  (forall x q s y, In x xs -> s <> [] -> w x = q ++ s -> fb q = Ok y -> zlen q - d <= size y) ->
  forall fuel pre r q tail n c zs c', n = zlen xs -> c = zlen pre -> r ++ q = concat (map w xs) ++ tail ->
  read_many fb size fuel (pre ++ r) n c = Ok (zs, c') ->
  (exists r', r = concat (map w xs) ++ r' /\ tail = r' ++ q /\ zs = ys /\ c' = c + zlen (concat (map w xs))) \/
  zlen (pre ++ r) - d <= c'.
Proof.
  intros F G. induction F as [|x y xs ys [P S] F IH]; intros D fuel pre r q tail n c zs c' Hn Hc Hr E.
  - left. rewrite zlen_nil in Hn. rewrite read_many_done in E by lia. apply Ok_inj in E. injection E as <- <-.
    cbn [map concat] in *. exists r. cbn [app]. rewrite zlen_nil. repeat split; [symmetry; exact Hr|lia].
  - rewrite zlen_cons in Hn. pose proof (zlen_nonneg xs) as Zx.
    destruct fuel as [|fuel]; [cbn [read_many] in E; destruct (Z.leb_spec n 0); [lia|discriminate]|].
    rewrite read_many_step in E by lia. rewrite slice_from_app in E by (symmetry; exact Hc).
    cbn [map concat] in *. rewrite <- app_assoc in Hr. apply app_eq_app in Hr. destruct Hr as [l [[H1 H2]|[H1 H2]]].
    + subst r. rewrite P in E. cbn [bind] in E. apply bind_Ok in E. destruct E as [[zs1 c1] [R E]].
      apply Ok_inj in E. injection E as <- <-. rewrite (app_assoc pre) in R.
      destruct (IH (fun x q s y I => D x q s y (or_intror I)) fuel (pre ++ w x) l q tail (n - 1) (c + size y) zs1 c1) as [[r' [E1 [E2 [E3 E4]]]]|E1];
        [lia|rewrite zlen_app; lia|symmetry; exact H2|exact R| |].
      * left. exists r'. rewrite E1, <- app_assoc, zlen_app. split; [reflexivity|]. split; [exact E2|]. split; [congruence|lia].
      * right. rewrite <- app_assoc in E1. exact E1.
    + destruct l as [|b l].
      { rewrite app_nil_r in H1. subst r. specialize (P []). rewrite app_nil_r in P. rewrite P in E. cbn [bind] in E.
        apply bind_Ok in E. destruct E as [[zs1 c1] [R E]]. apply Ok_inj in E. injection E as <- <-.
        cbn [app] in H2. subst q.
        replace (pre ++ w x) with ((pre ++ w x) ++ []) in R by apply app_nil_r.
        destruct (IH (fun x q s y I => D x q s y (or_intror I)) fuel (pre ++ w x) [] (concat (map w xs) ++ tail) tail (n - 1) (c + size y) zs1 c1) as [[r' [E1 [E2 [E3 E4]]]]|E1];
          [lia|rewrite zlen_app; lia|reflexivity|exact R| |].
        - left. exists r'. rewrite <- app_assoc, <- E1, app_nil_r, zlen_app. split; [reflexivity|]. split; [|split; [congruence|lia]]. exact E2.
        - right. rewrite app_nil_r in E1. exact E1. }
      right. apply bind_Ok in E. destruct E as [z [Z1 E]]. apply bind_Ok in E. destruct E as [[zs1 c1] [R E]].
      apply Ok_inj in E. injection E as <- <-.
      assert (zlen r - d <= size z) as Dz by (apply (D x r (b :: l)); [left; reflexivity|discriminate|exact H1|exact Z1]).
      apply read_many_forward in R; [|exact G]. rewrite zlen_app. lia.
Qed.

(** * parts *)

Lemma Outpoint_cut o q s : outpoint_obj o -> s <> [] -> op_bytes o = q ++ s -> Outpoint_from_bytes q = Err ValueError.
Proof.
  intros O S E. apply outpoint_obj_iff in O. destruct O as [A [B C]]. apply zlen_pos in S.
  assert (zlen q + zlen s = 36) as L by (rewrite <- zlen_app, <- E, C, zlen_app; lia).
  unfold Outpoint_from_bytes. rewrite Outpoint_spec. pose proof (zlen_nonneg q).
  rewrite zlen_slice_to, zlen_slice by lia.
  destruct (Z.eqb_spec (Z.min 32 (zlen q)) 32); [|reflexivity].
  destruct (Z.eqb_spec (Z.max 0 (Z.min 36 (zlen q) - 32)) 4); [lia|reflexivity].
Qed.

(* bytes that are accepted as an input are at least as long as they announce *)
Lemma TxIn_needs net b i : TxIn_from_bytes net b = Ok i ->
  exists v, VarInt_from_bytes net (slice b 36 45) = Ok v /\ 36 + zlen (vi_bytes v) + vi_number v + 4 <= zlen b.
Proof.
  unfold TxIn_from_bytes. intros E. apply bind_Ok in E. destruct E as [o [_ E]].
  apply bind_Ok in E. destruct E as [v [V E]]. exists v. split; [exact V|].
  apply VarInt_read_shape in V. destruct V as [V1 [V2 _]].
  apply bind_Ok in E. destruct E as [[st rd] [_ E]]. rewrite TxIn_spec in E.
  set (a := 36 + _ + _) in *. assert (0 <= a) as Ha by (subst a; lia).
  destruct ((zlen (op_bytes o) =? 36) && (zlen (slice b a (a + 4)) =? 4) && (zlen (st ++ rd) <=? 1650)) eqn:G; [|discriminate].
  rewrite !andb_true_iff in G. destruct G as [[_ G] _]. apply Z.eqb_eq in G. rewrite zlen_slice in G by lia. lia.
Qed.

Lemma TxIn_long net b i : TxIn_from_bytes net b = Ok i -> 41 <= zlen b.
Proof.
  intros E. apply TxIn_needs in E. destruct E as [v [V L]]. apply VarInt_read_shape in V. lia.
Qed.

Lemma TxIn_size net b i : TxIn_from_bytes net b = Ok i -> 0 <= zlen (ti_bytes i).
Proof. intros _. apply zlen_nonneg. Qed.

Lemma TxIn_cut net i q s : txin_obj i -> readable net (zlen (ti_script_sig i)) -> s <> [] -> ti_bytes i = q ++ s ->
  exists e, TxIn_from_bytes net q = Err e.
Proof.
  intros O R S E. destruct (TxIn_from_bytes net q) as [y|e] eqn:F; [exfalso|eauto].
  apply zlen_pos in S. pose proof (TxIn_long _ _ _ F) as L41. apply TxIn_needs in F. destruct F as [v [V L]].
  pose proof O as O'. apply txin_obj_iff in O'. destruct O' as [O1 [O2 [O3 O4]]].
  rewrite (txin_bytes i O) in E.
  assert (zlen (op_bytes (ti_outpoint i)) = 36) as L36.
  { apply outpoint_obj_iff in O1. destruct O1 as [A [B ->]]. rewrite zlen_app. lia. }
  set (n := zlen (ti_script_sig i)) in *.
  assert (n <= 1650) as Ln by exact O3.
  assert (0 <= n) as Ln0 by apply zlen_nonneg.
  assert (zlen (compactsize n) <= 3) as L3.
  { rewrite zlen_compactsize. destruct (n <? 253); [lia|]. destruct (Z.ltb_spec n (2 ^ 16)); lia. }
  assert (zlen q + zlen s = 36 + zlen (compactsize n) + n + 4) as Lq.
  { rewrite <- zlen_app, <- E, !zlen_app. fold n. lia. }
  (* the length is complete *)
  assert (exists r, q = op_bytes (ti_outpoint i) ++ compactsize n ++ r) as [r Hq].
  { rewrite app_assoc in E. apply app_eq_app in E. destruct E as [l [[E _]|[E _]]].
    - exfalso. assert (zlen (op_bytes (ti_outpoint i) ++ compactsize n) = zlen (q ++ l)) as X by (rewrite E; reflexivity).
      rewrite !zlen_app in X. pose proof (zlen_nonneg l). lia.
    - exists l. rewrite E, <- app_assoc. reflexivity. }
  subst q. rewrite slice_skip in V by (rewrite ?L36; lia). rewrite L36 in V. change (36 - 36) with 0 in V. change (Z.max 0 (45 - 36)) with 9 in V.
  assert (slice (compactsize n ++ r) 0 9 = compactsize n ++ firstn (9 - length (compactsize n)) r) as X.
  { rewrite slice_firstn by lia. change (Z.to_nat 0) with 0%nat. cbn [skipn]. change (Z.to_nat (9 - 0)) with 9%nat.
    rewrite firstn_app, firstn_all2 by (unfold zlen in L3; lia). reflexivity. }
  rewrite X, VarInt_roundtrip in V by (try exact R; lia). apply Ok_inj in V. subst v. cbn [vi_bytes vi_number] in L. lia.
Qed.

Lemma TxOut_long net b o : TxOut_from_bytes net b = Ok o -> 9 <= zlen b.
Proof.
  unfold TxOut_from_bytes. intros E. apply bind_Ok in E. destruct E as [v [V _]].
  apply VarInt_read_shape in V. destruct V as [_ [_ V]]. rewrite zlen_slice_from in V by lia. lia.
Qed.

Lemma compactsize_small n : 0 <= n < 253 -> compactsize n = [n].
Proof. intros N. unfold compactsize. destruct (Z.ltb_spec n 253); [reflexivity|lia]. Qed.

(* a cut inside the script of an output goes unnoticed *)
Lemma TxOut_cut_accepted net o q s : txout_obj o -> zlen (to_output_script o) < 252 -> s <> [] -> to_bytes_ o = q ++ s -> 9 <= zlen q ->
  exists r, to_output_script o = r ++ s /\
    TxOut_from_bytes net q = Ok {| to_value := to_value o; to_output_script := r; to_bytes_ := to_value o ++ [zlen r] ++ r |}.
Proof.
  intros O L S E Q. pose proof O as O'. apply txout_obj_iff in O'. destruct O' as [A [B C]].
  set (n := zlen (to_output_script o)) in *. assert (0 <= n) as N by apply zlen_nonneg.
  rewrite C in E. fold n in E. rewrite compactsize_small in E by lia. rewrite app_assoc in E. apply app_eq_app in E.
  destruct E as [r [[E1 E2]|[E1 E2]]].
  { assert (zlen (to_value o ++ [n]) = zlen (q ++ r)) as X by (rewrite E1; reflexivity).
    rewrite !zlen_app, A in X. change (zlen [n]) with 1 in X.
    assert (r = []) as -> by (apply zlen_0; pose proof (zlen_nonneg r); lia).
    rewrite app_nil_r in E1. cbn [app] in E2. subst q. exists []. split; [symmetry; exact E2|].
    unfold TxOut_from_bytes. rewrite slice_from_app by exact A.
    rewrite <- (compactsize_small n) by lia. rewrite <- (app_nil_r (compactsize n)).
    rewrite VarInt_roundtrip by (try apply readable_small; lia). cbn [bind vi_number vi_bytes].
    destruct (Z.ltb_spec n 0xfc); [|lia]. rewrite slice_to_app by exact A.
    rewrite compactsize_small by lia. change (zlen [n]) with 1.
    assert (slice (to_value o ++ [n] ++ []) (8 + 1) (8 + 1 + n) = []) as ->.
    { apply zlen_0. rewrite zlen_slice by lia. rewrite !zlen_app, A. change (zlen [n]) with 1. change (zlen (@nil Z)) with 0. lia. }
    rewrite TxOut_spec, A. change (zlen []) with 0. reflexivity. }
  subst q. exists r. split; [exact E2|].
  assert (zlen r + zlen s = n) as Ln by (unfold n; rewrite E2, zlen_app; reflexivity).
  apply zlen_pos in S. pose proof (zlen_nonneg r).
  unfold TxOut_from_bytes. rewrite <- app_assoc, slice_from_app by exact A.
  rewrite <- (compactsize_small n) by lia.
  rewrite VarInt_roundtrip by (try apply readable_small; lia). cbn [bind vi_number vi_bytes].
  destruct (Z.ltb_spec n 0xfc); [|lia]. rewrite slice_to_app by exact A.
  rewrite compactsize_small by lia. change (zlen [n]) with 1.
  assert (slice (to_value o ++ [n] ++ r) (8 + 1) (8 + 1 + n) = r) as ->.
  { rewrite app_assoc, slice_skip by (rewrite ?zlen_app, ?A; change (zlen [n]) with 1; lia).
    rewrite zlen_app, A. change (zlen [n]) with 1. rewrite slice_firstn by lia.
    replace (Z.to_nat (8 + 1 - (8 + 1))) with 0%nat by lia. cbn [skipn]. apply firstn_all2. unfold zlen in *. lia. }
  rewrite TxOut_spec, A. destruct (Z.ltb_spec (zlen r) (2 ^ 64)); [|lia]. cbn [andb Z.eqb Pos.eqb].
  rewrite compactsize_small by lia. reflexivity.
Qed.

Lemma TxOut_cut net o q s y : txout_obj o -> zlen (to_output_script o) < 252 -> s <> [] -> to_bytes_ o = q ++ s ->
  TxOut_from_bytes net q = Ok y -> zlen q - 0 <= zlen (to_bytes_ y).
Proof.
  intros O L S E Y. pose proof (TxOut_long _ _ _ Y) as Q.
  destruct (TxOut_cut_accepted net o q s O L S E Q) as [r [R T]]. rewrite T in Y. apply Ok_inj in Y. subst y. cbn [to_bytes_].
  apply txout_obj_iff in O. destruct O as [A [B C]].
  assert (zlen q + zlen s = zlen (to_bytes_ o)) as X by (rewrite E, zlen_app; reflexivity).
  pose proof (zlen_nonneg (to_output_script o)).
  rewrite C, compactsize_small, !zlen_app, R, zlen_app in X by lia. change (zlen [_]) with 1 in X.
  rewrite !zlen_app. change (zlen [_]) with 1. lia.
Qed.

Lemma Item_cut net w q s y : witem_obj w -> zlen (wi_item w) < 2 ^ 16 -> readable net (zlen (wi_item w)) -> s <> [] -> wi_bytes w = q ++ s ->
  WitnessStackItem_from_bytes net q = Ok y -> zlen q - 2 <= zlen (wi_bytes y).
Proof.
  intros O L R S E Y. apply witem_obj_iff in O. destruct O as [_ C].
  set (n := zlen (wi_item w)) in *. assert (0 <= n) as N by apply zlen_nonneg.
  unfold WitnessStackItem_from_bytes in Y. apply bind_Ok in Y. destruct Y as [v [V Y]].
  set (it := slice q _ _) in Y. pose proof Y as Y'. rewrite WitnessStackItem_spec in Y'.
  destruct (zlen it <? 2 ^ 64) eqn:I64; [|discriminate]. apply Ok_inj in Y'. subst y. cbn [wi_bytes].
  rewrite zlen_app. pose proof (zlen_compactsize_pos (zlen it)). pose proof (zlen_nonneg it).
  rewrite C in E. apply app_eq_app in E. destruct E as [l [[E1 E2]|[E1 E2]]].
  - destruct l as [|b l].
    + rewrite app_nil_r in E1. rewrite <- E1. rewrite zlen_compactsize. destruct (n <? 253); [lia|].
      destruct (Z.ltb_spec n (2 ^ 16)); lia.
    + pose proof (compactsize_cut net n q (b :: l) v) as Q. rewrite Q; [lia|lia|discriminate|exact E1|exact V].
  - subst q. rewrite VarInt_roundtrip in V by (try exact R; change (2 ^ 64) with 18446744073709551616; change (2 ^ 16) with 65536 in L; lia).
    apply Ok_inj in V. subst v. cbn [vi_number vi_bytes] in it.
    assert (zlen l + zlen s = n) as Ln by (unfold n; rewrite E2, zlen_app; reflexivity).
    pose proof (zlen_nonneg s). pose proof (zlen_nonneg l).
    assert (it = l) as ->.
    { unfold it. rewrite slice_skip by (pose proof (zlen_compactsize_pos n); lia).
      rewrite slice_firstn by lia. replace (Z.to_nat (zlen (compactsize n) - zlen (compactsize n))) with 0%nat by lia. cbn [skipn].
      apply firstn_all2. unfold zlen in *. lia. }
    rewrite zlen_app. assert (zlen (compactsize n) <= 3); [|lia].
    rewrite zlen_compactsize. destruct (n <? 253); [lia|]. destruct (Z.ltb_spec n (2 ^ 16)); lia.
Qed.

Lemma sum_zlen {A} (w : A -> bytes) l : fold_right Z.add 0 (map (fun x => zlen (w x)) l) = zlen (concat (map w l)).
Proof. induction l as [|x l IH]; [reflexivity|]. cbn [map concat fold_right]. rewrite zlen_app, IH. reflexivity. Qed.

Definition small_witness (w : witness) : Prop := zlen (wit_stack w) < 2 ^ 16 /\ Forall (fun i => zlen (wi_item i) < 2 ^ 16) (wit_stack w).

Lemma Witness_cut net w q s y : witness_obj w -> readable_witness net w -> small_witness w -> s <> [] -> wit_bytes w = q ++ s ->
  InputWitness_from_bytes net q = Ok y -> zlen q - 2 <= zlen (wit_bytes y).
Proof.
  intros O [R1 R2] [M1 M2] S E Y. apply witness_obj_iff in O. destruct O as [F [_ C]].
  set (n := zlen (wit_stack w)) in *. assert (0 <= n) as N by apply zlen_nonneg.
  unfold InputWitness_from_bytes in Y. apply bind_Ok in Y. destruct Y as [v [V Y]].
  apply bind_Ok in Y. destruct Y as [[zs c'] [RM Y]]. rewrite InputWitness_spec in Y.
  destruct (zlen zs <? 2 ^ 64) eqn:I64; [|discriminate]. apply Ok_inj in Y. subst y. cbn [wit_bytes].
  rewrite zlen_app. pose proof (zlen_compactsize_pos (zlen zs)). pose proof (zlen_nonneg (concat (map wi_bytes zs))).
  rewrite C in E. apply app_eq_app in E. destruct E as [l [[E1 E2]|[E1 E2]]].
  - destruct l as [|b l].
    + rewrite app_nil_r in E1. rewrite <- E1. rewrite zlen_compactsize. destruct (n <? 253); [lia|].
      destruct (Z.ltb_spec n (2 ^ 16)); lia.
    + pose proof (compactsize_cut net n q (b :: l) v) as Q. rewrite Q; [lia|lia|discriminate|exact E1|exact V].
  - subst q. rewrite VarInt_roundtrip in V by (try exact R1; change (2 ^ 64) with 18446744073709551616; change (2 ^ 16) with 65536 in M1; lia).
    apply Ok_inj in V. subst v. cbn [vi_number vi_bytes] in RM.
    pose proof (read_many_shape _ _ _ _ _ _ _ _ RM) as [Lz [Cz _]]. rewrite sum_zlen in Cz.
    rewrite Z.max_r in Lz by lia.
    apply (read_many_cut _ _ wi_bytes 2 (wit_stack w) (wit_stack w)) with (q := s) (tail := []) in RM.
    + rewrite Lz. destruct RM as [[r' [_ [T _]]]|RM]; [|rewrite zlen_app in RM |- *; lia].
      symmetry in T. apply app_eq_nil in T. tauto.
    + apply Forall2_refl_in. intros x I. rewrite Forall_forall in F, R2. split; [|reflexivity].
      intros r. apply WitnessStackItem_parse; [apply F, I|apply R2, I].
    + intros. apply zlen_nonneg.
    + intros x q' s' y I S' E' Y. rewrite Forall_forall in F, R2, M2. apply (Item_cut net x q' s' y); auto.
    + reflexivity.
    + reflexivity.
    + rewrite app_nil_r. symmetry. exact E2.
Qed.

(** * transactions *)

(* p is at least as long as a, so it starts with a *)
Lemma long_prefix {A} (p q a b : list A) : p ++ q = a ++ b -> zlen a <= zlen p -> exists r, p = a ++ r /\ b = r ++ q.
Proof.
  intros E L. apply app_eq_app in E. destruct E as [l [[E1 E2]|[E1 E2]]]; [eauto|].
  assert (zlen a = zlen p + zlen l) as X by (rewrite E1, zlen_app; reflexivity).
  assert (l = []) as -> by (apply zlen_0; pose proof (zlen_nonneg l); lia).
  rewrite app_nil_r in E1. subst a. exists []. rewrite app_nil_r. split; [reflexivity|]. symmetry. exact E2.
Qed.

Lemma cut_prefix name net pre ins outs ins' k tail p q fuel v1 v2 is c2 os c4 : get_network name = Ok net ->
  Forall2 (fun i i' => (forall r, TxIn_from_bytes net (ti_bytes i ++ r) = Ok i') /\ zlen (ti_bytes i') = zlen (ti_bytes i)) ins ins' ->
  Forall txin_obj ins -> Forall (fun i => readable net (zlen (ti_script_sig i))) ins ->
  Forall txout_obj outs -> Forall (fun o => zlen (to_output_script o) < 252) outs ->
  readable net (zlen ins) -> readable net (zlen outs) -> zlen ins < 2 ^ 64 -> zlen outs < 2 ^ 64 -> zlen pre = k ->
  p ++ q = pre ++ compactsize (zlen ins) ++ concat (map ti_bytes ins) ++ compactsize (zlen outs) ++ concat (map to_bytes_ outs) ++ tail ->
  VarInt_from_bytes net (slice_from p k) = Ok v1 ->
  read_many (TxIn_from_bytes net) (fun i => zlen (ti_bytes i)) fuel p (vi_number v1) (k + zlen (vi_bytes v1)) = Ok (is, c2) ->
  VarInt_from_bytes net (slice_from p c2) = Ok v2 ->
  read_many (TxOut_from_bytes net) (fun o => zlen (to_bytes_ o)) fuel p (vi_number v2) (c2 + zlen (vi_bytes v2)) = Ok (os, c4) ->
  1 <= zlen is -> 1 <= zlen os -> c4 < zlen p ->
  is = ins' /\ os = outs /\ vi_number v1 = zlen ins /\
  exists pre' r, p = pre' ++ r /\ tail = r ++ q /\ c4 = zlen pre' /\
    pre' = pre ++ compactsize (zlen ins) ++ concat (map ti_bytes ins) ++ compactsize (zlen outs) ++ concat (map to_bytes_ outs).
Proof.
  intros En F Fi Ri Fo Lo Rn Rm Ni No K E V1 R1 V2 R2 L1 L2 L4.
  pose proof (zlen_nonneg ins) as Z1. pose proof (zlen_nonneg outs) as Z2. pose proof (zlen_nonneg pre) as Z3.
  pose proof (VarInt_read_shape _ _ _ V1) as [N1 [B1 _]]. pose proof (VarInt_read_shape _ _ _ V2) as [N2 [B2 B2']].
  (* the number of inputs is complete *)
  destruct (read_many_first _ _ _ _ _ _ _ _ R1 L1) as [y Y]. apply TxIn_long in Y. rewrite zlen_slice_from in Y by lia.
  pose proof (zlen_compactsize_pos (zlen ins)) as C1. pose proof (zlen_compactsize_pos (zlen outs)) as C2.
  rewrite (app_assoc pre) in E. apply long_prefix in E; [|rewrite zlen_app; lia]. destruct E as [r1 [P1 E]].
  rewrite P1, <- app_assoc, slice_from_app in V1 by exact K.
  rewrite VarInt_roundtrip in V1 by (try exact Rn; lia). apply Ok_inj in V1. subst v1. cbn [vi_number vi_bytes] in *.
  (* the inputs are complete *)
  rewrite P1 in R1. apply (read_many_cut _ _ ti_bytes 0 ins ins' F) with (q := q) (tail := compactsize (zlen outs) ++ concat (map to_bytes_ outs) ++ tail) in R1;
    [|intros; apply zlen_nonneg| |reflexivity|rewrite zlen_app; lia|symmetry; exact E].
  2:{ intros x q' s' y' I S' E' Y'. rewrite Forall_forall in Fi, Ri. destruct (TxIn_cut net x q' s' (Fi x I) (Ri x I) S' E') as [e X].
      rewrite X in Y'. discriminate. }
  rewrite <- P1 in R1. destruct R1 as [[r2 [P2 [E2 [-> Hc2]]]]|R1];
    [|exfalso; rewrite slice_beyond in V2 by lia; discriminate V2].
  (* the number of outputs is complete *)
  assert (0 <= c2) as C2' by (rewrite Hc2; pose proof (zlen_nonneg (concat (map ti_bytes ins))); lia).
  destruct (read_many_first _ _ _ _ _ _ _ _ R2 L2) as [y' Y']. apply TxOut_long in Y'. rewrite zlen_slice_from in Y' by lia.
  set (p2 := (pre ++ compactsize (zlen ins)) ++ concat (map ti_bytes ins)).
  assert (p = p2 ++ r2) as Pp by (unfold p2; rewrite P1, P2, !app_assoc; reflexivity).
  assert (zlen p2 = c2) as Lp2 by (unfold p2; rewrite !zlen_app; lia).
  symmetry in E2. apply long_prefix in E2; [|assert (zlen p = c2 + zlen r2) by (rewrite Pp, zlen_app; lia); lia].
  destruct E2 as [r3 [P3 E3]].
  rewrite Pp, slice_from_app, P3 in V2 by exact Lp2.
  rewrite VarInt_roundtrip in V2 by (try exact Rm; lia). apply Ok_inj in V2. subst v2. cbn [vi_number vi_bytes] in *.
  (* the outputs are complete *)
  assert (p = (p2 ++ compactsize (zlen outs)) ++ r3) as P4 by (rewrite Pp, P3, app_assoc; reflexivity).
  rewrite P4 in R2. apply (read_many_cut _ _ to_bytes_ 0 outs outs) with (q := q) (tail := tail) in R2;
    [| |intros; apply zlen_nonneg| |reflexivity|rewrite zlen_app; lia|symmetry; exact E3].
  2:{ apply Forall2_refl_in. intros x I. rewrite Forall_forall in Fo, Lo. split; [|reflexivity]. intros r. apply TxOut_parse; auto. }
  2:{ intros x q' s' z I S' E' Z'. rewrite Forall_forall in Fo, Lo. apply (TxOut_cut net x q' s' z); auto. }
  rewrite <- P4 in R2. destruct R2 as [[r4 [P5 [E4 [-> Hc4]]]]|R2]; [|lia].
  split; [reflexivity|]. split; [reflexivity|]. split; [reflexivity|].
  exists ((p2 ++ compactsize (zlen outs)) ++ concat (map to_bytes_ outs)), r4. split; [rewrite P4, P5, app_assoc; reflexivity|].
  split; [exact E4|]. split; [rewrite !zlen_app; lia|]. unfold p2. rewrite <- !app_assoc. reflexivity.
Qed.

Section Tx.
Context (H : hashes).

Lemma Tx_from_bytes_inv net p t' : Tx_from_bytes H net p = Ok t' ->
  exists (k : Z) fl v1 is c2 v2 os c4 ws c5,
    (if leqb (slice p 4 6) (SEGWIT_TX_FLAG net) then (6, Some (SEGWIT_TX_FLAG net)) else (4, None)) = (k, fl) /\
    VarInt_from_bytes net (slice_from p k) = Ok v1 /\
    read_many (TxIn_from_bytes net) (fun i => zlen (ti_bytes i)) (S (length p)) p (vi_number v1) (k + zlen (vi_bytes v1)) = Ok (is, c2) /\
    VarInt_from_bytes net (slice_from p c2) = Ok v2 /\
    read_many (TxOut_from_bytes net) (fun o => zlen (to_bytes_ o)) (S (length p)) p (vi_number v2) (c2 + zlen (vi_bytes v2)) = Ok (os, c4) /\
    (if (match fl with Some f => negb (leqb f []) | None => false end) && (4 <? zlen (slice_from p c4))
     then read_many (InputWitness_from_bytes net) (fun w => zlen (wit_bytes w)) (S (length p)) p (vi_number v1) c4
     else Ok ([], c4)) = Ok (ws, c5) /\
    Tx H net (slice p 0 4) fl is os (Some ws) (slice p c5 (c5 + 4)) = Ok t'.
Proof.
  unfold Tx_from_bytes. intros E.
  destruct (if leqb (slice p 4 6) (SEGWIT_TX_FLAG net) then (6, Some (SEGWIT_TX_FLAG net)) else (4, None)) as [k fl].
  apply bind_Ok in E. destruct E as [v1 [V1 E]]. apply bind_Ok in E. destruct E as [[is c2] [R1 E]].
  apply bind_Ok in E. destruct E as [v2 [V2 E]]. apply bind_Ok in E. destruct E as [[os c4] [R2 E]].
  apply bind_Ok in E. destruct E as [[ws c5] [R3 E]].
  exists k, fl, v1, is, c2, v2, os, c4, ws, c5. auto 10.
Qed.

Lemma stripped_length name net t : get_network name = Ok net -> tx_obj H net t ->
  zlen (wire_tx (stripped (the_tx t))) =
  zlen (tx_version t ++ compactsize (zlen (tx_tx_ins t)) ++ concat (map ti_bytes (tx_tx_ins t)) ++
        compactsize (zlen (tx_tx_outs t)) ++ concat (map to_bytes_ (tx_tx_outs t))) + zlen (tx_lock_time t).
Proof.
  intros En O. apply tx_obj_iff in O. destruct O as [Fi [Fo [_ [A _]]]].
  assert (tx_args_ok net (tx_version t) None (tx_tx_ins t) (tx_tx_outs t) None (tx_lock_time t) = true) as A'.
  { unfold tx_args_ok in *. rewrite !andb_true_iff in *. tauto. }
  destruct (body_wire net _ _ _ _ _ _ name En A' Fi Fo I) as [B _].
  unfold body in B. cbn [app] in B. unfold stripped, the_tx. cbn [t_version t_ins t_outs t_lock]. cbn [the_witnesses] in B.
  transitivity (zlen (tx_version t ++ compactsize (zlen (tx_tx_ins t)) ++ concat (map ti_bytes (tx_tx_ins t)) ++
        compactsize (zlen (tx_tx_outs t)) ++ concat (map to_bytes_ (tx_tx_outs t)) ++ tx_lock_time t)).
  - f_equal. rewrite B. reflexivity.
  - rewrite !zlen_app. lia.
Qed.

Theorem Tx_cut name net t p q t' : get_network name = Ok net -> tx_obj H net t -> parsable name (the_tx t) ->
  Forall small_witness (the_witnesses t) -> q <> [] -> tx_bytes t = p ++ q -> Tx_from_bytes H net p = Ok t' ->
  tx_flag t <> None /\ zlen p = zlen (wire_tx (stripped (the_tx t))) + 2.
Proof.
  intros En O P SW Q E T. pose proof (proj1 (tx_obj_iff H net t) O) as [Fi [Fo [Fw [A Et]]]].
  destruct P as [[R1 [R2 [Pi Pw]]] Po]. unfold the_tx in R1, R2, Pi, Po, Pw. cbn [t_ins t_outs t_witness] in *.
  unfold count in R1, R2. rewrite map_length in R1, R2. fold (zlen (tx_tx_ins t)) in R1. fold (zlen (tx_tx_outs t)) in R2.
  destruct (parsable_ins name net _ En Fi Pi) as [ins' [F2 [SI Fi']]]. destruct (same_inputs _ _ SI) as [S1 [S2 S3]].
  assert (Forall (fun i => readable net (zlen (ti_script_sig i))) (tx_tx_ins t)) as Ri.
  { rewrite Forall_map in Pi. eapply Forall_impl; [|exact Pi]. intros i [X _]. apply (readable_spec name net _ En X). }
  rewrite Forall_map in Po. apply (readable_spec name net _ En) in R1. apply (readable_spec name net _ En) in R2.
  pose proof A as A'. unfold tx_args_ok in A'. rewrite !andb_true_iff in A'.
  destruct A' as [[[[[[[A1 A2] A3] A4] A5] A6] A7] A8]. apply Z.eqb_eq in A1, A2.
  assert (SEGWIT_TX_FLAG net = marker_and_flag) as SF by (apply (segwit_flag name), En).
  assert (tx_bytes t = body (tx_flag t) (tx_version t) (tx_tx_ins t) (tx_tx_outs t) (tx_tx_witnesses t) (tx_lock_time t)) as Eb
    by (rewrite Et; reflexivity).
  rewrite Eb in E. unfold body in E.
  set (wsb := match tx_tx_witnesses t with Some ws => concat (map wit_bytes ws) | None => [] end) in *.
  pose proof (zlen_pos _ Q) as Lq.
  (* the parse *)
  apply Tx_from_bytes_inv in T. destruct T as [k [fl [v1 [is [c2 [v2 [os [c4 [ws [c5 [Hk [V1 [I1 [V2 [I2 [W T]]]]]]]]]]]]]]]].
  apply Tx_Ok in T. destruct T as [T _]. unfold tx_args_ok in T. rewrite !andb_true_iff in T.
  destruct T as [[[[[[[_ T2] _] _] T5] _] T7] _]. apply Z.eqb_eq in T2. apply Z.leb_le in T5, T7.
  assert (k = 4 \/ k = 6) as K46 by (destruct (leqb (slice p 4 6) _); injection Hk as <- _; auto).
  pose proof (VarInt_read_shape _ _ _ V1) as [N1 [B1 _]]. pose proof (VarInt_read_shape _ _ _ V2) as [N2 [B2 _]].
  assert (46 <= zlen p) as L46.
  { destruct (read_many_first _ _ _ _ _ _ _ _ I1 T5) as [y Y]. apply TxIn_long in Y. rewrite zlen_slice_from in Y by lia. lia. }
  assert (c2 <= c4) as C24.
  { apply read_many_forward in I2; [lia|]. intros. apply zlen_nonneg. }
  assert (0 <= c2) as C2. { apply read_many_forward in I1; [lia|]. intros. apply zlen_nonneg. }
  assert (c4 <= c5) as C45.
  { destruct (_ && _) in W; [|apply Ok_inj in W; injection W as _ <-; lia]. apply read_many_forward in W; [lia|]. intros. apply zlen_nonneg. }
  rewrite zlen_slice in T2 by lia.
  rewrite (stripped_length name net t En O).
  destruct (tx_flag t) as [f|] eqn:Ef.
  - split; [discriminate|].
    unfold flag_ok in A3. apply leqb_eq in A3. rewrite SF in A3. subst f.
    assert (leqb (slice p 4 6) (SEGWIT_TX_FLAG net) = true) as HF.
    { pose proof E as X. symmetry in X. rewrite (app_assoc (tx_version t)) in X.
      apply long_prefix in X; [|rewrite zlen_app, A1; change (zlen marker_and_flag) with 2; lia].
      destruct X as [r [-> _]]. rewrite SF, <- app_assoc. apply flagged_head, A1. }
    rewrite HF, SF in Hk. injection Hk as <- <-.
    rewrite (app_assoc (tx_version t)) in E.
    destruct (cut_prefix name net (tx_version t ++ marker_and_flag) (tx_tx_ins t) (tx_tx_outs t) ins' 6 (wsb ++ tx_lock_time t) p q
      (S (length p)) v1 v2 is c2 os c4 En F2 Fi Ri Fo Po R1 R2) as [-> [-> [Nv [pre' [r [Pp [Et' [C4 Pre]]]]]]]];
      [lia|lia|rewrite zlen_app, A1; reflexivity|symmetry; exact E|exact V1|exact I1|exact V2|exact I2|exact T5|exact T7|lia|].
    assert (slice_from p c4 = r) as Sr by (rewrite Pp; apply slice_from_app; lia).
    change (negb (leqb marker_and_flag [])) with true in W. cbn [andb] in W. rewrite Sr in W.
    assert (zlen p = c4 + zlen r) as Lp by (rewrite Pp, zlen_app; lia).
    enough (zlen r = 4) as Lr.
    { rewrite Lp, C4, Pre, Lr, A2. rewrite !zlen_app. change (zlen marker_and_flag) with 2. lia. }
    destruct (Z.ltb_spec 4 (zlen r)) as [G|G].
    2:{ apply Ok_inj in W. injection W as <- <-. lia. }
    exfalso.
    assert (zlen r + zlen q = zlen wsb + 4) as Lrq by (rewrite <- zlen_app, <- Et', zlen_app; lia).
    destruct (tx_tx_witnesses t) as [ws0|] eqn:Ew; [|change (zlen wsb) with 0 in Lrq; lia].
    assert (the_witnesses t = ws0) as Tw by (unfold the_witnesses; rewrite Ew; reflexivity). rewrite Tw in *.
    unfold wits_ok in A4. cbn [andb] in A4. apply orb_true_iff in A4. destruct A4 as [A4|A4].
    { apply Z.eqb_eq, zlen_0 in A4. subst ws0. change (zlen wsb) with 0 in Lrq. lia. }
    apply Z.eqb_eq in A4. pose proof (parsable_ws name net _ En Fw Pw) as Rw. rewrite Forall_forall in Rw, SW.
    rewrite Pp in W. rewrite Nv in W.
    apply (read_many_cut _ _ wit_bytes 2 ws0 ws0) with (q := q) (tail := tx_lock_time t) in W.
    + destruct W as [[r' [X1 [X2 [_ X3]]]]|X].
      * assert (zlen p = c5 + zlen r') by (rewrite Pp, X1, !zlen_app; lia).
        assert (zlen r' + zlen q = 4) by (rewrite <- zlen_app, <- X2; exact A2). lia.
      * rewrite <- Pp in X. lia.
    + apply Forall2_refl_in. intros x I. split; [|reflexivity]. intros r0. apply InputWitness_parse; apply (Rw x I).
    + intros. apply zlen_nonneg.
    + intros x q' s' y I S' E' Y. destruct (Rw x I) as [O1 O2]. apply (Witness_cut net x q' s' y); auto.
    + symmetry. exact A4.
    + exact C4.
    + symmetry. exact Et'.
  - exfalso.
    assert (wsb = []) as Wb.
    { unfold wsb. destruct (tx_tx_witnesses t) as [ws0|]; [|reflexivity]. unfold wits_ok in A4. cbn [andb] in A4. rewrite orb_false_r in A4.
      apply Z.eqb_eq, zlen_0 in A4. subst ws0. reflexivity. }
    rewrite Wb in E. cbn [app] in E.
    assert (leqb (slice p 4 6) (SEGWIT_TX_FLAG net) = false) as HF.
    { pose proof E as X. symmetry in X. rewrite (app_assoc (tx_version t)) in X.
      apply long_prefix in X; [|rewrite zlen_app, A1; pose proof (zlen_compactsize_pos (zlen (tx_tx_ins t))); lia].
      destruct X as [r [-> _]]. rewrite SF, <- app_assoc. apply legacy_head; [exact A1|]. lia. }
    rewrite HF in Hk. injection Hk as <- <-. cbn [andb] in W. apply Ok_inj in W. injection W as <- <-.
    destruct (cut_prefix name net (tx_version t) (tx_tx_ins t) (tx_tx_outs t) ins' 4 (tx_lock_time t) p q
      (S (length p)) v1 v2 is c2 os c4 En F2 Fi Ri Fo Po R1 R2) as [-> [-> [Nv [pre' [r [Pp [Et' [C4 Pre]]]]]]]];
      [lia|lia|exact A1|symmetry; exact E|exact V1|exact I1|exact V2|exact I2|exact T5|exact T7|lia|].
    assert (zlen p = c4 + zlen r) as Lp by (rewrite Pp, zlen_app; lia).
    assert (zlen r + zlen q = 4) as Lrq by (rewrite <- zlen_app, <- Et'; exact A2). lia.
Qed.
End Tx.

Section Accepted.
Context (H : hashes).

Lemma Tx_cut_accepted name net t p q : get_network name = Ok net -> tx_obj H net t -> parsable name (the_tx t) ->
  tx_flag t <> None -> tx_bytes t = p ++ q -> zlen p = zlen (wire_tx (stripped (the_tx t))) + 2 ->
  exists front r t', p = front ++ r /\ zlen r = 4 /\ Tx_from_bytes H net p = Ok t' /\
    the_tx t' = {| t_version := t_version (the_tx t); t_ins := t_ins (the_tx t); t_outs := t_outs (the_tx t);
                   t_witness := Some []; t_lock := r |}.
Proof.
  intros En O P Hf E L. pose proof (proj1 (tx_obj_iff H net t) O) as [Fi [Fo [Fw [A Et]]]].
  rewrite (stripped_length H name net t En O) in L.
  pose proof A as A'. unfold tx_args_ok in A'. rewrite !andb_true_iff in A'.
  destruct A' as [[[[[[[A1 A2] A3] A4] A5] A6] A7] A8]. apply Z.eqb_eq in A1, A2.
  assert (SEGWIT_TX_FLAG net = marker_and_flag) as SF by (apply (segwit_flag name), En).
  assert (tx_bytes t = body (tx_flag t) (tx_version t) (tx_tx_ins t) (tx_tx_outs t) (tx_tx_witnesses t) (tx_lock_time t)) as Eb
    by (rewrite Et; reflexivity).
  destruct (tx_flag t) as [f|] eqn:Ef; [|congruence]. unfold flag_ok in A3. apply leqb_eq in A3. rewrite SF in A3. subst f.
  rewrite Eb in E. unfold body in E.
  set (wsb := match tx_tx_witnesses t with Some ws => concat (map wit_bytes ws) | None => [] end) in *.
  set (front := tx_version t ++ marker_and_flag ++ compactsize (zlen (tx_tx_ins t)) ++ concat (map ti_bytes (tx_tx_ins t)) ++
    compactsize (zlen (tx_tx_outs t)) ++ concat (map to_bytes_ (tx_tx_outs t))).
  assert (zlen p = zlen front + 4) as Lp.
  { unfold front. rewrite L, A2, !zlen_app. change (zlen marker_and_flag) with 2. lia. }
  assert (p ++ q = front ++ wsb ++ tx_lock_time t) as E' by (rewrite <- E; unfold front; rewrite <- !app_assoc; reflexivity).
  apply long_prefix in E'; [|lia]. destruct E' as [r [Pp _]].
  assert (zlen r = 4) as Lr by (rewrite Pp, zlen_app in Lp; lia).
  set (t2 := tx_of H net (tx_version t) (Some marker_and_flag) (tx_tx_ins t) (tx_tx_outs t) (Some []) r).
  assert (tx_obj H net t2) as O2.
  { apply tx_obj_iff. unfold t2. cbn [tx_of tx_tx_ins tx_tx_outs tx_tx_witnesses tx_version tx_flag tx_lock_time].
    split; [exact Fi|]. split; [exact Fo|]. split; [constructor|]. split; [|reflexivity].
    unfold tx_args_ok. rewrite A1, Lr, A5, A6, A7, A8. unfold flag_ok. rewrite SF. reflexivity. }
  assert (tx_bytes t2 = p) as B2.
  { unfold t2. cbn [tx_of tx_bytes]. rewrite Pp. unfold body, front. cbn [map concat app]. rewrite <- !app_assoc. reflexivity. }
  assert (the_tx t2 = {| t_version := t_version (the_tx t); t_ins := t_ins (the_tx t); t_outs := t_outs (the_tx t);
                   t_witness := Some []; t_lock := r |}) as T2 by reflexivity.
  assert (parsable name (the_tx t2)) as P2.
  { rewrite T2. destruct P as [[P1 [P2 [P3 _]]] P4]. unfold parsable, kept_tx. cbn [t_ins t_outs t_witness]. auto. }
  destruct (tx_parse H name net t2 [] En O2 P2 (or_intror eq_refl)) as [t' [X1 [_ [X2 _]]]].
  exists front, r, t'. rewrite app_nil_r, B2 in X1. rewrite X2. auto.
Qed.
End Accepted.
