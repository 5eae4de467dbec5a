(* Lemmas about the VarInt part of MShared.v *)
From Coq Require Import ZifyBool ZifyNat String.
From Verif Require Import Py LBase MNet MUtils MShared SNum SNet LUtils LNet.
Open Scope list_scope.
Open Scope Z_scope.
Ltac Zify.zify_post_hook ::= Z.div_mod_to_equations.

Lemma pad_to_short b l : l <= zlen b -> pad_to b l = b.
Proof.
  intros Hl. unfold pad_to, zrepeat. replace (Z.to_nat (l - zlen b)) with O by lia.
  apply app_nil_r.
Qed.

(* i2le padded with zeros to k bytes is the k-byte string *)
Lemma i2le_pad n k : 0 <= n < 256 ^ Z.of_nat k -> (0 < k)%nat ->
  exists b, i2le n = Ok b /\ zlen b <= Z.of_nat k /\
            b ++ zrepeat 0 (Z.of_nat k - zlen b) = to_le k n /\ 1 <= zlen b.
Proof.
  intros Hn Hk. destruct (i2le_Ok n) as [j [E [R M]]]; [lia|].
  exists (to_le (S j) n). rewrite zlen_to_le.
  assert (S j <= k)%nat as J.
  { destruct M as [->|M]; [lia|]. destruct (le_lt_dec (S j) k); [assumption|].
    pose proof (pow256_mono (Z.of_nat k) (Z.of_nat j)). lia. }
  split; [exact E|]. split; [lia|]. split; [|lia].
  unfold zrepeat. replace (Z.to_nat (Z.of_nat k - Z.of_nat (S j))) with (k - S j)%nat by lia.
  rewrite <- to_le_pad by lia. f_equal. lia.
Qed.

Lemma i2le_small n : 0 <= n < 256 -> i2le n = Ok [n].
Proof.
  intros Hn. destruct (i2le_pad n 1) as [b [E [L [P G]]]]; [cbn; lia|lia|].
  rewrite E. f_equal. change (Z.of_nat 1) with 1 in *. replace (1 - zlen b) with 0 in P by lia.
  unfold zrepeat in P. cbn [Z.to_nat repeat] in P. rewrite app_nil_r in P. rewrite P.
  cbn. f_equal. lia.
Qed.

(* the three wide forms *)
Lemma varint_wide n k pre :
  0 <= n < 256 ^ Z.of_nat k -> (0 < k)%nat -> zlen pre = 1 ->
  exists b, i2le n = Ok b /\ pad_to (pre ++ b) (Z.of_nat (S k)) = pre ++ to_le k n.
Proof.
  intros Hn Hk Hp. destruct (i2le_pad n k Hn Hk) as [b [E [L [P _]]]].
  exists b. split; [exact E|]. unfold pad_to. rewrite zlen_app, Hp, <- app_assoc, <- P.
  do 3 f_equal. lia.
Qed.

Lemma VarInt_out_of_range n l : ~ 0 <= n < 2 ^ 64 -> VarInt n l = Err ValueError.
Proof.
  intros Hn. unfold VarInt. change (2 ^ 64) with 18446744073709551616 in Hn.
  destruct (n <? 0) eqn:E1; [reflexivity|]. destruct (0xffffffffffffffff <? n) eqn:E2; [reflexivity|].
  lia.
Qed.

(* what the constructor computes, for every length argument it receives *)
Definition varint_bytes (n : Z) (l : option Z) : bytes :=
  if n <=? 0xfc then n :: zrepeat 0 (match l with Some x => x - 1 | None => 0 end)
  else if n <? 2 ^ 16 then 253 :: to_le 2 n
  else if n <? 2 ^ 32 then 254 :: to_le 4 n
  else 255 :: to_le 8 n.

Lemma VarInt_Ok n l :
  0 <= n < 2 ^ 64 -> l <> Some 3 \/ n < 2 ^ 16 -> l <> Some 5 \/ n < 2 ^ 32 ->
  VarInt n l = Ok {| vi_number := n; vi_bytes := varint_bytes n l |}.
Proof.
  change (2 ^ 64) with 18446744073709551616. change (2 ^ 16) with 65536. change (2 ^ 32) with 4294967296.
  intros Hn H3 H5. unfold VarInt, varint_bytes.
  change (2 ^ 16) with 65536. change (2 ^ 32) with 4294967296.
  destruct (n <? 0) eqn:E1; [lia|]. destruct (0xffffffffffffffff <? n) eqn:E2; [lia|].
  cbn [guard bind].
  assert (match l with Some l0 => l0 =? 3 | None => false end = true -> n < 65536) as L3.
  { destruct l as [x|]; [|discriminate]. intros E. destruct H3 as [H3|H3]; [|exact H3].
    exfalso. apply H3. f_equal. lia. }
  assert (match l with Some l0 => l0 =? 5 | None => false end = true -> n < 4294967296) as L5.
  { destruct l as [x|]; [|discriminate]. intros E. destruct H5 as [H5|H5]; [|exact H5].
    exfalso. apply H5. f_equal. lia. }
  set (is3 := match l with Some l0 => l0 =? 3 | None => false end) in *.
  set (is5 := match l with Some l0 => l0 =? 5 | None => false end) in *.
  set (is9 := match l with Some l0 => l0 =? 9 | None => false end) in *. clearbody is3 is5 is9.
  destruct (n <=? 0xfc) eqn:F1.
  { rewrite i2le_small by lia. cbn [bind app]. f_equal. f_equal. destruct l as [x|]; [|reflexivity].
    unfold pad_to. change (zlen [n]) with 1. reflexivity. }
  destruct ((n <=? 0xffff) || is3) eqn:F2.
  { destruct (n <? 65536) eqn:G; [|destruct is3; [specialize (L3 eq_refl)|]; lia].
    destruct (varint_wide n 2 [253]) as [b [E P]]; [cbn; lia|lia|reflexivity|].
    rewrite E. cbn [bind]. change 3 with (Z.of_nat 3). rewrite P. reflexivity. }
  destruct (n <? 65536) eqn:G; [lia|].
  destruct ((n <=? 0xffffffff) || is5) eqn:F3.
  { destruct (n <? 4294967296) eqn:G2; [|destruct is5; [specialize (L5 eq_refl)|]; lia].
    destruct (varint_wide n 4 [254]) as [b [E P]]; [cbn; lia|lia|reflexivity|].
    rewrite E. cbn [bind]. change 5 with (Z.of_nat 5). rewrite P. reflexivity. }
  destruct (n <? 4294967296) eqn:G2; [lia|].
  destruct ((n <=? 0xffffffffffffffff) || is9) eqn:F4; [|lia].
  destruct (varint_wide n 8 [255]) as [b [E P]]; [cbn; lia|lia|reflexivity|].
  rewrite E. cbn [bind]. change 9 with (Z.of_nat 9). rewrite P. reflexivity.
Qed.

Lemma varint_bytes_None n : varint_bytes n None = compactsize n.
Proof.
  unfold varint_bytes, compactsize. rewrite !le_bytes_to_le.
  destruct (n <=? 0xfc) eqn:E1, (n <? 253) eqn:E2; try lia; reflexivity.
Qed.

Lemma VarInt_None n : 0 <= n < 2 ^ 64 ->
  VarInt n None = Ok {| vi_number := n; vi_bytes := compactsize n |}.
Proof. intros Hn. rewrite VarInt_Ok, varint_bytes_None; [reflexivity|exact Hn|left|left]; discriminate. Qed.

Lemma VarInt_Ok_inv n l v : VarInt n l = Ok v -> vi_number v = n /\ 0 <= n < 2 ^ 64.
Proof.
  intros E. destruct (Z.ltb_spec n 0).
  { rewrite VarInt_out_of_range in E by lia. discriminate. }
  destruct (Z.leb_spec (2 ^ 64) n).
  { rewrite VarInt_out_of_range in E by lia. discriminate. }
  split; [|lia]. unfold VarInt in E. inv_bind.
  repeat match type of E with context [if ?c then _ else _] => destruct c end;
    inv_bind; apply Ok_inj in E; subst; reflexivity.
Qed.

Lemma is_bytes_compactsize n : 0 <= n < 2 ^ 64 -> is_bytes (compactsize n).
Proof.
  intros Hn. unfold compactsize. rewrite !le_bytes_to_le.
  destruct (n <? 253) eqn:E1; [repeat constructor; lia|].
  destruct (n <? 2 ^ 16); [|destruct (n <? 2 ^ 32)]; (constructor; [unfold is_byte; lia|apply to_le_bytes]).
Qed.

Lemma compactsize_is_encoding n : 0 <= n < 2 ^ 64 -> compactsize_of (compactsize n) n.
Proof.
  change (2 ^ 64) with 18446744073709551616.
  intros Hn. unfold compactsize. rewrite !le_bytes_to_le.
  change (2 ^ 16) with 65536. change (2 ^ 32) with 4294967296.
  assert (forall k, n < 256 ^ Z.of_nat k -> le_value (to_le k n) = n) as V.
  { intros k Hk. norm_spec. rewrite from_to_le. apply Z.mod_small. lia. }
  destruct (n <? 253) eqn:E1; [constructor; lia|].
  destruct (n <? 65536) eqn:E2.
  { rewrite <- (V 2%nat) at 2 by (cbn; lia). constructor; [apply to_le_bytes|reflexivity]. }
  destruct (n <? 4294967296) eqn:E3.
  { rewrite <- (V 4%nat) at 2 by (cbn; lia). constructor; [apply to_le_bytes|reflexivity]. }
  rewrite <- (V 8%nat) at 2 by (cbn; lia). constructor; [apply to_le_bytes|reflexivity].
Qed.

Lemma compactsize_of_range w n : compactsize_of w n -> 0 <= n < 256 ^ (Z.max 1 (zlen w - 1)) /\ is_bytes w.
Proof.
  intros C. inversion C as [? R|x B L|x B L|x B L]; subst; norm_spec.
  - change (256 ^ (Z.max 1 (zlen [n] - 1))) with 256. split; [lia|]. repeat constructor; lia.
  - rewrite zlen_cons. pose proof (from_le_range x B) as R. unfold zlen in *. rewrite L in *.
    split; [exact R|]. constructor; [unfold is_byte; lia|exact B].
  - rewrite zlen_cons. pose proof (from_le_range x B) as R. unfold zlen in *. rewrite L in *.
    split; [exact R|]. constructor; [unfold is_byte; lia|exact B].
  - rewrite zlen_cons. pose proof (from_le_range x B) as R. unfold zlen in *. rewrite L in *.
    split; [exact R|]. constructor; [unfold is_byte; lia|exact B].
Qed.

Lemma zlen_compactsize n :
  zlen (compactsize n) = if n <? 253 then 1 else if n <? 2 ^ 16 then 3 else if n <? 2 ^ 32 then 5 else 9.
Proof.
  unfold compactsize. rewrite !le_bytes_to_le.
  destruct (n <? 253); [reflexivity|]. destruct (n <? 2 ^ 16); [reflexivity|].
  destruct (n <? 2 ^ 32); reflexivity.
Qed.

Lemma compactsize_shortest w n : compactsize_of w n -> zlen (compactsize n) <= zlen w.
Proof.
  intros C. rewrite zlen_compactsize.
  change (2 ^ 16) with 65536. change (2 ^ 32) with 4294967296.
  destruct C as [n R|x B L|x B L|x B L]; norm_spec; rewrite ?zlen_cons, ?zlen_nil.
  - destruct (n <? 253) eqn:E; lia.
  - pose proof (from_le_range x B) as R. unfold zlen in *. rewrite L in *. cbn in R.
    destruct (from_le x <? 253); [lia|]. destruct (from_le x <? 65536) eqn:E; lia.
  - pose proof (from_le_range x B) as R. unfold zlen in *. rewrite L in *. cbn in R.
    destruct (from_le x <? 253); [lia|]. destruct (from_le x <? 65536); [lia|].
    destruct (from_le x <? 4294967296) eqn:E; lia.
  - unfold zlen. rewrite L. destruct (from_le x <? 253); [lia|].
    destruct (from_le x <? 65536); [lia|]. destruct (from_le x <? 4294967296); lia.
Qed.

(** * from_bytes *)

Lemma VarInt_parse_1 net n rest : 0 <= n <= 252 ->
  VarInt_from_bytes net (n :: rest) = VarInt n (Some 0).
Proof.
  intros Hn. unfold VarInt_from_bytes. rewrite index_0. cbn [bind].
  destruct (n <=? 0xfc) eqn:E; [|lia]. change (n :: rest) with ([n] ++ rest).
  rewrite slice_app_l by reflexivity. cbn [andb].
  change (zmem (zlen [n]) [1; 2; 4; 8]) with true. cbn [negb guard bind].
  unfold le2i, from_bytes. cbn [andb from_le]. f_equal; lia.
Qed.

(* the last j bytes of x *)
Lemma slice_from_neg {A} (p q : list A) j :
  zlen q = j -> 0 < j -> slice_from (p ++ q) (- j) = q.
Proof.
  intros Hq Hj. unfold slice_from, clampi. destruct (- j <? 0) eqn:E; [|lia].
  rewrite zlen_app. replace (Z.max 0 (zlen p + zlen q + - j)) with (zlen p) by (pose proof (zlen_nonneg p); lia).
  apply skipn_app_zlen. reflexivity.
Qed.

Lemma le_top_zero p q :
  is_bytes p -> is_bytes q ->
  leqb q (repeat 0 (length q)) = (from_le (p ++ q) <? 256 ^ zlen p).
Proof.
  intros Hp Hq. rewrite from_le_app. pose proof (from_le_range p Hp) as Rp.
  pose proof (from_le_range q Hq) as Rq.
  destruct (leqb_spec q (repeat 0 (length q))) as [E|E].
  - assert (from_le q = 0) as -> by (rewrite E; apply from_le_zeros). lia.
  - assert (from_le q <> 0) as N.
    { intros C. apply E. apply from_le_inj; [exact Hq| |rewrite repeat_length; reflexivity|].
      - apply Forall_forall. intros y Hy. apply repeat_spec in Hy. subst. unfold is_byte. lia.
      - rewrite C, from_le_zeros. reflexivity. }
    assert (256 ^ zlen p <= 256 ^ zlen p * from_le q) by nia. lia.
Qed.

Lemma split_at {A} (x : list A) (k : nat) :
  (k <= length x)%nat -> exists p q, x = p ++ q /\ length p = k /\ length q = (length x - k)%nat.
Proof.
  intros Hk. exists (firstn k x), (skipn k x). rewrite firstn_skipn, firstn_length, skipn_length.
  repeat split; lia.
Qed.

(* one wide form: marker first, k content bytes, the top j of which decide *)
Lemma VarInt_parse_wide net first x rest (k j : nat) :
  (first = 253 /\ k = 2%nat /\ j = 1%nat) \/ (first = 254 /\ k = 4%nat /\ j = 2%nat) \/
  (first = 255 /\ k = 8%nat /\ j = 4%nat) ->
  is_bytes x -> length x = k ->
  VarInt_from_bytes net (first :: x ++ rest) =
    if (from_le x <? 256 ^ Z.of_nat (k - j)) && compact_only net then Err ValueError
    else VarInt (from_le x)
                (Some (if from_le x <? 256 ^ Z.of_nat (k - j) then Z.of_nat k + 1 else 0)).
Proof.
  intros Hc Hx Hl. unfold VarInt_from_bytes. rewrite index_0. cbn [bind].
  destruct (split_at x (k - j)%nat) as [p [q [Ex [Lp Lq]]]]; [lia|].
  pose proof Hx as Hx'. rewrite Ex in Hx'. apply is_bytes_app in Hx'. destruct Hx' as [Bp Bq].
  pose proof (le_top_zero p q Bp Bq) as T. rewrite <- Ex in T.
  replace (zlen p) with (Z.of_nat (k - j)) in T by (unfold zlen; lia).
  change (first :: x ++ rest) with ([first] ++ x ++ rest).
  assert (zlen x = Z.of_nat k) as Zx by (unfold zlen; lia).
  assert (forall m, m = Z.of_nat (S k) -> slice ([first] ++ x ++ rest) 1 m = x) as Sx.
  { intros m ->. apply slice_app; [reflexivity|lia]. }
  assert (slice_from x (- Z.of_nat j) = q) as Sq.
  { rewrite Ex. apply slice_from_neg; [unfold zlen; lia|lia]. }
  assert (length q = j) as Lq' by lia. rewrite Lq' in T.
  destruct Hc as [[-> [-> ->]]|[[-> [-> ->]]|[-> [-> ->]]]]; cbn [Z.leb Z.eqb Z.compare Pos.compare Pos.compare_cont Pos.eqb];
    rewrite Sx by reflexivity;
    match goal with |- context [slice_from x ?z] => change (slice_from x z) with (slice_from x (- Z.of_nat j)) end || idtac.
  - change (-1) with (- Z.of_nat 1). rewrite Sq. change [0] with (repeat 0 1). rewrite T, Zx.
    change (zmem (Z.of_nat 2) [1; 2; 4; 8]) with true. cbn [negb guard bind].
    destruct (_ && _); reflexivity.
  - change (-2) with (- Z.of_nat 2). rewrite Sq. change [0; 0] with (repeat 0 2). rewrite T, Zx.
    change (zmem (Z.of_nat 4) [1; 2; 4; 8]) with true. cbn [negb guard bind].
    destruct (_ && _); reflexivity.
  - change (-4) with (- Z.of_nat 4). rewrite Sq. change [0; 0; 0; 0] with (repeat 0 4). rewrite T, Zx.
    change (zmem (Z.of_nat 8) [1; 2; 4; 8]) with true. cbn [negb guard bind].
    destruct (_ && _); reflexivity.
Qed.

Lemma varint_bytes_Some0 n : varint_bytes n (Some 0) = compactsize n.
Proof. rewrite <- varint_bytes_None. reflexivity. Qed.

(* every wire encoding, followed by anything *)
Lemma VarInt_parse_any net w n rest :
  compactsize_of w n ->
  VarInt_from_bytes net (w ++ rest) =
    if compact_only net && (negb (leqb w (compactsize n)) || ((253 <=? n) && (n <=? 255)))
    then Err ValueError
    else Ok {| vi_number := n;
               vi_bytes := if n <=? 252 then n :: zrepeat 0 (zlen w - 1) else compactsize n |}.
Proof.
  intros C. destruct C as [n R|x B L|x B L|x B L]; norm_spec.
  - cbn [app]. rewrite VarInt_parse_1 by lia. rewrite VarInt_Ok; [|change (2^64) with 18446744073709551616; lia|left; discriminate|left; discriminate].
    rewrite varint_bytes_Some0. unfold compactsize. destruct (n <? 253) eqn:E; [|lia].
    rewrite leqb_refl. replace ((253 <=? n) && (n <=? 255)) with false by lia.
    cbn [negb orb]. rewrite andb_false_r. destruct (n <=? 252) eqn:F; [|lia].
    change (zlen [n] - 1) with 0. reflexivity.
  - cbn [app]. rewrite (VarInt_parse_wide net 253 x rest 2 1) by tauto.
    pose proof (from_le_range x B) as R. unfold zlen in R. rewrite L in R. change (256 ^ Z.of_nat 2) with 65536 in R.
    change (256 ^ Z.of_nat (2 - 1)) with 256. change (Z.of_nat 2 + 1) with 3.
    assert (leqb (253 :: x) (compactsize (from_le x)) = (253 <=? from_le x)) as W.
    { unfold compactsize. destruct (from_le x <? 253) eqn:E.
      - cbn [leqb]. destruct x; [discriminate|]. rewrite andb_false_r. lia.
      - change (2 ^ 16) with 65536. replace (from_le x <? 65536) with true by lia.
        rewrite le_bytes_to_le, <- L, to_from_le, leqb_refl by exact B. lia. }
    rewrite W. rewrite !andb_comm with (b1 := compact_only net).
    destruct (from_le x <? 256) eqn:E.
    + replace (negb (253 <=? from_le x) || (253 <=? from_le x) && (from_le x <=? 255)) with true by lia.
      destruct (true && compact_only net); [reflexivity|].
      rewrite VarInt_Ok; [|change (2^64) with 18446744073709551616; lia|right; change (2^16) with 65536; lia|left; discriminate].
      do 2 f_equal. unfold varint_bytes, compactsize. destruct (from_le x <=? 0xfc) eqn:F.
      * rewrite zlen_cons. unfold zlen. rewrite L. reflexivity.
      * rewrite !le_bytes_to_le. replace (from_le x <? 253) with false by lia. reflexivity.
    + replace (negb (253 <=? from_le x) || (253 <=? from_le x) && (from_le x <=? 255)) with false by lia.
      cbn [andb]. rewrite VarInt_Ok; [|change (2^64) with 18446744073709551616; lia|left; discriminate|left; discriminate].
      rewrite varint_bytes_Some0. replace (from_le x <=? 252) with false by lia. reflexivity.
  - cbn [app]. rewrite (VarInt_parse_wide net 254 x rest 4 2) by tauto.
    pose proof (from_le_range x B) as R. unfold zlen in R. rewrite L in R. change (256 ^ Z.of_nat 4) with 4294967296 in R.
    change (256 ^ Z.of_nat (4 - 2)) with 65536. change (Z.of_nat 4 + 1) with 5.
    assert (leqb (254 :: x) (compactsize (from_le x)) = (65536 <=? from_le x)) as W.
    { unfold compactsize. change (2 ^ 16) with 65536. change (2 ^ 32) with 4294967296.
      destruct (from_le x <? 253) eqn:E.
      - cbn [leqb]. destruct x; [discriminate|]. rewrite andb_false_r. lia.
      - destruct (from_le x <? 65536) eqn:F; [cbn [leqb]; lia|].
        replace (from_le x <? 4294967296) with true by lia.
        rewrite le_bytes_to_le, <- L, to_from_le, leqb_refl by exact B. lia. }
    rewrite W. rewrite !andb_comm with (b1 := compact_only net).
    destruct (from_le x <? 65536) eqn:E.
    + replace (negb (65536 <=? from_le x) || (253 <=? from_le x) && (from_le x <=? 255)) with true by lia.
      destruct (true && compact_only net); [reflexivity|].
      rewrite VarInt_Ok; [|change (2^64) with 18446744073709551616; lia|left; discriminate|right; change (2^32) with 4294967296; lia].
      do 2 f_equal. unfold varint_bytes, compactsize. destruct (from_le x <=? 0xfc) eqn:F.
      * rewrite zlen_cons. unfold zlen. rewrite L. reflexivity.
      * rewrite !le_bytes_to_le. replace (from_le x <? 253) with false by lia. reflexivity.
    + replace (negb (65536 <=? from_le x) || (253 <=? from_le x) && (from_le x <=? 255)) with false by lia.
      cbn [andb]. rewrite VarInt_Ok; [|change (2^64) with 18446744073709551616; lia|left; discriminate|left; discriminate].
      rewrite varint_bytes_Some0. replace (from_le x <=? 252) with false by lia. reflexivity.
  - cbn [app]. rewrite (VarInt_parse_wide net 255 x rest 8 4) by tauto.
    pose proof (from_le_range x B) as R. unfold zlen in R. rewrite L in R.
    change (256 ^ Z.of_nat 8) with 18446744073709551616 in R.
    change (256 ^ Z.of_nat (8 - 4)) with 4294967296. change (Z.of_nat 8 + 1) with 9.
    assert (leqb (255 :: x) (compactsize (from_le x)) = (4294967296 <=? from_le x)) as W.
    { unfold compactsize. change (2 ^ 16) with 65536. change (2 ^ 32) with 4294967296.
      destruct (from_le x <? 253) eqn:E.
      - cbn [leqb]. destruct x; [discriminate|]. rewrite andb_false_r. lia.
      - destruct (from_le x <? 65536) eqn:F; [cbn [leqb]; lia|].
        destruct (from_le x <? 4294967296) eqn:G; [cbn [leqb]; lia|].
        rewrite le_bytes_to_le, <- L, to_from_le, leqb_refl by exact B. lia. }
    rewrite W. rewrite !andb_comm with (b1 := compact_only net).
    destruct (from_le x <? 4294967296) eqn:E.
    + replace (negb (4294967296 <=? from_le x) || (253 <=? from_le x) && (from_le x <=? 255)) with true by lia.
      destruct (true && compact_only net); [reflexivity|].
      rewrite VarInt_Ok; [|change (2^64) with 18446744073709551616; lia|left; discriminate|left; discriminate].
      do 2 f_equal. unfold varint_bytes, compactsize. destruct (from_le x <=? 0xfc) eqn:F.
      * rewrite zlen_cons. unfold zlen. rewrite L. reflexivity.
      * rewrite !le_bytes_to_le. replace (from_le x <? 253) with false by lia. reflexivity.
    + replace (negb (4294967296 <=? from_le x) || (253 <=? from_le x) && (from_le x <=? 255)) with false by lia.
      cbn [andb]. rewrite VarInt_Ok; [|change (2^64) with 18446744073709551616; lia|left; discriminate|left; discriminate].
      rewrite varint_bytes_Some0. replace (from_le x <=? 252) with false by lia. reflexivity.
Qed.

Lemma VarInt_roundtrip net n rest :
  0 <= n < 2 ^ 64 -> compact_only net = false \/ ~ 253 <= n <= 255 ->
  VarInt_from_bytes net (compactsize n ++ rest) = Ok {| vi_number := n; vi_bytes := compactsize n |}.
Proof.
  intros Hn Hc. rewrite (VarInt_parse_any net (compactsize n) n) by (apply compactsize_is_encoding, Hn).
  rewrite leqb_refl. cbn [negb orb].
  replace (compact_only net && ((253 <=? n) && (n <=? 255))) with false.
  - do 2 f_equal. destruct (n <=? 252) eqn:E; [|reflexivity].
    unfold compactsize. replace (n <? 253) with true by lia. reflexivity.
  - destruct Hc as [->|Hc]; [reflexivity|]. destruct (compact_only net); [lia|reflexivity].
Qed.

Lemma VarInt_compact_refused net n rest :
  compact_only net = true -> 253 <= n <= 255 ->
  VarInt_from_bytes net (compactsize n ++ rest) = Err ValueError.
Proof.
  intros Hc Hn. rewrite (VarInt_parse_any net (compactsize n) n)
    by (apply compactsize_is_encoding; change (2^64) with 18446744073709551616; lia).
  rewrite Hc, leqb_refl. replace ((253 <=? n) && (n <=? 255)) with true by lia. reflexivity.
Qed.

Lemma VarInt_parse_empty net : VarInt_from_bytes net [] = Err IndexError.
Proof. reflexivity. Qed.

(* first byte plus fewer bytes than it announces *)
Lemma VarInt_truncated net first x :
  253 <= first <= 255 -> 1 + zlen x < compactsize_width first ->
  zlen x <> 1 -> zlen x <> 2 -> zlen x <> 4 ->
  VarInt_from_bytes net (first :: x) = Err ValueError.
Proof.
  intros Hf Hw H1 H2 H4. unfold VarInt_from_bytes. rewrite index_0. cbn [bind].
  unfold compactsize_width in Hw. pose proof (zlen_nonneg x) as Hx.
  replace (first <? 253) with false in Hw by lia. destruct (first <=? 0xfc) eqn:E; [lia|].
  assert (forall j, 1 + zlen x <= j -> slice (first :: x) 1 j = x) as S.
  { intros j Hj. rewrite slice_firstn by lia. change (Z.to_nat 1) with 1%nat. cbn [skipn].
    apply firstn_all2. unfold zlen in *. lia. }
  assert (negb (zmem (zlen x) [1; 2; 4; 8]) = true) as Z8.
  { unfold zmem. cbn [existsb]. destruct (first =? 253); [lia|]. destruct (first =? 254); lia. }
  destruct (first =? 253) eqn:E3.
  { rewrite S by lia. rewrite Z8. reflexivity. }
  destruct (first =? 254) eqn:E4.
  { rewrite S by lia. rewrite Z8. reflexivity. }
  rewrite S by lia. rewrite Z8. reflexivity.
Qed.

Lemma VarInt_canonical_lemma n : 0 <= n < 2 ^ 64 ->
  VarInt n None = Ok {| vi_number := n; vi_bytes := compactsize n |} /\
  compactsize_of (compactsize n) n /\
  forall w, compactsize_of w n -> len (compactsize n) <= len w.
Proof.
  intros Hn. split; [apply VarInt_None, Hn|]. split; [apply compactsize_is_encoding, Hn|].
  intros w. apply compactsize_shortest.
Qed.

Lemma VarInt_roundtrip_lemma name net n rest :
  get_network name = Ok net -> 0 <= n < 2 ^ 64 ->
  ~ In name upgraded_zcash \/ ~ 253 <= n <= 255 ->
  VarInt_from_bytes net (compactsize n ++ rest) = Ok {| vi_number := n; vi_bytes := compactsize n |}.
Proof.
  intros E Hn Hc. apply VarInt_roundtrip; [exact Hn|]. destruct Hc as [Hc|Hc]; [|right; exact Hc].
  left. rewrite <- (compact_only_names _ _ E) in Hc. destruct (compact_only net); [|reflexivity].
  exfalso; auto.
Qed.

Lemma VarInt_roundtrip_refuted_lemma name net n rest :
  get_network name = Ok net -> In name upgraded_zcash -> 253 <= n <= 255 ->
  VarInt n None = Ok {| vi_number := n; vi_bytes := compactsize n |} /\
  VarInt_from_bytes net (compactsize n ++ rest) = Err ValueError.
Proof.
  intros E Hz Hn. rewrite <- (compact_only_names _ _ E) in Hz. split.
  - apply VarInt_None. change (2 ^ 64) with 18446744073709551616. lia.
  - apply VarInt_compact_refused; assumption.
Qed.

Lemma VarInt_reads_lemma name net w n rest :
  get_network name = Ok net -> ~ In name upgraded_zcash -> compactsize_of w n ->
  exists v, VarInt_from_bytes net (w ++ rest) = Ok v /\ vi_number v = n /\
            (len (vi_bytes v) = len w <-> w = compactsize n \/ n <= 252) /\
            (vi_bytes v = w <-> w = compactsize n).
Proof.
  intros E Hz C. rewrite <- (compact_only_names _ _ E) in Hz.
  rewrite (VarInt_parse_any net w n rest C). replace (compact_only net) with false
    by (destruct (compact_only net); [exfalso; auto|reflexivity]).
  cbn [andb]. eexists. split; [reflexivity|]. cbn [vi_number vi_bytes]. split; [reflexivity|].
  norm_spec. destruct C as [n R|x B L|x B L|x B L]; norm_spec.
  - unfold compactsize. replace (n <=? 252) with true by lia. replace (n <? 253) with true by lia.
    change (zlen [n] - 1) with 0. split; split; intros; auto.
  - assert (zlen x = 2) as Zx by (unfold zlen; lia).
    destruct (from_le x <=? 252) eqn:F.
    + rewrite !zlen_cons, zlen_zrepeat by lia. split; [split; [right; lia|lia]|].
      unfold compactsize. replace (from_le x <? 253) with true by lia.
      split; intros Eq; [|exfalso; assert (zlen (253 :: x) = 1) by (rewrite Eq; reflexivity); rewrite zlen_cons in *; lia].
      injection Eq as E1 E2. assert (from_le x < 253) by lia. exfalso. lia.
    + split; split; intros Eq; auto.
      * left. rewrite zlen_compactsize, zlen_cons in Eq.
        pose proof (from_le_range x B) as R. rewrite Zx in *. change (256 ^ 2) with 65536 in R.
        unfold compactsize. replace (from_le x <? 253) with false in * by lia.
        change (2 ^ 16) with 65536 in *. replace (from_le x <? 65536) with true by lia.
        rewrite le_bytes_to_le, <- L, to_from_le by exact B. reflexivity.
      * destruct Eq as [Eq|Eq]; [rewrite <- Eq; reflexivity|lia].
  - assert (zlen x = 4) as Zx by (unfold zlen; lia).
    destruct (from_le x <=? 252) eqn:F.
    + rewrite !zlen_cons, zlen_zrepeat by lia. split; [split; [right; lia|lia]|].
      unfold compactsize. replace (from_le x <? 253) with true by lia.
      split; intros Eq; [|exfalso; assert (zlen (254 :: x) = 1) by (rewrite Eq; reflexivity); rewrite zlen_cons in *; lia].
      injection Eq as E1 E2. exfalso. lia.
    + split; split; intros Eq; auto.
      * left. rewrite zlen_compactsize, zlen_cons in Eq.
        pose proof (from_le_range x B) as R. rewrite Zx in *. change (256 ^ 4) with 4294967296 in R.
        unfold compactsize. change (2 ^ 16) with 65536 in *. change (2 ^ 32) with 4294967296 in *.
        destruct (from_le x <? 253) eqn:G; [lia|].
        destruct (from_le x <? 65536) eqn:G2; [lia|].
        replace (from_le x <? 4294967296) with true by lia.
        rewrite le_bytes_to_le, <- L, to_from_le by exact B. reflexivity.
      * destruct Eq as [Eq|Eq]; [rewrite <- Eq; reflexivity|lia].
  - assert (zlen x = 8) as Zx by (unfold zlen; lia).
    destruct (from_le x <=? 252) eqn:F.
    + rewrite !zlen_cons, zlen_zrepeat by lia. split; [split; [right; lia|lia]|].
      unfold compactsize. replace (from_le x <? 253) with true by lia.
      split; intros Eq; [|exfalso; assert (zlen (255 :: x) = 1) by (rewrite Eq; reflexivity); rewrite zlen_cons in *; lia].
      injection Eq as E1 E2. exfalso. lia.
    + split; split; intros Eq; auto.
      * left. rewrite zlen_compactsize, zlen_cons in Eq. rewrite Zx in *.
        unfold compactsize. change (2 ^ 16) with 65536 in *. change (2 ^ 32) with 4294967296 in *.
        destruct (from_le x <? 253) eqn:G; [lia|].
        destruct (from_le x <? 65536) eqn:G2; [lia|].
        destruct (from_le x <? 4294967296) eqn:G3; [lia|].
        rewrite le_bytes_to_le, <- L, to_from_le by exact B. reflexivity.
      * destruct Eq as [Eq|Eq]; [rewrite <- Eq; reflexivity|lia].
Qed.

Lemma VarInt_reads_zcash_lemma name net w n rest v :
  get_network name = Ok net -> In name upgraded_zcash -> compactsize_of w n ->
  VarInt_from_bytes net (w ++ rest) = Ok v ->
  w = compactsize n /\ vi_number v = n /\ vi_bytes v = w.
Proof.
  intros E Hz C. rewrite <- (compact_only_names _ _ E) in Hz.
  rewrite (VarInt_parse_any net w n rest C), Hz. cbn [andb].
  destruct (leqb_spec w (compactsize n)) as [W|W]; [|discriminate]. cbn [negb orb].
  destruct ((253 <=? n) && (n <=? 255)) eqn:F; [discriminate|].
  intros Eq; apply Ok_inj in Eq; subst v. cbn [vi_number vi_bytes].
  split; [exact W|]. split; [reflexivity|]. destruct (n <=? 252) eqn:G; [|symmetry; exact W].
  rewrite W. unfold compactsize. replace (n <? 253) with true by lia. reflexivity.
Qed.

Lemma VarInt_wire_length_refuted_lemma :
  (exists w rest v, compactsize_of w 300 /\ VarInt_from_bytes BitcoinMain (w ++ rest) = Ok v /\
                    len w = 5 /\ len (vi_bytes v) = 3) /\
  (exists v, compactsize_width 253 = 3 /\ VarInt_from_bytes BitcoinMain [253; 1] = Ok v /\
             vi_number v = 1 /\ len (vi_bytes v) = 1).
Proof.
  split.
  - exists [254; 44; 1; 0; 0], []. eexists. split.
    + apply (cs5 [44; 1; 0; 0]); [|reflexivity]. repeat constructor; discriminate.
    + split; [vm_compute; reflexivity|]. split; reflexivity.
  - eexists. split; [reflexivity|]. split; [vm_compute; reflexivity|]. split; reflexivity.
Qed.
