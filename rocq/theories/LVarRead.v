(* Lemmas about VarInt.from_bytes on arbitrary byte strings *)
From Coq Require Import String.
From Verif Require Import Py MNet MUtils MShared SNum SNet LBase LNet LUtils LVarint.
Open Scope list_scope.
Open Scope Z_scope.

Lemma slice_from_all {A} (x : list A) j : 0 < j -> zlen x <= j -> slice_from x (- j) = x.
Proof.
  intros Hj L. unfold slice_from, clampi. destruct (- j <? 0) eqn:E; [|lia]. replace (Z.max 0 (zlen x + - j)) with 0 by lia. reflexivity.
Qed.
Lemma top_zero (x : bytes) (j : nat) : (0 < j)%nat ->
  leqb (slice_from x (- Z.of_nat j)) (repeat 0 j) = true <-> exists p, x = p ++ repeat 0 j.
Proof.
  intros Hj. rewrite leqb_eq. split.
  - intros E. destruct (Nat.le_gt_cases j (length x)) as [L|L].
    + destruct (split_at x (length x - j)) as (p & q & -> & Lp & Lq); [lia|]. rewrite app_length in *. rewrite slice_from_neg in E by (unfold zlen; lia). exists p. rewrite E. reflexivity.
    + rewrite slice_from_all in E by (unfold zlen; lia). apply (f_equal (@length Z)) in E. rewrite repeat_length in E. lia.
  - intros [p ->]. apply slice_from_neg; unfold zlen; rewrite ?repeat_length; lia.
Qed.

Lemma varint_wide_read net first (rest : bytes) (k j : nat) :
  (first = 253 /\ k = 2%nat /\ j = 1%nat) \/ (first = 254 /\ k = 4%nat /\ j = 2%nat) \/ (first = 255 /\ k = 8%nat /\ j = 4%nat) ->
  let x := firstn k rest in
  let z := leqb (slice_from x (- Z.of_nat j)) (repeat 0 j) in
  VarInt_from_bytes net (first :: rest) =
    (raise_if negb (zmem (zlen x) [1; 2; 4; 8]) as ValueError ;;
     raise_if z && compact_only net as ValueError ;;
     VarInt (from_le x) (Some (if z then zlen x + 1 else 0))).
Proof.
  intros Hc x z. unfold VarInt_from_bytes. rewrite index_0. cbn [bind].
  assert (forall m, m = Z.of_nat k + 1 -> slice (first :: rest) 1 m = x) as Sx.
  { intros m ->. rewrite slice_firstn by lia. change (Z.to_nat 1) with 1%nat. cbn [skipn]. unfold x. f_equal. lia. }
  destruct Hc as [[-> [-> ->]]|[[-> [-> ->]]|[-> [-> ->]]]]; cbn [Z.leb Z.eqb Z.compare Pos.compare Pos.compare_cont Pos.eqb];
    rewrite Sx by reflexivity; reflexivity.
Qed.

Lemma varint_value (x : bytes) : is_bytes x -> zlen x <= 8 -> 0 <= from_le x < 2 ^ 64.
Proof.
  intros B L. pose proof (from_le_range x B) as R. pose proof (zlen_nonneg x). assert (256 ^ zlen x <= 256 ^ 8) by (apply Z.pow_le_mono_r; lia).
  change (256 ^ 8) with 18446744073709551616 in *. change (2 ^ 64) with 18446744073709551616. lia.
Qed.

Lemma varint_some n l : 0 <= n < 2 ^ 64 -> l <> 3 \/ n < 2 ^ 16 -> l <> 5 \/ n < 2 ^ 32 ->
  VarInt n (Some l) = Ok {| vi_number := n; vi_bytes := if n <=? 252 then n :: zrepeat 0 (l - 1) else compactsize n |}.
Proof.
  intros R A B. rewrite VarInt_Ok; [|exact R|destruct A; [left; congruence|right; assumption]|destruct B; [left; congruence|right; assumption]].
  do 2 f_equal. rewrite <- varint_bytes_None. unfold varint_bytes. change 0xfc with 252. destruct (n <=? 252); reflexivity.
Qed.
Lemma varint_zero n : 0 <= n < 2 ^ 64 -> VarInt n (Some 0) = Ok {| vi_number := n; vi_bytes := compactsize n |}.
Proof. intros R. rewrite VarInt_Ok; [rewrite varint_bytes_Some0; reflexivity|exact R|left; discriminate|left; discriminate]. Qed.

Lemma varint_reads name net first (rest : bytes) : get_network name = Ok net -> all_bytes (first :: rest) ->
  let x := if first <? 253 then [first] else firstn (Z.to_nat (compactsize_width first - 1)) rest in
  let padded := 253 <= first /\ exists p, x = p ++ repeat 0 (Z.to_nat ((compactsize_width first - 1) / 2)) in
  let r := VarInt_from_bytes net (first :: rest) in
  (~ In (len x) [1; 2; 4; 8] -> r = Err ValueError) /\
  (In (len x) [1; 2; 4; 8] ->
    (~ padded -> r = Ok {| vi_number := le_value x; vi_bytes := compactsize (le_value x) |}) /\
    (padded -> In name upgraded_zcash -> r = Err ValueError) /\
    (padded -> ~ In name upgraded_zcash ->
      r = Ok {| vi_number := le_value x; vi_bytes := if le_value x <=? 252 then le_value x :: repeat 0 (length x) else compactsize (le_value x) |})).
Proof.
  intros En B. inversion B as [|? ? Bf Br]; subst. intros x padded r. subst padded r.
  destruct (Z.ltb_spec first 253) as [Lt|Ge].
  - subst x. split; [intros N; exfalso; apply N; left; reflexivity|]. intros _. rewrite VarInt_parse_1 by lia. rewrite varint_zero by (change (2 ^ 64) with 18446744073709551616; lia).
    cbn [le_value]. rewrite Z.mul_0_r, Z.add_0_r. split; [reflexivity|]. split; intros [X _]; lia.
  - assert (exists k j, ((first = 253 /\ k = 2%nat /\ j = 1%nat) \/ (first = 254 /\ k = 4%nat /\ j = 2%nat) \/ (first = 255 /\ k = 8%nat /\ j = 4%nat)) /\
      Z.to_nat (compactsize_width first - 1) = k /\ Z.to_nat ((compactsize_width first - 1) / 2) = j) as (k & j & C & Ek & Ej).
    { assert (first = 253 \/ first = 254 \/ first = 255) as [->|[->| ->]] by lia; do 2 eexists; (split; [|split; reflexivity]); tauto. }
    subst x. rewrite Ek, Ej. set (x := firstn k rest). pose proof (varint_wide_read net first rest k j C) as R. fold x in R. cbv zeta in R. rewrite R. clear R.
    assert (0 < j)%nat as Hj by lia. pose proof (top_zero x j Hj) as T. set (z := leqb _ _) in *.
    assert (is_bytes x) as Bx by (apply all_bytes_is_bytes; apply Forall_forall; intros y Iy; rewrite Forall_forall in Br; apply Br; rewrite <- (firstn_skipn k rest); apply in_or_app; left; exact Iy).
    change (len x) with (zlen x). pose proof (zmem_In (zlen x) [1; 2; 4; 8]) as Zm. split.
    + intros N. destruct (zmem _ _); [exfalso; apply N, Zm; reflexivity|reflexivity].
    + intros I. pose proof (proj2 Zm I) as Zt. rewrite Zt. cbn [negb guard bind].
      assert (zlen x <= 8) as L8 by (cbn [In] in I; lia). pose proof (varint_value x Bx L8) as V.
      pose proof (compact_only_names name net En) as Cn. pose proof (from_le_range x Bx) as Rx. 
      change (le_value x) with (from_le x). split; [|split].
      * intros Np. destruct z; [exfalso; apply Np; split; [lia|apply T; reflexivity]|]. cbn [andb guard bind]. apply varint_zero, V.
      * intros [_ P] Up. apply T in P. rewrite P. apply Cn in Up. rewrite Up. reflexivity.
      * intros [_ P] Up. apply T in P. rewrite P. destruct (compact_only net) eqn:Co; [exfalso; apply Up, Cn; reflexivity|]. cbn [andb guard bind].
        rewrite varint_some; [|exact V| |].
        -- do 2 f_equal. destruct (_ <=? _); [|reflexivity]. f_equal. unfold zrepeat. f_equal. unfold zlen. lia.
        -- destruct (Z.eq_dec (zlen x) 2) as [E|E]; [right; rewrite E in Rx; exact (proj2 Rx)|left; lia].
        -- destruct (Z.eq_dec (zlen x) 4) as [E|E]; [right; rewrite E in Rx; exact (proj2 Rx)|left; lia].
Qed.

(* a length that is too small for the number *)
Lemma varint_short n : 2 ^ 16 <= n < 2 ^ 64 ->
  (exists b, VarInt n (Some 3) = Ok {| vi_number := n; vi_bytes := 253 :: b |} /\ all_bytes b /\ 3 <= len b /\ le_value b = n) /\
  (2 ^ 32 <= n -> exists b, VarInt n (Some 5) = Ok {| vi_number := n; vi_bytes := 254 :: b |} /\ all_bytes b /\ 5 <= len b /\ le_value b = n).
Proof.
  change (2 ^ 16) with 65536. change (2 ^ 32) with 4294967296. change (2 ^ 64) with 18446744073709551616. intros R.
  destruct (i2le_exact n ltac:(lia)) as (b & E & B & N & V & _).
  assert (forall k, n >= 256 ^ k -> 0 <= k -> k + 1 <= len b) as L.
  { intros k G K. pose proof (from_le_range b (proj1 (all_bytes_is_bytes b) B)) as Rb. change (from_le b) with (le_value b) in Rb. rewrite V in Rb.
    destruct (Z.le_gt_cases (k + 1) (len b)) as [|X]; [assumption|]. assert (256 ^ zlen b <= 256 ^ k) by (apply Z.pow_le_mono_r; unfold len, zlen in *; lia). lia. }
  split.
  - exists b. split; [|split; [exact B|split; [apply (L 2); [change (256 ^ 2) with 65536; lia|lia]|exact V]]].
    assert (3 <= len b) as L3 by (apply (L 2); [change (256 ^ 2) with 65536; lia|lia]).
    unfold VarInt. replace (n <? 0) with false by lia. replace (0xffffffffffffffff <? n) with false by lia. cbn [guard bind]. replace (n <=? 0xfc) with false by lia.
    change (3 =? 3) with true. rewrite orb_true_r, E. cbn [bind app]. rewrite pad_to_short; [reflexivity|rewrite zlen_cons; unfold len, zlen in *; lia].
  - intros G. assert (5 <= len b) as L5 by (apply (L 4); [change (256 ^ 4) with 4294967296; lia|lia]).
    exists b. split; [|split; [exact B|split; [exact L5|exact V]]].
    unfold VarInt. replace (n <? 0) with false by lia. replace (0xffffffffffffffff <? n) with false by lia. cbn [guard bind]. replace (n <=? 0xfc) with false by lia.
    change (5 =? 3) with false. replace (n <=? 0xffff) with false by lia. cbn [orb]. change (5 =? 5) with true. rewrite orb_true_r, E. cbn [bind app]. rewrite pad_to_short; [reflexivity|rewrite zlen_cons; unfold len, zlen in *; lia].
Qed.
