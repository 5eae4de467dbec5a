(* Errors within a stretch of the checksum's length, for bech32 and cashaddr *)
From Coq Require Import ZifyBool ZifyNat String.
From Verif Require Import Py LBase MNet MUtils MBech32 MCashaddr SNum SNet SBase58 SBits SBch SBech32 SCashaddr
  LNet LUtils LBase58 LBits LBch LBchErr LBech32 LCashaddr.
Open Scope list_scope.
Open Scope Z_scope.

Section Burst.
  Context (g : list Z) (n : nat) (Hg : length g = S n) (Hc : forall q, gf q -> gfs (map (gf_mul q) g))
    (Hi : forall q, gf q -> gf_mul q (last g 0) = 0 -> q = 0).

  Lemma burst_error a w b : gfs w -> (length w <= S n)%nat ->
    fold_left (poly_push g) (repeat 0 a ++ w ++ repeat 0 b) (zeros n) = zeros n -> w = repeat 0 (length w).
  Proof.
    intros G L E. rewrite !fold_left_app, (fold_zero_state g n Hg Hc Hi) in E.
    apply (fold_push_zero_inj g n Hg Hc Hi) in E.
    - unfold zeros in E. rewrite <- (app_nil_r (repeat 0 (S n))) in E at 1.
      rewrite (fold_push_into_zeros g n Hg Hc Hi) in E by (cbn [length]; lia). cbn [app] in E.
      replace (S n) with ((S n - length w) + length w)%nat in E at 2 by lia. rewrite repeat_app in E.
      apply app_inv_head in E. exact E.
    - apply (fold_push_gfs g n Hg Hc Hi); [exact G|]. apply gfs_repeat0.
    - apply (fold_push_length g n Hg Hc Hi). apply zeros_length.
  Qed.

  Lemma burst_codewords p x x' c : gfs x -> gfs x' -> length x = length x' -> (length x <= S n)%nat ->
    codeword g (p ++ x ++ c) -> codeword g (p ++ x' ++ c) -> x = x'.
  Proof.
    intros G G' L Lx V V'.
    pose proof (codeword_diff g n Hg Hc Hi (p ++ x ++ c) (p ++ x' ++ c) ltac:(rewrite !app_length; lia) V V') as D.
    rewrite poly_add_app in D by reflexivity. rewrite poly_add_app in D by exact L. rewrite !poly_add_self in D.
    apply burst_error in D.
    - rewrite poly_add_length in D by exact L. apply poly_add_zero_eq; assumption.
    - apply poly_add_gfs; assumption.
    - rewrite poly_add_length by exact L. exact Lx.
  Qed.
End Burst.

Lemma map_three (f : Z -> Z) v a x c : map f v = a ++ x ++ c ->
  exists va vx vc, v = va ++ vx ++ vc /\ a = map f va /\ x = map f vx /\ c = map f vc.
Proof.
  intros E. apply map_eq_app in E. destruct E as [va [r [-> [<- E]]]]. apply map_eq_app in E. destruct E as [vx [vc [-> [<- <-]]]].
  exists va, vx, vc. auto.
Qed.

(* two texts in the alphabet that differ in one stretch only *)
Lemma b32_stretch g n : length g = S n -> (forall q, gf q -> gfs (map (gf_mul q) g)) -> (forall q, gf q -> gf_mul q (last g 0) = 0 -> q = 0) ->
  forall p v v' a x x' c, gfs v -> gfs v' -> map b32_char v = a ++ x ++ c -> map b32_char v' = a ++ x' ++ c ->
  length x = length x' -> (length x <= S n)%nat -> codeword g (p ++ v) -> codeword g (p ++ v') -> x = x'.
Proof.
  intros Hg Hc Hi p v v' a x x' c G G' E E' L Lx V V'.
  apply map_three in E. destruct E as [va [vx [vc [-> [Ea [Ex Ec]]]]]].
  apply map_three in E'. destruct E' as [va' [vx' [vc' [-> [Ea' [Ex' Ec']]]]]].
  unfold gfs in G, G'. rewrite !Forall_app in G, G'. destruct G as [G1 [G2 G3]], G' as [G1' [G2' G3']].
  assert (va' = va) as -> by (apply map_b32_inj; [assumption|assumption|congruence]).
  assert (vc' = vc) as -> by (apply map_b32_inj; [assumption|assumption|congruence]).
  subst x x'. rewrite !map_length in *. f_equal. rewrite !app_assoc in V, V'. rewrite <- !app_assoc in V, V'. 
  apply (burst_codewords g n Hg Hc Hi (p ++ va) vx vx' vc); try assumption; rewrite <- app_assoc; assumption.
Qed.

Lemma bech32_burst_lemma name net hrp p a x x' c b : get_network name = Ok net -> BECH32_HRP net = Some hrp ->
  len p = len hrp + 1 -> length x = length x' -> (length x <= 6)%nat -> x <> x' ->
  bech32_net_decode net (p ++ a ++ x ++ c) = Ok b -> bech32_net_decode net (p ++ a ++ x' ++ c) = Err TypeError.
Proof.
  intros En Eh Lp Lx L6 N D. pose proof (good_hrps _ _ _ En Eh) as GH.
  destruct (net_decode_total name net hrp (p ++ a ++ x' ++ c) En Eh) as [[b' D']|]; [exfalso|assumption].
  apply (net_decode_spec name net hrp) in D, D'; try assumption.
  destruct D as [v [prog [_ [W [C A]]]]], D' as [v' [prog' [_ [W' [C' A']]]]].
  assert (forall v prog u, segwit_address hrp v prog (lower (p ++ u)) -> lower p = hrp ++ lit "1" /\
    exists y, gfs y /\ codeword bech32_g (hrp_values hrp ++ y) /\ map b32_char y = lower u) as Key.
  { intros v0 prog0 u [g5 [_ [[k [G [_ [V E]]]] _]]]. rewrite lower_app, app_assoc in E.
    revert Lp. norm_spec. intros Lp.
    apply app_inj_len in E; [|unfold lower; rewrite map_length, app_length; unfold zlen in Lp; cbn; lia].
    destruct E as [E1 E2]. split; [exact E1|]. exists ((v0 :: g5) ++ k). auto. }
  apply Key in A, A'. destruct A as [Ep [y [G [V E]]]], A' as [_ [y' [G' [V' E']]]]. rewrite !lower_app in E, E'.
  assert (lower x = lower x') as El.
  { refine (b32_stretch bech32_g 5 eq_refl (mul_closed_of _ bech32_g_gfs) bech32_g_inv (hrp_values hrp) y y' (lower a) _ _ (lower c) G G' E E' _ _ V V');
      unfold lower; rewrite !map_length; assumption. }
  assert (a ++ x ++ c = a ++ x' ++ c) as F.
  { apply (one_case_determined p _ _ hrp); try assumption; [apply GH|rewrite !lower_app, El; reflexivity|rewrite !app_length; lia]. }
  apply app_inv_head in F. apply app_inv_tail in F. contradiction.
Qed.

Lemma cashaddr_burst_lemma name net P a x x' c b : get_network name = Ok net -> ~ In 58 P ->
  length x = length x' -> (length x <= 8)%nat -> x <> x' ->
  cashaddr_decode net (P ++ lit ":" ++ a ++ x ++ c) = Ok b ->
  cashaddr_decode net (P ++ lit ":" ++ a ++ x' ++ c) = Err ValueError \/
  cashaddr_decode net (P ++ lit ":" ++ a ++ x' ++ c) = Err TypeError.
Proof.
  intros En NP L L8 N D.
  destruct (CASHADDR_PREFIX net) as [p|] eqn:Ep; [|unfold cashaddr_decode in D; rewrite Ep in D; discriminate].
  destruct (ca_decode_total name net p (P ++ lit ":" ++ a ++ x' ++ c) En Ep) as [[b' D']|X]; [exfalso|exact X].
  destruct (ca_text_same_prefix net name p P _ _ b b' En Ep NP D D') as [v [v' [E [E' [G [G' [V V']]]]]]].
  apply N. symmetry in E, E'.
  exact (b32_stretch cashaddr_g 7 eq_refl (mul_closed_of _ cashaddr_g_gfs) cashaddr_g_inv _ v v' a x x' c G G' E E' L L8 V V').
Qed.

Lemma v0_length_lemma name net hrp s r : get_network name = Ok net -> BECH32_HRP net = Some hrp ->
  bech32_net_decode net s = Ok (0 :: r) -> len s = len hrp + 40 \/ len s = len hrp + 60.
Proof.
  intros En Eh D. apply (net_decode_spec name net hrp) in D; try assumption.
  destruct D as [v [prog [Eb [W [_ [g5 [R [[k [_ [Lk [_ E]]]] _]]]]]]]]. unfold witness_bytes in Eb. injection Eb as <- ->.
  destruct W as [_ [_ [_ W]]]. specialize (W eq_refl).
  assert (len s = len hrp + 8 + len g5) as ->.
  { apply (f_equal (@zlen Z)) in E. rewrite zlen_lower, !zlen_app, zlen_map, zlen_app, zlen_cons in E.
    change (zlen (lit "1")) with 1 in E. assert (zlen k = 6) by (unfold zlen; lia). norm_spec. lia. }
  destruct R as [_ [q [Q [L _]]]]. revert W. norm_spec. intros W. lia.
Qed.

Lemma added_or_lost_lemma name net hrp s s' r r' : get_network name = Ok net -> BECH32_HRP net = Some hrp ->
  bech32_net_decode net s = Ok (0 :: r) -> 1 <= Z.abs (len s' - len s) < 20 -> bech32_net_decode net s' <> Ok (0 :: r').
Proof.
  intros En Eh D L D'. pose proof (v0_length_lemma _ _ _ _ _ En Eh D). pose proof (v0_length_lemma _ _ _ _ _ En Eh D'). lia.
Qed.

Lemma cashaddr_length_lemma name net P t b : get_network name = Ok net -> ~ In 58 P ->
  cashaddr_decode net (P ++ lit ":" ++ t) = Ok b -> len b = Z.max 0 ((5 * len t + 7) / 8 - 6).
Proof.
  intros En NP D.
  destruct (CASHADDR_PREFIX net) as [p|] eqn:Ep; [|unfold cashaddr_decode in D; rewrite Ep in D; discriminate].
  pose proof (ca_text_same_prefix net name p P t t b b En Ep NP D D) as [v [_ [Et [_ [G _]]]]].
  apply (ca_decode_spec name net p) in D; try assumption. destruct D as [x [v' [Nx [[G' [V' E']] [_ L]]]]]. rewrite L.
  assert (zlen v' = zlen t) as Lv; [|revert Lv; norm_spec; intros ->; reflexivity].
  destruct (good_prefixes _ _ _ En Ep) as [N58 Ne].
  assert (split_char 58 (P ++ lit ":" ++ t) = [p ++ x; map b32_char v']) as S1
      by (apply split_char_two; split; [exact E'|]; split; [rewrite in_app_iff; tauto|apply not_in_b32, G']).
  change (lit ":" ++ t) with (58 :: t) in S1. rewrite split_char_app in S1 by exact NP. injection S1 as -> S1.
  change (lit ":" ++ t) with (58 :: t) in E'. apply app_inv_head in E'. injection E' as E'. rewrite E', zlen_map. reflexivity.
Qed.

(* zeros may be inserted before a last symbol 1 *)
Lemma zeros_before_one g n : length g = S n -> (forall q, gf q -> gfs (map (gf_mul q) g)) -> (forall q, gf q -> gf_mul q (last g 0) = 0 -> q = 0) ->
  forall w k, gfs w -> codeword g (w ++ [1]) -> codeword g (w ++ repeat 0 k ++ [1]).
Proof.
  intros Hg Hc Hi w k G V. unfold codeword, poly_residue in *. rewrite !fold_left_app in *. cbn [fold_left] in *.
  assert (poly_push g (zeros n) 1 = poly_one g) as One.
  { unfold zeros. cbn [repeat]. rewrite (push_zero_top g n Hg Hc Hi) by apply repeat_length. unfold poly_one. rewrite Hg.
    replace (S n - 1)%nat with n by lia. reflexivity. }
  set (r := fold_left (poly_push g) w (poly_one g)) in *.
  assert (length r = S n) as Lr by (apply (fold_push_length g n Hg Hc Hi), (poly_one_length g n Hg Hc Hi)).
  assert (gfs r) as Gr.
  { apply (fold_push_gfs g n Hg Hc Hi); [exact G|]. unfold poly_one. apply Forall_app. split; [apply gfs_repeat0|].
    constructor; [unfold gf; lia|constructor]. }
  assert (r = zeros n) as ->.
  { apply (push_zero_inj g n Hg Hc Hi); [exact Gr|exact Lr|].
    pose proof (push_add g n Hg Hc Hi r (zeros n) 1 1 Lr (zeros_length n)) as P. rewrite V, One, poly_add_self in P.
    change (gf_add 1 1) with 0 in P. rewrite (poly_one_length g n Hg Hc Hi) in P.
    unfold zeros in P at 1. rewrite <- Lr in P at 1. rewrite poly_add_zero_r in P. exact P. }
  rewrite (fold_zero_state g n Hg Hc Hi). exact One.
Qed.

Lemma ca_text_under net name p P t b : get_network name = Ok net -> CASHADDR_PREFIX net = Some p -> ~ In 58 P ->
  cashaddr_decode net (P ++ lit ":" ++ t) = Ok b ->
  exists x v, P = p ++ x /\ ~ In 58 x /\ t = map b32_char v /\ gfs v /\
    codeword cashaddr_g (cashaddr_prefix_values P ++ v) /\ leading_bytes v b /\ len b = Z.max 0 ((5 * len v + 7) / 8 - 6).
Proof.
  intros En Ep NP D. apply (ca_decode_spec name net p) in D; try assumption.
  destruct D as [x [v' [Nx [[G' [V' E']] [LB L]]]]].
  destruct (good_prefixes _ _ _ En Ep) as [N58 Ne].
  assert (split_char 58 (P ++ lit ":" ++ t) = [p ++ x; map b32_char v']) as S1
      by (apply split_char_two; split; [exact E'|]; split; [rewrite in_app_iff; tauto|apply not_in_b32, G']).
  change (lit ":" ++ t) with (58 :: t) in S1. rewrite split_char_app in S1 by exact NP. injection S1 as -> S1.
  change (lit ":" ++ t) with (58 :: t) in E'. apply app_inv_head in E'. injection E' as E'. exists x, v'. auto 10.
Qed.

(* leading bytes depend only on the values that they are taken from *)
Lemma leading_of_front y z b : gfs y -> gfs z -> leading_bytes (y ++ z) b -> 8 * len b <= 5 * len y -> leading_bytes y b.
Proof.
  intros Gy Gz [G [L V]] Lb. split; [exact G|]. split; [exact Lb|]. revert L V Lb. norm_spec. rewrite zlen_app, be_num_app. intros L V Lb.
  rewrite V. clear V. pose proof (zlen_nonneg y). pose proof (zlen_nonneg z). pose proof (zlen_nonneg b).
  replace (5 * (zlen y + zlen z) - 8 * zlen b) with (5 * zlen z + (5 * zlen y - 8 * zlen b)) by lia.
  rewrite Z.pow_add_r by lia. rewrite (Z.pow_mul_r 2 5) by lia. change (2 ^ 5) with 32.
  assert (0 < 32 ^ zlen z) as P by (apply Z.pow_pos_nonneg; lia).
  rewrite <- Z.div_div by (try lia; apply Z.pow_pos_nonneg; lia).
  rewrite Z.div_add_l by lia. rewrite (Z.div_small (be_num 32 z)) by (apply be_num_range; [lia|exact Gz]).
  rewrite Z.add_0_r. reflexivity.
Qed.

Lemma leading_same_front y z z' b b' : gfs y -> gfs z -> gfs z' -> leading_bytes (y ++ z) b -> leading_bytes (y ++ z') b' ->
  8 * len b <= 5 * len y -> len b <= len b' -> exists more, b' = b ++ more.
Proof.
  intros Gy Gz Gz' L L' Lb Lbb. exists (skipn (length b) b'). rewrite <- (firstn_skipn (length b) b') at 1. f_equal.
  rewrite <- (firstn_skipn (length b) b') in L'. apply leading_front in L'.
  assert (len (firstn (length b) b') = len b) as Lf
    by (revert Lbb; norm_spec; unfold zlen; rewrite firstn_length; lia).
  apply leading_of_front in L; try assumption. apply leading_of_front in L'; try assumption; [|lia].
  apply (leading_bytes_unique y); [exact L'|exact L|exact Lf].
Qed.

Lemma map_b32_zeros k : map b32_char (repeat 0 k) = repeat 113 k.
Proof. induction k as [|k IH]; [reflexivity|]. cbn [repeat map]. rewrite IH. reflexivity. Qed.

Lemma q_before_p_lemma name net P t b k : get_network name = Ok net -> ~ In 58 P ->
  cashaddr_decode net (P ++ lit ":" ++ t ++ lit "p") = Ok b ->
  exists more, cashaddr_decode net (P ++ lit ":" ++ t ++ repeat 113 k ++ lit "p") = Ok (b ++ more).
Proof.
  intros En NP D.
  destruct (CASHADDR_PREFIX net) as [p|] eqn:Ep; [|unfold cashaddr_decode in D; rewrite Ep in D; discriminate].
  destruct (ca_text_under net name p P _ b En Ep NP D) as [x [v [EP [Nx [Et [G [V [LB L]]]]]]]].
  symmetry in Et. apply map_eq_app in Et. destruct Et as [y [l [-> [<- El]]]].
  destruct l as [|c [|c' l]]; try discriminate. apply Forall_app in G. destruct G as [Gy Gc]. inversion Gc as [|? ? Gc1 _]; subst.
  assert (c = 1) as ->.
  { apply b32_char_inj; [exact Gc1|unfold gf; lia|]. injection El as El. exact El. }
  set (v' := y ++ repeat 0 k ++ [1]).
  assert (gfs v') as G'.
  { apply Forall_app. split; [exact Gy|]. apply Forall_app. split; [apply gfs_repeat0|exact Gc]. }
  assert (cashaddr_text (p ++ x) v' ((p ++ x) ++ lit ":" ++ map b32_char y ++ repeat 113 k ++ lit "p")) as T.
  { split; [exact G'|]. split.
    - unfold v'. rewrite app_assoc. apply (zeros_before_one cashaddr_g 7 eq_refl (mul_closed_of _ cashaddr_g_gfs) cashaddr_g_inv).
      + apply Forall_app. split; [|exact Gy]. apply Forall_app. split; [|constructor; [unfold gf; lia|constructor]].
        apply Forall_map, Forall_forall. intros z _. apply Z.mod_pos_bound. lia.
      + rewrite <- app_assoc. exact V.
    - unfold v'. rewrite !map_app, map_b32_zeros. reflexivity. }
  destruct (ca_decode_cases name net p ((p ++ x) ++ lit ":" ++ map b32_char y ++ repeat 113 k ++ lit "p") En Ep)
    as [[x' [v2 [b' [D' _]]]]|[_ No]]; [|exfalso; exact (No x v' Nx T)].
  destruct (ca_text_under net name p (p ++ x) _ b' En Ep NP D') as [x2 [v3 [_ [_ [Et [G3 [_ [LB' L']]]]]]]].
  assert (v3 = v') as ->.
  { apply map_b32_inj; [exact G3|exact G'|]. rewrite <- Et. unfold v'. rewrite !map_app, map_b32_zeros. reflexivity. }
  rewrite D'. unfold v' in LB', L'. pose proof (zlen_nonneg y). pose proof (zlen_nonneg (repeat 0 k)).
  revert L L'. norm_spec. rewrite !zlen_app. change (zlen [1]) with 1. intros L L'.
  destruct (leading_same_front y [1] (repeat 0 k ++ [1]) b b' Gy Gc) as [more ->]; try assumption.
  - apply Forall_app in G'. apply G'.
  - norm_spec. pose proof (Z.div_mod (5 * (zlen y + 1) + 7) 8). pose proof (Z.mod_pos_bound (5 * (zlen y + 1) + 7) 8). lia.
  - norm_spec. rewrite L, L'. apply Z.max_le_compat_l, Z.sub_le_mono_r, Z.div_le_mono; lia.
  - exists more. reflexivity.
Qed.

Lemma cashaddr_lengths_lemma name net P t b : get_network name = Ok net -> ~ In 58 P ->
  cashaddr_decode net (P ++ lit ":" ++ t) = Ok b ->
  len b = Z.max 0 ((5 * len t + 7) / 8 - 6) /\ (len b = 21 <-> len t = 42 \/ len t = 43).
Proof.
  intros En NP D. pose proof (cashaddr_length_lemma _ _ _ _ _ En NP D) as L. split; [exact L|]. rewrite L. clear.
  pose proof (Z.div_mod (5 * len t + 7) 8). pose proof (Z.mod_pos_bound (5 * len t + 7) 8). lia.
Qed.
