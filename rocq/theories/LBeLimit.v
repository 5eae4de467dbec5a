(* What the bech32 checksum cannot notice: five changes that keep the version,
   the length and the padding *)
From Coq Require Import ZifyBool ZifyNat String.
From Verif Require Import Py LBase MNet MUtils MBech32 SNum SNet SBase58 SBits SBch SBech32
  LNet LUtils LBase58 LBits LBch LBchErr LBech32 LBurst LSpell LCaLimit.
Open Scope list_scope.
Open Scope Z_scope.

Lemma bytes_of_value n : forall x, 0 <= x < 256 ^ Z.of_nat n ->
  exists l, all_bytes l /\ length l = n /\ be_num 256 l = x.
Proof.
  induction n as [|n IH]; intros x Hx; [exists []; split; [constructor|split; [reflexivity|cbn in *; lia]]|].
  destruct (IH (x / 256)) as [l [B [L V]]].
  { replace (Z.of_nat (S n)) with (Z.of_nat n + 1) in Hx by lia. rewrite Z.pow_add_r in Hx by lia. change (256 ^ 1) with 256 in Hx.
    split; [apply Z.div_pos; lia|apply Z.div_lt_upper_bound; lia]. }
  pose proof (Z.mod_pos_bound x 256 ltac:(lia)).
  exists (l ++ [x mod 256]). split; [apply Forall_app; split; [exact B|constructor; [lia|constructor]]|].
  split; [rewrite app_length, L; cbn; lia|]. rewrite be_num_snoc, V. pose proof (Z.div_mod x 256 ltac:(lia)). lia.
Qed.

(* the padding lies in the last five bits, so the front can be changed freely *)
Lemma change_front prog a a' z : regroup_pad 8 5 prog (a ++ z) -> z <> [] -> length a = length a' -> gfs a' ->
  exists prog', all_bytes prog' /\ len prog' = len prog /\ regroup_pad 8 5 prog' (a' ++ z).
Proof.
  intros [G [p [Rp [Lp Vp]]]] Nz La Ga.
  change (2 ^ 5) with 32 in Vp. change (2 ^ 8) with 256 in Vp.
  apply Forall_app in G. destruct G as [_ Gz].
  assert (gfs (a' ++ z)) as G' by (apply Forall_app; split; assumption).
  assert (zlen (a' ++ z) = zlen (a ++ z)) as Lz by (unfold zlen; rewrite !app_length; lia).
  set (P := 2 ^ p) in *. assert (0 < P) as PP by (apply Z.pow_pos_nonneg; lia).
  assert (exists q, 32 ^ zlen z = q * P) as [q Eq].
  { exists (2 ^ (5 * zlen z - p)). unfold P. change 32 with (2 ^ 5). pose proof (zlen_nonneg z).
    assert (1 <= zlen z) by (destruct z; [congruence|unfold zlen; cbn [length]; lia]).
    rewrite <- Z.pow_mul_r, <- Z.pow_add_r by lia. f_equal. lia. }
  assert (be_num 32 (a' ++ z) = (be_num 256 prog + (be_num 32 a' - be_num 32 a) * q) * P) as E.
  { rewrite be_num_app in Vp. rewrite be_num_app, Eq. rewrite Eq in Vp.
    set (A := be_num 32 a) in *. set (A' := be_num 32 a') in *. set (N := be_num 32 z) in *. set (M := be_num 256 prog) in *.
    clearbody A A' N M. clear - Vp. nia. }
  set (x := be_num 256 prog + (be_num 32 a' - be_num 32 a) * q) in *.
  pose proof (pack_range (a' ++ z) G') as R. rewrite E in R.
  destruct (bytes_of_value (length prog) x) as [prog' [B [L V]]].
  { assert (32 ^ zlen (a' ++ z) = 256 ^ Z.of_nat (length prog) * P) as T.
    { rewrite Lz. unfold P. change 32 with (2 ^ 5). change 256 with (2 ^ 8). pose proof (zlen_nonneg prog). pose proof (zlen_nonneg (a ++ z)).
      rewrite <- !Z.pow_mul_r by lia. rewrite <- Z.pow_add_r by (unfold zlen in *; lia). f_equal. unfold zlen in *. lia. }
    rewrite T in R. clear - R PP. nia. }
  exists prog'. split; [exact B|]. split; [norm_spec; unfold zlen; lia|]. split; [exact G'|].
  exists p. split; [exact Rp|]. split; [rewrite Lz; unfold zlen in *; lia|].
  change (2 ^ 5) with 32. change (2 ^ 8) with 256. rewrite V. exact E.
Qed.

Lemma front_split k v : gfs v -> (k <= length v)%nat -> exists a z, v = a ++ z /\ length z = k /\ gfs a /\ gfs z.
Proof.
  intros G L. exists (firstn (length v - k) v), (skipn (length v - k) v).
  pose proof G as G2. rewrite <- (firstn_skipn (length v - k) v) in G2. apply Forall_app in G2.
  split; [symmetry; apply firstn_skipn|]. split; [rewrite skipn_length; lia|exact G2].
Qed.

(* 10 X^26 + 12 X^20 + 27 X^3 + 8 X + 1 *)
Definition efront : list Z := [10; 0; 0; 0; 0; 0; 12].
Definition echeck : list Z := [0; 0; 27; 0; 8; 1].
Definition ebech : list Z := efront ++ repeat 0 14 ++ echeck.
Lemma ebech_blind : fold_left (poly_push bech32_g) ebech (zeros 5) = zeros 5.
Proof. vm_compute. reflexivity. Qed.
Lemma e_gfs : gfs efront /\ gfs echeck.
Proof. split; repeat constructor; unfold gf; lia. Qed.

Lemma five_unnoticed name net hrp s b : get_network name = Ok net -> BECH32_HRP net = Some hrp ->
  bech32_net_decode net s = Ok b -> len hrp + 29 <= len s ->
  exists s' b', length s' = length s /\ hamming s s' = 5%nat /\
    bech32_net_decode net s' = Ok b' /\ firstn 2 b' = firstn 2 b.
Proof.
  intros En Eh D Ls. pose proof (good_hrps _ _ _ En Eh) as GH.
  apply (net_decode_spec name net hrp) in D; try assumption.
  destruct D as [v [prog [-> [W [C [g5 [R [[c [G [Lc [V E]]]] L90]]]]]]]].
  assert (21 <= length g5)%nat as L21.
  { apply (f_equal (@zlen Z)) in E. rewrite zlen_lower, !zlen_app, zlen_map, zlen_app, zlen_cons in E.
    change (zlen (lit "1")) with 1 in E. revert Ls. norm_spec. intros Ls. unfold zlen in *. lia. }
  apply Forall_app in G. destruct G as [G Gc]. inversion G as [|? ? Gv G5]; subst.
  destruct (front_split 21 g5 G5 L21) as [a [y [-> [Ly [Ga Gy]]]]].
  destruct (front_split 14 y Gy ltac:(lia)) as [m [z [-> [Lz [Gm Gz]]]]].
  assert (length m = 7%nat) as Lm by (rewrite app_length in Ly; lia).
  destruct e_gfs as [Ge1 Ge2].
  set (m' := poly_add m efront). set (c' := poly_add c echeck).
  assert (gfs m') as Gm' by (apply poly_add_gfs; assumption). assert (gfs c') as Gc' by (apply poly_add_gfs; assumption).
  assert (length m' = 7%nat) as Lm' by (unfold m'; rewrite poly_add_length; rewrite Lm; reflexivity).
  assert (length c' = 6%nat) as Lc' by (unfold c'; rewrite poly_add_length; rewrite Lc; reflexivity).
  rewrite app_assoc in R.
  destruct (change_front prog (a ++ m) (a ++ m') z R) as [prog' [B' [Lp R']]];
    [destruct z; [discriminate|congruence]|rewrite !app_length; lia|apply Forall_app; split; assumption|].
  rewrite <- app_assoc in R'.
  set (d := (v :: a ++ m ++ z) ++ c). set (d' := (v :: a ++ m' ++ z) ++ c').
  assert (gfs d) as Gd.
  { apply Forall_app. split; [|exact Gc]. constructor; [exact Gv|]. repeat (apply Forall_app; split; try assumption). }
  assert (gfs d') as Gd'.
  { apply Forall_app. split; [|exact Gc']. constructor; [exact Gv|]. repeat (apply Forall_app; split; try assumption). }
  assert (length d' = length d) as Ld by (unfold d, d'; rewrite !app_length; cbn [length]; rewrite !app_length; lia).
  assert (d' = poly_add d (repeat 0 (S (length a)) ++ ebech)) as Ed.
  { unfold d, d', ebech. change (repeat 0 (S (length a))) with (0 :: repeat 0 (length a)).
    rewrite <- !app_comm_cons, poly_add_cons. f_equal; [unfold gf_add; rewrite Z.lxor_0_r; reflexivity|].
    rewrite <- !app_assoc. rewrite poly_add_app by (rewrite repeat_length; reflexivity). rewrite poly_add_zero_r. f_equal.
    rewrite poly_add_app by (rewrite Lm; reflexivity). fold m'. f_equal.
    rewrite poly_add_app by (rewrite Lz; reflexivity). rewrite <- Lz, poly_add_zero_r. reflexivity. }
  assert (length (repeat 0 (S (length a)) ++ ebech) = length d) as Lw.
  { unfold d. rewrite !app_length, repeat_length. cbn [length]. rewrite !app_length, Lm, Lz, Lc.
    change (length ebech) with 27%nat. lia. }
  assert (codeword bech32_g (hrp_values hrp ++ d')) as V'.
  { unfold codeword, poly_residue in *. set (u := hrp_values hrp) in *. fold d in V.
    pose proof (fold_push_add bech32_g 5 eq_refl (mul_closed_of _ bech32_g_gfs) bech32_g_inv
      (u ++ d) (repeat 0 (length u) ++ repeat 0 (S (length a)) ++ ebech) (poly_one bech32_g) (zeros 5) eq_refl eq_refl
      ltac:(rewrite !app_length in *; rewrite ?repeat_length in *; lia)) as F.
    rewrite V in F. rewrite !(fold_left_app _ (repeat 0 _)) in F.
    rewrite !(fold_zero_state bech32_g 5 eq_refl (mul_closed_of _ bech32_g_gfs) bech32_g_inv), ebech_blind in F.
    rewrite poly_add_app, poly_add_zero_r, <- Ed in F by (rewrite repeat_length; reflexivity). exact F. }
  assert (hamming d d' = 5%nat) as Hd.
  { rewrite <- hamming_weight by congruence. rewrite Ed, poly_add_cancel by congruence. rewrite weight_app, weight_zeros. reflexivity. }
  set (t := hrp ++ lit "1" ++ map b32_char d'). fold d in E.
  assert (length t = length (lower s)) as Lt by (rewrite E; unfold t; rewrite !app_length, !map_length; lia).
  assert (hamming (lower s) t = 5%nat) as Ht.
  { rewrite E. unfold t. rewrite !hamming_app_same, hamming_b32 by (try assumption; congruence). exact Hd. }
  assert (segwit_address hrp v prog' t) as A'.
  { exists (a ++ m' ++ z). split; [exact R'|]. split; [exists c'; split; [exact Gd'|split; [exact Lc'|split; [exact V'|reflexivity]]]|].
    revert L90. norm_spec. unfold zlen. rewrite Lt. auto. }
  assert (witness_program v prog') as W'.
  { destruct W as [W1 [W2 [W3 W4]]]. split; [exact W1|]. split; [exact B'|]. rewrite Lp. auto. }
  assert (lower t = t) as Lo by (apply (segwit_address_lower hrp v prog'); [apply GH|exact A']).
  assert (firstn 2 (witness_bytes v prog') = firstn 2 (witness_bytes v prog)) as F2
    by (unfold witness_bytes; rewrite Lp; reflexivity).
  destruct (case_texts s) as [UL _]. destruct (case_texts t) as [_ [LU [_ UU]]].
  destruct C as [C|C].
  - exists t, (witness_bytes v prog'). rewrite C in *. split; [exact Lt|]. split; [exact Ht|].
    split; [|exact F2]. apply (net_decode_spec name net hrp); try assumption. exists v, prog'. rewrite Lo.
    split; [reflexivity|]. split; [exact W'|]. split; [left; exact Lo|exact A'].
  - exists (upper t), (witness_bytes v prog').
    assert (length (upper t) = length s) as Lu by (unfold upper; rewrite map_length, Lt; unfold lower; apply map_length).
    split; [exact Lu|]. split; [|split; [|exact F2]].
    + rewrite <- C in Lu |- *. rewrite <- UL. apply Nat.le_antisymm.
      * rewrite <- Ht. apply hamming_map. symmetry. exact Lt.
      * rewrite <- Ht. rewrite <- Lo at 1. rewrite <- LU.
        replace (lower s) with (lower (upper (lower s))) at 1 by (destruct (case_texts (lower s)) as [_ [X [Y _]]]; rewrite X; destruct (case_texts s) as [_ [_ [Z _]]]; exact Z).
        apply hamming_map. unfold upper. rewrite !map_length. symmetry. exact Lt.
    + apply (net_decode_spec name net hrp); try assumption. exists v, prog'. rewrite LU, Lo.
      split; [reflexivity|]. split; [exact W'|]. split; [right; exact UU|exact A'].
Qed.
