(* The cashaddr checksum as a cyclic code of length 1025.  The generator has
   roots z^r, r = 495, 496, 497, 528, 529, 530, for an element z of order 1025
   of the field with 2^20 elements; by the argument of Hartmann and Tzeng no
   nonzero word of at most 1025 values has fewer than five nonzero values and
   residue zero.  Only the linear map "times z" is needed, not the product. *)
From Coq Require Import ZifyBool ZifyNat.
From Verif Require Import Py LBase SBase58 SBits SBch LBase58 LBits LBch LBchErr.
Open Scope list_scope.
Open Scope Z_scope.
Ltac Zify.zify_post_hook ::= idtac.

(** * Times z *)

Definition fld (a : Z) : Prop := 0 <= a < 2 ^ 20.

(* z^20 = the polynomial with the bits of 577123 *)
Definition zx (a : Z) : Z :=
  Z.lxor (Z.land (Z.shiftl a 1) 1048575) (if Z.testbit a 19 then 577123 else 0).
Definition pw (k : nat) (a : Z) : Z := Nat.iter k zx a.

Lemma if_xor (b c : bool) (v : Z) :
  (if xorb b c then v else 0) = Z.lxor (if b then v else 0) (if c then v else 0).
Proof. destruct b, c; cbn [xorb]; rewrite ?Z.lxor_nilpotent, ?Z.lxor_0_r, ?Z.lxor_0_l; reflexivity. Qed.

Lemma xor4 a b c d : Z.lxor (Z.lxor a b) (Z.lxor c d) = Z.lxor (Z.lxor a c) (Z.lxor b d).
Proof. rewrite !Z.lxor_assoc. f_equal. rewrite <- !Z.lxor_assoc. f_equal. apply Z.lxor_comm. Qed.

Lemma zx_add a b : zx (Z.lxor a b) = Z.lxor (zx a) (zx b).
Proof.
  unfold zx. rewrite Z.lxor_spec, if_xor, Z.shiftl_lxor, xor4. f_equal.
  apply Z.bits_inj'. intros n Hn. rewrite ?Z.lxor_spec, ?Z.land_spec, ?Z.lxor_spec.
  destruct (Z.testbit 1048575 n); rewrite ?andb_true_r, ?andb_false_r; reflexivity.
Qed.

Lemma pw_add k a b : pw k (Z.lxor a b) = Z.lxor (pw k a) (pw k b).
Proof. induction k as [|k IH]; [reflexivity|]. change (zx (pw k (Z.lxor a b)) = Z.lxor (zx (pw k a)) (zx (pw k b))). rewrite IH. apply zx_add. Qed.

Lemma pw_0 k : pw k 0 = 0.
Proof. pose proof (pw_add k 0 0) as E. rewrite !Z.lxor_nilpotent in E. exact E. Qed.

Lemma pw_pw j k a : pw (j + k) a = pw j (pw k a).
Proof. unfold pw. apply iter_add. Qed.

Lemma zx_fld a : fld (zx a).
Proof.
  unfold zx, fld. apply lxor_range; [lia| |destruct (Z.testbit a 19); lia].
  change 1048575 with (Z.ones 20). rewrite Z.land_ones by lia. apply Z.mod_pos_bound. reflexivity.
Qed.
Lemma pw_fld k a : fld a -> fld (pw k a).
Proof. destruct k as [|k]; [auto|]. intros _. apply zx_fld. Qed.
Lemma fld_add a b : fld a -> fld b -> fld (Z.lxor a b).
Proof. unfold fld. apply lxor_range. lia. Qed.

(** * A linear map that vanishes on the powers of two vanishes *)

Lemma on_bits (F : Z -> Z) : (forall a b, F (Z.lxor a b) = Z.lxor (F a) (F b)) ->
  forall n a, 0 <= a < 2 ^ Z.of_nat n ->
  forallb (fun i => F (2 ^ Z.of_nat i) =? 0) (seq 0 n) = true -> F a = 0.
Proof.
  intros A. assert (F 0 = 0) as F0 by (pose proof (A 0 0) as E; rewrite !Z.lxor_nilpotent in E; exact E).
  induction n as [|n IH]; intros a Ha E.
  - assert (a = 0) as -> by (cbn in Ha; lia). exact F0.
  - rewrite seq_S, forallb_app in E. apply andb_prop in E. destruct E as [E1 E2]. cbn in E2.
    rewrite andb_true_r in E2. apply Z.eqb_eq in E2.
    destruct (Z_lt_le_dec a (2 ^ Z.of_nat n)) as [Hs|Hb]; [apply IH; [lia|exact E1]|].
    replace (Z.of_nat (S n)) with (Z.of_nat n + 1) in Ha by lia. rewrite Z.pow_add_r in Ha by lia.
    set (m := a - 2 ^ Z.of_nat n) in *.
    assert (0 <= m < 2 ^ Z.of_nat n) as Hm by (unfold m; lia).
    pose proof (shift_add 1 m (Z.of_nat n) ltac:(lia) Hm) as S. rewrite Z.shiftl_1_l in S.
    replace (1 * 2 ^ Z.of_nat n + m) with a in S by (unfold m; lia).
    rewrite S, A, E2, (IH m Hm E1). reflexivity.
Qed.

(** * The order of z *)

Lemma pw_period a : fld a -> pw 1025 a = a.
Proof.
  intros Ha. apply Z.lxor_eq. apply (on_bits (fun a => Z.lxor (pw 1025 a) a)) with (n := 20%nat); [|exact Ha|].
  - intros x y. rewrite pw_add. apply xor4.
  - vm_compute. reflexivity.
Qed.

(* times the element with the bits of u *)
Definition times (u : Z) (a : Z) : Z :=
  fold_right (fun i s => Z.lxor (if Z.testbit u (Z.of_nat i) then pw i a else 0) s) 0 (seq 0 20).
Lemma times_add u a b : times u (Z.lxor a b) = Z.lxor (times u a) (times u b).
Proof.
  unfold times. generalize (seq 0 20). intros l. induction l as [|i l IH]; [reflexivity|]. cbn [fold_right].
  rewrite IH, xor4. f_equal. destruct (Z.testbit u (Z.of_nat i)); [apply pw_add|reflexivity].
Qed.
Lemma times_0 u : times u 0 = 0.
Proof. pose proof (times_add u 0 0) as E. rewrite !Z.lxor_nilpotent in E. exact E. Qed.

Lemma fixed_205 a : fld a -> pw 205 a = a -> a = 0.
Proof.
  intros Ha E. symmetry. rewrite <- (times_0 49264). rewrite <- (Z.lxor_nilpotent a). rewrite <- E at 1.
  apply Z.lxor_eq. apply (on_bits (fun a => Z.lxor (times 49264 (Z.lxor (pw 205 a) a)) a)) with (n := 20%nat); [|exact Ha|].
  - intros x y. rewrite pw_add, (xor4 (pw 205 x)), times_add. apply xor4.
  - vm_compute. reflexivity.
Qed.
Lemma fixed_25 a : fld a -> pw 25 a = a -> a = 0.
Proof.
  intros Ha E. symmetry. rewrite <- (times_0 513399). rewrite <- (Z.lxor_nilpotent a). rewrite <- E at 1.
  apply Z.lxor_eq. apply (on_bits (fun a => Z.lxor (times 513399 (Z.lxor (pw 25 a) a)) a)) with (n := 20%nat); [|exact Ha|].
  - intros x y. rewrite pw_add, (xor4 (pw 25 x)), times_add. apply xor4.
  - vm_compute. reflexivity.
Qed.

Lemma pw_multiple k m a : pw k a = a -> pw (m * k) a = a.
Proof.
  intros E. induction m as [|m IH]; [reflexivity|]. cbn [Nat.mul]. rewrite pw_pw, IH. exact E.
Qed.

Lemma gcd_1025 d : (d mod 1025 <> 0)%nat ->
  Nat.divide (Nat.gcd d 1025) 205 \/ Nat.divide (Nat.gcd d 1025) 25.
Proof.
  intros N. pose proof (Nat.gcd_divide_r d 1025) as G2. pose proof (Nat.gcd_divide_l d 1025) as G1.
  set (g := Nat.gcd d 1025) in *.
  assert (g <> 1025)%nat as N1.
  { intros E. rewrite E in G1. destruct G1 as [x ->]. apply N. apply Nat.mod_mul. discriminate. }
  destruct G2 as [y Ey].
  assert (g <= 1025)%nat as Hg. { destruct y; [discriminate|]. clear - Ey. nia. }
  assert (forallb (fun g => negb (Nat.eqb (1025 mod g) 0) || Nat.eqb g 1025 ||
    Nat.eqb (205 mod g) 0 || Nat.eqb (25 mod g) 0) (seq 1 1025) = true) as C by (vm_compute; reflexivity).
  assert (g <> 0)%nat as N0 by (intros E; rewrite E in Ey; lia).
  rewrite forallb_forall in C. specialize (C g ltac:(apply in_seq; clearbody g; clear - Hg N0; lia)).
  assert (1025 mod g = 0)%nat as M by (rewrite Ey; apply Nat.mod_mul, N0). rewrite M in C. cbn [negb Nat.eqb orb] in C.
  apply orb_prop in C. destruct C as [C|C]; [apply orb_prop in C; destruct C as [C|C]|].
  - apply Nat.eqb_eq in C. contradiction.
  - left. apply Nat.mod_divide; [exact N0|]. apply Nat.eqb_eq, C.
  - right. apply Nat.mod_divide; [exact N0|]. apply Nat.eqb_eq, C.
Qed.

(* z^d - 1 is not zero when d is no multiple of 1025 *)
Lemma pw_fixed d a : fld a -> (d mod 1025 <> 0)%nat -> pw d a = a -> a = 0.
Proof.
  intros Ha N E.
  assert (d <> 0)%nat as Nd by (intros ->; apply N; reflexivity).
  destruct (Nat.gcd_bezout_pos d 1025 ltac:(clear - Nd; lia)) as [x [y B]].
  assert (pw (Nat.gcd d 1025) a = a) as G.
  { pose proof (pw_multiple d x a E) as X. rewrite B, pw_pw in X.
    rewrite (pw_multiple 1025 y a (pw_period a Ha)) in X. exact X. }
  destruct (gcd_1025 d N) as [[c D]|[c D]]; pose proof (pw_multiple _ c a G) as M; rewrite <- D in M.
  - apply fixed_205; assumption.
  - apply fixed_25; assumption.
Qed.

Lemma pw_inj k a b : fld a -> fld b -> pw k a = pw k b -> a = b.
Proof.
  intros Ha Hb E. apply (f_equal (pw (k * 1024))) in E. rewrite <- !pw_pw in E.
  replace (k * 1024 + k)%nat with (k * 1025)%nat in E by lia.
  rewrite !pw_multiple in E by (apply pw_period; assumption). exact E.
Qed.

Lemma pw_differ s p q y : fld y -> (Nat.gcd s 1025 = 1)%nat -> (p < 1025)%nat -> (q < 1025)%nat -> p <> q ->
  pw (s * q) y = pw (s * p) y -> y = 0.
Proof.
  intros Hy Hs Hp Hq N E.
  assert (forall p q, (p < q)%nat -> (q < 1025)%nat -> pw (s * q) y = pw (s * p) y -> y = 0) as W.
  { clear p q Hp Hq N E. intros p q Hpq Hq E. replace (s * q)%nat with (s * p + s * (q - p))%nat in E by nia.
    rewrite pw_pw in E. apply pw_inj in E; [|apply pw_fld, Hy|exact Hy].
    apply (pw_fixed (s * (q - p))); [exact Hy| |exact E]. intros M.
    apply Nat.mod_divide in M; [|discriminate]. apply Nat.gauss in M; [|rewrite Nat.gcd_comm; exact Hs].
    destruct M as [c M]. destruct c; [|clear - M Hpq Hq; nia]. clear - M Hpq. lia. }
  destruct (Nat.lt_total p q) as [L|[L|L]]; [apply (W p q); assumption|contradiction|].
  apply (W q p); [exact L|exact Hp|symmetry; exact E].
Qed.

(** * Sums of powers at distinct places *)

Notation term := (nat * Z)%type.
Definition syn (r : nat) (ts : list term) : Z :=
  fold_right (fun t s => Z.lxor (pw (r * fst t) (snd t)) s) 0 ts.
Definition good (ts : list term) : Prop :=
  NoDup (map fst ts) /\ Forall (fun t => (fst t < 1025)%nat /\ fld (snd t)) ts.
Definition gone (ts : list term) : Prop := Forall (fun t => snd t = 0) ts.

Definition elim (s p : nat) (t : term) : term :=
  (fst t, Z.lxor (pw (s * fst t) (snd t)) (pw (s * p) (snd t))).

Lemma elim_syn r s p x ts :
  syn r (map (elim s p) ts) = Z.lxor (syn (r + s) ((p, x) :: ts)) (pw (s * p) (syn r ((p, x) :: ts))).
Proof.
  cbn [syn fold_right fst snd]. fold (syn (r + s) ts). fold (syn r ts).
  rewrite pw_add, <- pw_pw. replace (s * p + r * p)%nat with ((r + s) * p)%nat by lia.
  rewrite xor4, Z.lxor_nilpotent, Z.lxor_0_l.
  induction ts as [|[q y] ts IH]; [cbn; rewrite pw_0; reflexivity|].
  cbn [map syn fold_right elim fst snd]. fold (syn r (map (elim s p) ts)). fold (syn (r + s) ts). fold (syn r ts).
  rewrite IH, !pw_add, <- !pw_pw, xor4.
  replace (r * q + s * q)%nat with ((r + s) * q)%nat by lia.
  replace (r * q + s * p)%nat with (s * p + r * q)%nat by lia. reflexivity.
Qed.

Lemma elim_good s p ts : good ts -> good (map (elim s p) ts).
Proof.
  intros [N F]. split; [rewrite map_map; exact N|].
  apply Forall_map. revert F. apply Forall_impl. intros [q y] [Hq Hy]. cbn [elim fst snd] in *.
  split; [exact Hq|]. apply fld_add; apply pw_fld, Hy.
Qed.

Lemma elim_gone s p x ts : (Nat.gcd s 1025 = 1)%nat -> good ((p, x) :: ts) -> gone (map (elim s p) ts) -> gone ts.
Proof.
  intros Hs [N F] E. inversion N as [|? ? Np _]; subst. inversion F as [|? ? [Hp _] F']; subst. cbn [fst] in Hp.
  unfold gone in *. rewrite Forall_map in E. rewrite Forall_forall in *. intros [q y] I. cbn [snd].
  specialize (E _ I). cbn [elim fst snd] in E. apply Z.lxor_eq in E. destruct (F' _ I) as [Hq Hy]. cbn [fst snd] in *.
  apply (pw_differ s p q y Hy Hs Hp Hq); [|exact E].
  intros <-. apply Np. change p with (fst (p, y)). apply in_map, I.
Qed.

Lemma syn_gone r ts : gone ts -> syn r ts = 0.
Proof.
  intros G. induction G as [|[q y] ts E G IH]; [reflexivity|]. cbn [syn fold_right fst snd] in *. fold (syn r ts).
  rewrite E, pw_0, IH. reflexivity.
Qed.

Lemma head_gone r p x ts : fld x -> syn r ((p, x) :: ts) = 0 -> gone ts -> gone ((p, x) :: ts).
Proof.
  intros Hx E G. constructor; [|exact G]. cbn [syn fold_right fst snd] in *. fold (syn r ts) in E.
  rewrite (syn_gone r ts G), Z.lxor_0_r in E.
  apply (pw_inj (r * p)); [exact Hx|unfold fld; lia|]. rewrite E. symmetry. apply pw_0.
Qed.

Lemma good_tail t ts : good (t :: ts) -> good ts.
Proof. intros [N F]. inversion N; inversion F; subst. split; assumption. Qed.

(* as many consecutive power sums as terms *)
Lemma vandermonde n : forall a ts, (length ts <= n)%nat -> good ts ->
  (forall i, (i < n)%nat -> syn (a + i) ts = 0) -> gone ts.
Proof.
  induction n as [|n IH]; intros a ts L G S; [destruct ts; [constructor|cbn in L; lia]|].
  destruct ts as [|[p x] ts]; [constructor|].
  apply (head_gone (a + 0)); [destruct G as [_ F]; inversion F as [|? ? [_ Hx] _]; exact Hx|apply S; lia|].
  apply (elim_gone 1 p x ts eq_refl G). apply (IH a); [rewrite map_length; cbn in L; lia|apply elim_good, (good_tail _ _ G)|].
  intros i Hi. rewrite (elim_syn (a + i) 1 p x). replace (a + i + 1)%nat with (a + (i + 1))%nat by lia.
  rewrite (S (i + 1)%nat) by lia. rewrite (S i) by lia. rewrite pw_0. reflexivity.
Qed.

(* Hartmann and Tzeng: two runs of n, a distance t apart, for n + 1 terms *)
Lemma two_runs n a t ts : (Nat.gcd t 1025 = 1)%nat -> (1 <= n)%nat -> (length ts <= S n)%nat -> good ts ->
  (forall i, (i < n)%nat -> syn (a + i) ts = 0 /\ syn (a + i + t) ts = 0) -> gone ts.
Proof.
  intros Ht Hn L G S. destruct ts as [|[p x] ts]; [constructor|].
  apply (head_gone (a + 0)); [destruct G as [_ F]; inversion F as [|? ? [_ Hx] _]; exact Hx|apply S; lia|].
  apply (elim_gone t p x ts Ht G). apply (vandermonde n a); [rewrite map_length; cbn in L; lia|apply elim_good, (good_tail _ _ G)|].
  intros i Hi. rewrite (elim_syn (a + i) t p x). destruct (S i Hi) as [-> ->]. rewrite pw_0. reflexivity.
Qed.

(** * The field with 32 elements inside *)

Definition emb (c : Z) : Z :=
  fold_right (fun p s => Z.lxor (if Z.testbit c (fst p) then snd p else 0) s) 0
    [(0, 1); (1, 703222); (2, 815374); (3, 348231); (4, 418206)].
Lemma emb_add a b : emb (Z.lxor a b) = Z.lxor (emb a) (emb b).
Proof.
  unfold emb. match goal with |- context[fold_right _ 0 ?l] => generalize l end. intros l.
  induction l as [|[i v] l IH]; [reflexivity|]. cbn [fold_right fst snd].
  rewrite IH, Z.lxor_spec, if_xor. apply xor4.
Qed.
Lemma emb_fld c : gf c -> fld (emb c).
Proof.
  intros G. unfold fld.
  pose proof (sweep32 (fun c => (0 <=? emb c) && (emb c <? 2 ^ 20)) ltac:(vm_compute; reflexivity) c G). lia.
Qed.
Lemma emb_0 c : gf c -> emb c = 0 -> c = 0.
Proof.
  intros G E.
  pose proof (sweep32 (fun c => negb (emb c =? 0) || (c =? 0)) ltac:(vm_compute; reflexivity) c G) as S.
  cbv beta in S. rewrite E in S. cbn [Z.eqb negb orb] in S. apply Z.eqb_eq, S.
Qed.

(* the value of the polynomial with coefficients l at z^r *)
Definition step (r : nat) (acc c : Z) : Z := Z.lxor (pw r acc) (emb c).
Definition ev (r : nat) (l : list Z) (s : Z) : Z := fold_left (step r) l s.

Lemma ev_app r l m s : ev r (l ++ m) s = ev r m (ev r l s).
Proof. apply fold_left_app. Qed.
Lemma ev_start r l s : ev r l s = Z.lxor (pw (r * length l) s) (ev r l 0).
Proof.
  revert s. induction l as [|c l IH]; intros s.
  - cbn. rewrite Nat.mul_0_r, Z.lxor_0_r. reflexivity.
  - cbn [ev fold_left]. fold (ev r l (step r s c)). fold (ev r l (step r 0 c)). rewrite (IH (step r s c)), (IH (step r 0 c)).
    unfold step. rewrite !pw_add, <- !pw_pw, pw_0, Z.lxor_0_l, Z.lxor_assoc. f_equal. f_equal. cbn [length]. lia.
Qed.
Lemma ev_add r l m : length l = length m -> ev r (poly_add l m) 0 = Z.lxor (ev r l 0) (ev r m 0).
Proof.
  revert m. induction l as [|x l IH]; intros [|y m] L; try discriminate; [reflexivity|]. injection L as L.
  rewrite poly_add_cons. cbn [ev fold_left]. fold (ev r (poly_add l m) (step r 0 (gf_add x y))).
  fold (ev r l (step r 0 x)). fold (ev r m (step r 0 y)).
  rewrite ev_start, (ev_start r l), (ev_start r m), (IH m L), poly_add_length by exact L.
  unfold step, gf_add. rewrite pw_0, !Z.lxor_0_l, emb_add, pw_add, <- L. apply xor4.
Qed.
Lemma ev_zeros r k : ev r (repeat 0 k) 0 = 0.
Proof. induction k as [|k IH]; [reflexivity|]. cbn [repeat ev fold_left]. unfold step at 2. rewrite pw_0. exact IH. Qed.

Definition roots : list nat := [495; 496; 497; 528; 529; 530]%nat.

Lemma generator_roots r q : In r roots -> gf q -> ev r (map (gf_mul q) cashaddr_g) 0 = pw (r * 8) (emb q).
Proof.
  intros I G. apply Z.lxor_eq.
  apply (on_bits (fun q => Z.lxor (ev r (map (gf_mul q) cashaddr_g) 0) (pw (r * 8) (emb q)))) with (n := 5%nat); [|exact G|].
  - intros a b. rewrite emb_add, pw_add, (map_mul_add a b), ev_add by (rewrite !map_length; reflexivity). apply xor4.
  - assert (forallb (fun r => forallb (fun i => Z.lxor (ev r (map (gf_mul (2 ^ Z.of_nat i)) cashaddr_g) 0)
      (pw (r * 8) (emb (2 ^ Z.of_nat i))) =? 0) (seq 0 5)) roots = true) as C by (vm_compute; reflexivity).
    rewrite forallb_forall in C. exact (C r I).
Qed.

Lemma push_value r st c : In r roots -> gfs st -> length st = 8%nat ->
  ev r (poly_push cashaddr_g st c) 0 = step r (ev r st 0) c.
Proof.
  intros I G L. destruct st as [|q st]; [discriminate|]. injection L as L. inversion G as [|? ? Gq Gs]; subst.
  cbn [poly_push]. rewrite ev_add by (rewrite app_length, map_length, L; reflexivity).
  rewrite generator_roots by assumption. rewrite ev_app. cbn [ev fold_left]. fold (ev r st 0).
  fold (ev r st (step r 0 q)). rewrite (ev_start r st (step r 0 q)). unfold step. rewrite pw_0, Z.lxor_0_l, pw_add, <- pw_pw, L.
  replace (r + r * 7)%nat with (r * 8)%nat by lia.
  rewrite Z.lxor_comm, Z.lxor_assoc. reflexivity.
Qed.

Lemma ca_g_gfs : gfs cashaddr_g.
Proof. repeat constructor; unfold gf; lia. Qed.
Lemma ca_g_inv q : gf q -> gf_mul q (last cashaddr_g 0) = 0 -> q = 0.
Proof.
  intros G E.
  pose proof (sweep32 (fun q => negb (gf_mul q 1 =? 0) || (q =? 0)) ltac:(vm_compute; reflexivity) q G) as S.
  cbv beta in S. change (last cashaddr_g 0) with 1 in E. rewrite E in S. cbn [Z.eqb negb orb] in S. apply Z.eqb_eq, S.
Qed.

Lemma residue_value r v : In r roots -> gfs v ->
  ev r (fold_left (poly_push cashaddr_g) v (zeros 7)) 0 = ev r v 0.
Proof.
  intros I G.
  assert (forall st, gfs st -> length st = 8%nat -> ev r (fold_left (poly_push cashaddr_g) v st) 0 = ev r v (ev r st 0)) as W.
  { induction G as [|c v Gc Gv IH]; intros st Gst L; [reflexivity|]. cbn [fold_left].
    rewrite IH; [|apply (push_gfs cashaddr_g 7 eq_refl (mul_closed_of _ ca_g_gfs) ca_g_inv); assumption
      |apply (push_length cashaddr_g 7 eq_refl (mul_closed_of _ ca_g_gfs) ca_g_inv); exact L].
    rewrite push_value by assumption. reflexivity. }
  rewrite W; [|apply gfs_repeat0|reflexivity]. f_equal. unfold zeros. apply ev_zeros.
Qed.

(** * The nonzero places of a word *)

Fixpoint terms (v : list Z) : list term :=
  match v with
  | [] => []
  | c :: t => if c =? 0 then terms t else (length t, emb c) :: terms t
  end.

Lemma terms_length v : length (terms v) = weight v.
Proof.
  induction v as [|c v IH]; [reflexivity|]. unfold weight in *. cbn [terms filter].
  destruct (c =? 0); cbn [negb length]; rewrite IH; reflexivity.
Qed.

Lemma terms_below v t : In t (terms v) -> (fst t < length v)%nat.
Proof.
  induction v as [|c v IH]; [intros []|]. cbn [terms length]. destruct (c =? 0); [|intros [<-|I]; [cbn; lia|]];
  try (intros I); specialize (IH I); lia.
Qed.

Lemma terms_good v : gfs v -> (length v <= 1025)%nat -> good (terms v).
Proof.
  intros G. induction G as [|c v Gc Gv IH]; intros L; [split; constructor|].
  cbn [length] in L. specialize (IH ltac:(lia)). cbn [terms]. destruct (c =? 0); [exact IH|].
  destruct IH as [N F]. split; constructor; try assumption.
  - intros I. apply in_map_iff in I. destruct I as [t [E I]]. apply terms_below in I. rewrite E in I. cbn in I. lia.
  - cbn [fst snd]. split; [lia|apply emb_fld, Gc].
Qed.

Lemma terms_syn r v : syn r (terms v) = ev r v 0.
Proof.
  induction v as [|c v IH]; [reflexivity|]. cbn [ev fold_left terms]. fold (ev r v (step r 0 c)).
  rewrite ev_start. unfold step. rewrite pw_0, Z.lxor_0_l. destruct (c =? 0) eqn:E.
  - apply Z.eqb_eq in E. subst c. change (emb 0) with 0. rewrite pw_0, Z.lxor_0_l. exact IH.
  - cbn [syn fold_right fst snd]. fold (syn r (terms v)). rewrite IH. reflexivity.
Qed.

Lemma terms_gone v : gfs v -> gone (terms v) -> v = repeat 0 (length v).
Proof.
  intros G. induction G as [|c v Gc Gv IH]; intros E; [reflexivity|]. cbn [terms length repeat] in *.
  destruct (c =? 0) eqn:Ec; [apply Z.eqb_eq in Ec; subst c; f_equal; exact (IH E)|].
  inversion E as [|? ? E0 _]; subst. cbn [snd] in E0. apply emb_0 in E0; [|exact Gc]. subst c. discriminate.
Qed.

Lemma cashaddr_four v : gfs v -> (length v <= 1025)%nat -> (weight v <= 4)%nat ->
  fold_left (poly_push cashaddr_g) v (zeros 7) = zeros 7 -> v = repeat 0 (length v).
Proof.
  intros G L W E. apply terms_gone; [exact G|].
  assert (forall r, In r roots -> syn r (terms v) = 0) as S.
  { intros r I. rewrite terms_syn, <- (residue_value r v I G), E. apply ev_zeros. }
  apply (two_runs 3 495 33); [reflexivity|lia|rewrite terms_length; exact W|apply terms_good; assumption|].
  intros i Hi. destruct i as [|[|[|i]]]; [| | |lia]; split; apply S; cbn; auto 8.
Qed.
