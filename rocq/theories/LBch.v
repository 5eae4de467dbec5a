(* The checksum code shared by bech32 and cashaddr *)
From Coq Require Import ZifyBool ZifyNat.
From Verif Require Import Py LBase MBech32 MCashaddr SBase58 SBits SBch LBase58 LBits.
Open Scope list_scope.
Open Scope Z_scope.
Ltac Zify.zify_post_hook ::= idtac.

(** * xor on field elements *)

Lemma lxor_range n a b : 0 <= n -> 0 <= a < 2 ^ n -> 0 <= b < 2 ^ n -> 0 <= Z.lxor a b < 2 ^ n.
Proof.
  intros Hn Ha Hb. assert (0 <= Z.lxor a b) as P by (apply Z.lxor_nonneg; lia).
  split; [exact P|]. destruct (Z.eq_dec (Z.lxor a b) 0) as [->|N]; [apply pow2_pos, Hn|].
  destruct (Z.eq_dec a 0) as [->|Na]; [rewrite Z.lxor_0_l; lia|].
  destruct (Z.eq_dec b 0) as [->|Nb]; [rewrite Z.lxor_0_r; lia|].
  apply Z.log2_lt_pow2; [lia|]. eapply Z.le_lt_trans; [apply Z.log2_lxor; lia|].
  apply Z.max_lub_lt; apply Z.log2_lt_pow2; lia.
Qed.

Lemma gf_add_gf a b : gf a -> gf b -> gf (gf_add a b).
Proof. apply (lxor_range 5); lia. Qed.

Lemma small_high_bits d n k : 0 <= d < 2 ^ n -> n <= k -> Z.testbit d k = false.
Proof.
  intros Hd Hk. destruct (Z.eq_dec d 0) as [->|N]; [apply Z.bits_0|].
  apply Z.bits_above_log2; [lia|]. destruct Hd as [D1 D2]. assert (0 < d) by lia.
  apply Z.log2_lt_pow2 in D2; [|assumption]. lia.
Qed.

Lemma shift_add x d n : 0 <= n -> 0 <= d < 2 ^ n -> x * 2 ^ n + d = Z.lxor (Z.shiftl x n) d.
Proof.
  intros Hn Hd. rewrite <- Z.shiftl_mul_pow2 by lia. apply Z.add_nocarry_lxor.
  apply Z.bits_inj'. intros k Hk. rewrite Z.land_spec, Z.bits_0.
  destruct (Z.ltb_spec k n).
  - rewrite Z.shiftl_spec_low by lia. reflexivity.
  - rewrite (small_high_bits d n k) by lia. apply andb_false_r.
Qed.

Lemma lxor_digits x y d e : gf d -> gf e ->
  Z.lxor (x * 32 + d) (y * 32 + e) = Z.lxor x y * 32 + Z.lxor d e.
Proof.
  intros Hd He. change 32 with (2 ^ 5).
  rewrite !shift_add by (try lia; try assumption; apply gf_add_gf; assumption).
  rewrite Z.shiftl_lxor. rewrite !Z.lxor_assoc. f_equal.
  rewrite <- !Z.lxor_assoc. f_equal. apply Z.lxor_comm.
Qed.

(** * Vectors *)

Definition gfs (l : list Z) : Prop := Forall gf l.

Lemma gfs_digits l : gfs l <-> digits 32 l.
Proof. reflexivity. Qed.

Lemma poly_add_nil : poly_add [] [] = [].
Proof. reflexivity. Qed.

Lemma poly_add_cons a b x y : poly_add (x :: a) (y :: b) = gf_add x y :: poly_add a b.
Proof. reflexivity. Qed.

Lemma poly_add_length a b : length a = length b -> length (poly_add a b) = length a.
Proof. intros E. unfold poly_add. rewrite map_length, combine_length. lia. Qed.

Lemma poly_add_gfs a b : gfs a -> gfs b -> gfs (poly_add a b).
Proof.
  revert b. induction a as [|x a IH]; intros b Ha Hb; [constructor|].
  destruct b as [|y b]; [constructor|]. inversion Ha; inversion Hb; subst. rewrite poly_add_cons.
  constructor; [apply gf_add_gf; assumption|apply IH; assumption].
Qed.

Lemma poly_add_app a b c d : length a = length c ->
  poly_add (a ++ b) (c ++ d) = poly_add a c ++ poly_add b d.
Proof.
  revert c. induction a as [|x a IH]; intros [|y c] E; try discriminate; [reflexivity|].
  cbn [app]. rewrite !poly_add_cons. cbn [app]. f_equal. apply IH. cbn in E. lia.
Qed.

Lemma poly_add_zero_r a : poly_add a (repeat 0 (length a)) = a.
Proof.
  induction a as [|x a IH]; [reflexivity|]. cbn [length repeat]. rewrite poly_add_cons, IH.
  unfold gf_add. rewrite Z.lxor_0_r. reflexivity.
Qed.

Lemma poly_add_comm a b : poly_add a b = poly_add b a.
Proof.
  revert b. induction a as [|x a IH]; intros [|y b]; try reflexivity. rewrite !poly_add_cons, IH.
  unfold gf_add. rewrite Z.lxor_comm. reflexivity.
Qed.

Lemma poly_add_assoc a b c : poly_add a (poly_add b c) = poly_add (poly_add a b) c.
Proof.
  revert b c. induction a as [|x a IH]; intros [|y b] [|z c]; try reflexivity.
  rewrite !poly_add_cons, IH. unfold gf_add. rewrite Z.lxor_assoc. reflexivity.
Qed.

Lemma poly_add_self a : poly_add a a = repeat 0 (length a).
Proof.
  induction a as [|x a IH]; [reflexivity|]. rewrite poly_add_cons, IH. unfold gf_add.
  rewrite Z.lxor_nilpotent. reflexivity.
Qed.

Lemma poly_add_zero_eq a b : length a = length b -> poly_add a b = repeat 0 (length a) -> a = b.
Proof.
  revert b. induction a as [|x a IH]; intros [|y b] L E; try discriminate; [reflexivity|].
  rewrite poly_add_cons in E. cbn [length repeat] in E. injection E as E1 E2.
  f_equal; [apply Z.lxor_eq, E1|apply IH; [cbn in L; lia|exact E2]].
Qed.

Lemma poly_add_swap a b c d :
  poly_add (poly_add a b) (poly_add c d) = poly_add (poly_add a c) (poly_add b d).
Proof.
  rewrite <- !poly_add_assoc. f_equal. rewrite !poly_add_assoc. f_equal. apply poly_add_comm.
Qed.

(* packed into one number, five bits each *)
Lemma pack_add a b : gfs a -> gfs b -> length a = length b ->
  be_num 32 (poly_add a b) = Z.lxor (be_num 32 a) (be_num 32 b).
Proof.
  revert b. induction a as [|x a IH] using rev_ind; intros b Ha Hb L.
  - destruct b; [reflexivity|discriminate].
  - destruct b as [|y b _] using rev_ind; [rewrite app_length in L; cbn in L; lia|].
    rewrite !app_length in L. cbn [length] in L. assert (length a = length b) as L' by lia.
    apply Forall_app in Ha, Hb. destruct Ha as [Ha Hx], Hb as [Hb Hy].
    inversion Hx; inversion Hy; subst. rewrite poly_add_app by exact L'.
    change (poly_add [x] [y]) with [gf_add x y]. rewrite !be_num_snoc, IH by assumption.
    symmetry. apply lxor_digits; assumption.
Qed.

Lemma pack_range l : gfs l -> 0 <= be_num 32 l < 32 ^ zlen l.
Proof. intros G. apply be_num_range; [lia|exact G]. Qed.

Lemma pack_inj a b : gfs a -> gfs b -> length a = length b -> be_num 32 a = be_num 32 b -> a = b.
Proof. intros A B L E. apply (be_num_inj_len 32); [lia|exact A|exact B|unfold zlen; lia|exact E]. Qed.

Lemma split_at_nth (l : list Z) i : (i < length l)%nat ->
  exists p x q, l = p ++ x :: q /\ length p = i /\ nth i l 0 = x.
Proof.
  intros Hi. destruct (nth_split l 0 Hi) as [p [q [E L]]]. exists p, (nth i l 0), q. auto.
Qed.

(* unpacking, as the checksum functions do *)
Lemma unpack l k : gfs l -> length l = S k ->
  map (fun i => Z.land (Z.shiftr (be_num 32 l) (5 * (Z.of_nat k - Z.of_nat i))) 31) (seq 0 (S k)) = l.
Proof.
  intros G L. apply nth_ext with (d := 0) (d' := 0).
  { rewrite map_length, seq_length. lia. }
  intros i Hi. rewrite map_length, seq_length in Hi.
  set (f := fun i : nat => _). rewrite (nth_indep _ 0 (f O)) by (rewrite map_length, seq_length; exact Hi).
  rewrite map_nth, seq_nth by exact Hi. cbn [Nat.add]. unfold f. clear f.
  destruct (split_at_nth l i) as [p [x [q [E [Lp Ex]]]]]; [lia|]. rewrite Ex.
  pose proof G as G'. rewrite E in G' |- *. apply Forall_app in G'. destruct G' as [Gp Gxq].
  inversion Gxq as [|? ? Gx Gq]; subst x0 l0.
  assert (zlen q = Z.of_nat k - Z.of_nat i) as Lq.
  { apply f_equal with (f := @length Z) in E. rewrite app_length in E. cbn [length] in E. unfold zlen. lia. }
  rewrite <- Lq. rewrite be_num_app, be_num_cons, zlen_cons.
  pose proof (zlen_nonneg q). rewrite Z.shiftr_div_pow2 by lia.
  rewrite Z.pow_mul_r by lia. change (2 ^ 5) with 32.
  pose proof (pack_range q Gq) as Rq. set (Q := 32 ^ zlen q) in *.
  assert (0 < Q) by (apply Z.pow_pos_nonneg; lia).
  rewrite Z.pow_add_r by lia. rewrite Z.pow_1_r. fold Q.
  replace (be_num 32 p * (32 * Q) + (x * Q + be_num 32 q)) with (be_num 32 q + (be_num 32 p * 32 + x) * Q) by ring.
  rewrite Z.div_add, Z.div_small by lia. rewrite Z.add_0_l.
  change 31 with (Z.ones 5). rewrite Z.land_ones by lia. change (2 ^ 5) with 32.
  rewrite Z.add_comm, Z.mod_add by lia. apply Z.mod_small. exact Gx.
Qed.

(** * gf_mul *)

Lemma gf_mul_0_l b : gf_mul 0 b = 0.
Proof. reflexivity. Qed.

Lemma fold_xor_map (f g : nat -> Z) l :
  fold_right gf_add 0 (map (fun i => Z.lxor (f i) (g i)) l)
  = Z.lxor (fold_right gf_add 0 (map f l)) (fold_right gf_add 0 (map g l)).
Proof.
  induction l as [|i l IH]; [reflexivity|]. cbn [map fold_right]. rewrite IH. unfold gf_add.
  rewrite !Z.lxor_assoc. f_equal. rewrite <- !Z.lxor_assoc. f_equal. apply Z.lxor_comm.
Qed.

Lemma gf_mul_add_l a b c : gf_mul (gf_add a b) c = gf_add (gf_mul a c) (gf_mul b c).
Proof.
  unfold gf_mul. unfold gf_add at 3. rewrite <- fold_xor_map. f_equal. apply map_ext. intros i.
  unfold gf_add. rewrite Z.lxor_spec.
  destruct (Z.testbit a (Z.of_nat i)), (Z.testbit b (Z.of_nat i)); cbn [xorb].
  - rewrite Z.lxor_nilpotent. reflexivity.
  - rewrite Z.lxor_0_r. reflexivity.
  - rewrite Z.lxor_0_l. reflexivity.
  - reflexivity.
Qed.

(* sweeps over the 32 field elements *)
Definition all32 : list Z := map Z.of_nat (seq 0 32).
Lemma all32_In a : gf a -> In a all32.
Proof.
  intros Ha. unfold gf in Ha. apply in_map_iff. exists (Z.to_nat a). split; [lia|]. apply in_seq. lia.
Qed.
Lemma sweep32 (P : Z -> bool) : forallb P all32 = true -> forall a, gf a -> P a = true.
Proof. intros F a Ha. rewrite forallb_forall in F. apply F, all32_In, Ha. Qed.

(** * The code *)

Lemma map_mul_add q t l :
  map (gf_mul (gf_add q t)) l = poly_add (map (gf_mul q) l) (map (gf_mul t) l).
Proof.
  induction l as [|x l IH]; [reflexivity|]. cbn [map]. rewrite poly_add_cons, <- IH, gf_mul_add_l.
  reflexivity.
Qed.

Section Code.
  Context (g : list Z) (n : nat).
  Hypothesis Hg : length g = S n.
  (* multiplying the coefficients of g stays in the field, and the constant
     coefficient is invertible *)
  Hypothesis Hclosed : forall q, gf q -> gfs (map (gf_mul q) g).
  Hypothesis Hinv : forall q, gf q -> gf_mul q (last g 0) = 0 -> q = 0.

  Lemma push_length r v : length r = S n -> length (poly_push g r v) = S n.
  Proof using All.
    intros L. destruct r as [|q r]; [discriminate|]. cbn [poly_push]. cbn [length] in L.
    rewrite poly_add_length; rewrite app_length; cbn [length]; [lia|rewrite map_length; lia].
  Qed.

  Lemma push_gfs r v : gfs r -> gf v -> gfs (poly_push g r v).
  Proof using All.
    intros G V. destruct r as [|q r]; [constructor|]. inversion G; subst. cbn [poly_push].
    apply poly_add_gfs; [|apply Hclosed; assumption]. apply Forall_app. split; [assumption|].
    constructor; [exact V|constructor].
  Qed.

  Lemma push_add r s v w : length r = S n -> length s = S n ->
    poly_push g (poly_add r s) (gf_add v w) = poly_add (poly_push g r v) (poly_push g s w).
  Proof using All.
    intros Lr Ls. destruct r as [|q r]; [discriminate|]. destruct s as [|t s]; [discriminate|].
    cbn [length] in *. rewrite poly_add_cons. cbn [poly_push].
    rewrite poly_add_swap. f_equal.
    - rewrite poly_add_app by lia. reflexivity.
    - apply map_mul_add.
  Qed.

  Lemma fold_push_length vs r : length r = S n -> length (fold_left (poly_push g) vs r) = S n.
  Proof using All.
    revert r. induction vs as [|v vs IH]; intros r L; [exact L|]. cbn [fold_left].
    apply IH, push_length, L.
  Qed.

  Lemma fold_push_gfs vs r : gfs vs -> gfs r -> gfs (fold_left (poly_push g) vs r).
  Proof using All.
    revert r. induction vs as [|v vs IH]; intros r V G; [exact G|]. inversion V; subst. cbn [fold_left].
    apply IH; [assumption|]. apply push_gfs; assumption.
  Qed.

  Lemma fold_push_add vs ws r s : length r = S n -> length s = S n -> length vs = length ws ->
    fold_left (poly_push g) (poly_add vs ws) (poly_add r s)
    = poly_add (fold_left (poly_push g) vs r) (fold_left (poly_push g) ws s).
  Proof using All.
    revert ws r s. induction vs as [|v vs IH]; intros [|w ws] r s Lr Ls L; try discriminate; [reflexivity|].
    rewrite poly_add_cons. cbn [fold_left]. rewrite push_add by assumption.
    apply IH; [apply push_length, Lr|apply push_length, Ls|cbn in L; lia].
  Qed.

  Definition zeros : list Z := repeat 0 (S n).

  Lemma zeros_length : length zeros = S n.
  Proof. apply repeat_length. Qed.

  Lemma map_mul_0 l : map (gf_mul 0) l = repeat 0 (length l).
  Proof. induction l as [|x l IH]; [reflexivity|]. cbn [map length repeat]. rewrite IH. reflexivity. Qed.

  Lemma push_zero_top r v : length r = n -> poly_push g (0 :: r) v = r ++ [v].
  Proof using All.
    intros L. cbn [poly_push]. rewrite map_mul_0, Hg.
    replace (S n) with (length (r ++ [v])) by (rewrite app_length; cbn [length]; lia).
    apply poly_add_zero_r.
  Qed.

  (* shifting values into a state that starts with zeros *)
  Lemma fold_push_into_zeros c k p : (length c <= k)%nat -> (k + length p = S n)%nat ->
    fold_left (poly_push g) c (repeat 0 k ++ p) = repeat 0 (k - length c) ++ p ++ c.
  Proof using All.
    revert k p. induction c as [|v c IH]; intros k p Lc Lp; cbn [length] in *.
    - rewrite Nat.sub_0_r, app_nil_r. reflexivity.
    - destruct k as [|k]; [lia|]. cbn [fold_left repeat app].
      rewrite push_zero_top by (rewrite app_length, repeat_length; lia).
      rewrite <- app_assoc. rewrite IH by (rewrite ?app_length; cbn [length]; lia).
      rewrite <- app_assoc. reflexivity.
  Qed.

  Lemma fold_push_zeros_check c : length c = S n -> fold_left (poly_push g) c zeros = c.
  Proof using All.
    intros L. unfold zeros. rewrite <- (app_nil_r (repeat 0 (S n))).
    rewrite fold_push_into_zeros by (cbn [length]; lia). rewrite L, Nat.sub_diag. reflexivity.
  Qed.

  (* the residue of a message extended by check symbols *)
  Lemma residue_with_check vs c : length c = S n ->
    poly_residue g (vs ++ c) = poly_add (poly_residue g (vs ++ zeros)) c.
  Proof using All.
    intros L. unfold poly_residue. rewrite !fold_left_app.
    assert (length (poly_one g) = S n) as L1
      by (unfold poly_one; rewrite app_length, repeat_length, Hg; cbn [length]; lia).
    set (r := fold_left (poly_push g) vs (poly_one g)).
    assert (length r = S n) as Lr by (apply fold_push_length, L1).
    rewrite <- (fold_push_zeros_check c L) at 2.
    rewrite <- fold_push_add by (try assumption; rewrite ?zeros_length; lia).
    rewrite (poly_add_comm zeros c). unfold zeros. rewrite <- L at 1. rewrite poly_add_zero_r.
    rewrite <- Lr. rewrite poly_add_zero_r. reflexivity.
  Qed.

  Lemma poly_one_length : length (poly_one g) = S n.
  Proof using All. unfold poly_one. rewrite app_length, repeat_length, Hg. cbn [length]. lia. Qed.

  (* exactly one choice of check symbols makes a code word *)
  Lemma codeword_check vs c : length c = S n ->
    codeword g (vs ++ c) <-> c = poly_add (poly_residue g (vs ++ zeros)) (poly_one g).
  Proof using All.
    intros L. unfold codeword. rewrite residue_with_check by exact L.
    set (R := poly_residue g (vs ++ zeros)).
    assert (length R = S n) as LR by (apply fold_push_length, poly_one_length).
    split.
    - intros <-. rewrite poly_add_assoc, poly_add_self, LR, <- L, poly_add_comm, poly_add_zero_r. reflexivity.
    - intros ->. rewrite poly_add_assoc, poly_add_self, LR, <- poly_one_length, poly_add_comm, poly_add_zero_r.
      reflexivity.
  Qed.

  (* pushing a zero is injective *)
  Lemma push_zero_inj r : gfs r -> length r = S n -> poly_push g r 0 = zeros -> r = zeros.
  Proof using All.
    intros G L E. destruct r as [|q r]; [discriminate|]. cbn [length] in L. inversion G as [|? ? Gq Gr]; subst.
    cbn [poly_push] in E.
    assert (q = 0) as ->.
    { apply Hinv; [exact Gq|].
      assert (g <> []) as N by (destruct g; discriminate).
      destruct (exists_last N) as [p [x Ex]]. rewrite Ex, last_last.
      rewrite Ex, map_app in E. cbn [map] in E.
      assert (length p = n) as Lp by (rewrite Ex, app_length in Hg; cbn [length] in Hg; lia).
      rewrite poly_add_app in E by (rewrite map_length; lia).
      unfold zeros in E. replace (S n) with (n + 1)%nat in E by lia. rewrite repeat_app in E.
      apply app_inj_len in E; [|rewrite poly_add_length, repeat_length; [lia|rewrite map_length; lia]].
      destruct E as [_ E]. cbn in E. injection E as E. exact E. }
    rewrite map_mul_0, Hg in E.
    replace (S n) with (length (r ++ [0])) in E at 1 by (rewrite app_length; cbn [length]; lia).
    rewrite poly_add_zero_r in E. unfold zeros in *. replace (S n) with (n + 1)%nat in E by lia.
    rewrite repeat_app in E. apply app_inj_tail in E. destruct E as [-> _]. reflexivity.
  Qed.

  Lemma fold_push_zero_inj k r : gfs r -> length r = S n ->
    fold_left (poly_push g) (repeat 0 k) r = zeros -> r = zeros.
  Proof using All.
    revert r. induction k as [|k IH]; intros r G L E; [exact E|]. cbn [repeat fold_left] in E.
    apply push_zero_inj; [exact G|exact L|]. apply IH; [|apply push_length, L|exact E].
    apply push_gfs; [exact G|unfold gf; lia].
  Qed.

  (* two code words of the same length: their difference is a code vector *)
  Lemma codeword_diff vs ws : length vs = length ws ->
    codeword g vs -> codeword g ws ->
    fold_left (poly_push g) (poly_add vs ws) zeros = zeros.
  Proof using All.
    intros L A B. unfold codeword, poly_residue in *.
    pose proof (fold_push_add vs ws (poly_one g) (poly_one g) poly_one_length poly_one_length L) as F.
    rewrite A, B, poly_add_self, poly_one_length in F. exact F.
  Qed.

  Lemma push_zero_state : poly_push g zeros 0 = zeros.
  Proof using All.
    unfold zeros. cbn [repeat]. rewrite push_zero_top by apply repeat_length.
    change [0] with (repeat 0 1). rewrite <- repeat_app. replace (n + 1)%nat with (S n) by lia. reflexivity.
  Qed.

  Lemma fold_zero_state k : fold_left (poly_push g) (repeat 0 k) zeros = zeros.
  Proof using All. induction k as [|k IH]; [reflexivity|]. cbn [repeat fold_left]. rewrite push_zero_state. exact IH. Qed.

  (* an error in a single place never cancels *)
  Lemma single_error a b e : gf e ->
    fold_left (poly_push g) (repeat 0 a ++ [e] ++ repeat 0 b) zeros = zeros -> e = 0.
  Proof using All.
    intros Ge E. rewrite !fold_left_app, fold_zero_state in E. cbn [fold_left] in E.
    apply fold_push_zero_inj in E.
    - unfold zeros in E. cbn [repeat] in E. rewrite push_zero_top in E by apply repeat_length.
      change (0 :: repeat 0 n) with (repeat 0 (S n)) in E. replace (S n) with (n + 1)%nat in E by lia.
      rewrite repeat_app in E. apply app_inj_tail in E. apply E.
    - apply push_gfs; [|exact Ge]. apply Forall_forall. intros x Hx. apply repeat_spec in Hx.
      subst. unfold gf; lia.
    - apply push_length, zeros_length.
  Qed.

  (* two errors at distance k: decided by the image of the first under k shifts *)
  Lemma double_error a k b d e : gf d -> gf e ->
    fold_left (poly_push g) (repeat 0 a ++ [d] ++ repeat 0 k ++ [e] ++ repeat 0 b) zeros = zeros ->
    fold_left (poly_push g) (repeat 0 k ++ [e]) (repeat 0 n ++ [d]) = zeros.
  Proof using All.
    intros Gd Ge E. rewrite fold_left_app, fold_zero_state in E. cbn [app fold_left] in E.
    unfold zeros in E at 1. cbn [repeat] in E. rewrite push_zero_top in E by apply repeat_length.
    rewrite fold_left_app in E. rewrite fold_left_app. cbn [fold_left] in E |- *.
    apply fold_push_zero_inj in E; [exact E| |].
    - apply push_gfs; [|exact Ge]. apply fold_push_gfs.
      + apply Forall_forall. intros x Hx. apply repeat_spec in Hx. subst. unfold gf; lia.
      + apply Forall_app. split; [|constructor; [exact Gd|constructor]].
        apply Forall_forall. intros x Hx. apply repeat_spec in Hx. subst. unfold gf; lia.
    - apply push_length, fold_push_length. rewrite app_length, repeat_length. cbn [length]. lia.
  Qed.
End Code.
