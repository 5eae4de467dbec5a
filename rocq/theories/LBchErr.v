(* Error detection of the checksum codes: up to four substitutions *)
From Coq Require Import ZifyBool ZifyNat.
From Verif Require Import Py LBase SBase58 SBits SBch LBase58 LBits LBch.
Open Scope list_scope.
Open Scope Z_scope.
Ltac Zify.zify_post_hook ::= idtac.

(** * A set of numbers *)
Inductive trie := Leaf | Node (here : bool) (l r : trie).

Fixpoint tmem (p : positive) (t : trie) : bool :=
  match t with
  | Leaf => false
  | Node h l r => match p with xH => h | xO p => tmem p l | xI p => tmem p r end
  end.

Fixpoint tadd (p : positive) (t : trie) : trie :=
  match p with
  | xH => match t with Leaf => Node true Leaf Leaf | Node _ l r => Node true l r end
  | xO p => match t with Leaf => Node false (tadd p Leaf) Leaf | Node h l r => Node h (tadd p l) r end
  | xI p => match t with Leaf => Node false Leaf (tadd p Leaf) | Node h l r => Node h l (tadd p r) end
  end.

Lemma tmem_add p t : tmem p (tadd p t) = true.
Proof.
  revert t. induction p as [p IH|p IH|]; intros [|h l r]; cbn [tadd tmem]; try apply IH; reflexivity.
Qed.

Lemma tmem_add_mono p q t : tmem q t = true -> tmem q (tadd p t) = true.
Proof.
  revert q t. induction p as [p IH|p IH|]; intros q [|h l r] E; destruct q; cbn [tmem] in E; try discriminate;
    cbn [tadd tmem]; try apply IH; try exact E; reflexivity.
Qed.

Definition key (x : Z) : positive := match x with Zpos p => p | _ => xH end.
Definition zset (l : list Z) (t : trie) : trie := fold_left (fun t x => tadd (key x) t) l t.

Lemma zset_mono l p t : tmem p t = true -> tmem p (zset l t) = true.
Proof.
  revert t. induction l as [|x l IH]; intros t Ht; [exact Ht|]. cbn [zset fold_left]. apply IH.
  apply tmem_add_mono, Ht.
Qed.

Lemma zset_In l x t : In x l -> tmem (key x) (zset l t) = true.
Proof.
  revert t. induction l as [|y l IH]; intros t I; [destruct I|]; destruct I as [->|Hx].
  - cbn [zset fold_left]. apply zset_mono, tmem_add.
  - cbn [zset fold_left]. apply IH, Hx.
Qed.

(** * Iterates *)
Fixpoint orbit (f : Z -> Z) (k : nat) (x : Z) : list Z :=   (* f x, f (f x), ... : k of them *)
  match k with
  | O => []
  | S k => let y := f x in y :: orbit f k y
  end.

Lemma orbit_nth f k x i : (i < k)%nat -> nth i (orbit f k x) 0 = Nat.iter (S i) f x.
Proof.
  revert x i. induction k as [|k IH]; intros x i Hi; [lia|]. cbn [orbit].
  destruct i as [|i]; [reflexivity|]. cbn [nth]. rewrite IH by lia.
  clear. change (Nat.iter (S i) f (f x) = f (Nat.iter (S i) f x)).
  induction i as [|i IH]; [reflexivity|]. change (f (Nat.iter (S i) f (f x)) = f (Nat.iter (S (S i)) f x)).
  rewrite IH. reflexivity.
Qed.

Lemma orbit_length f k x : length (orbit f k x) = k.
Proof. revert x. induction k as [|k IH]; intros x; cbn [orbit length]; [reflexivity|]. rewrite IH. reflexivity. Qed.

Lemma orbit_In f k x i : (1 <= i <= k)%nat -> In (Nat.iter i f x) (orbit f k x).
Proof.
  intros Hi. destruct i as [|i]; [lia|]. rewrite <- (orbit_nth f k x i) by lia. apply nth_In.
  rewrite orbit_length. lia.
Qed.

(* the numbers  e x^k + d  for 1 <= k <= K, e in the field, d <> 0 in the field *)
Definition right_side (f : Z -> Z) (K : nat) : trie :=
  fold_left (fun t e =>
    fold_left (fun t y => zset (map (Z.lxor y) (tl all32)) t) (orbit f K e) t) all32 Leaf.

(* x^j (c x^m + 1) for 1 <= m, 1 <= j, m + j <= K *)
Fixpoint left_ok (f : Z -> Z) (T : trie) (row : list Z) : bool :=
  match row with
  | [] => true
  | y :: t => forallb (fun z => negb (tmem (key z) T)) (orbit f (length t) (Z.lxor y 1)) && left_ok f T t
  end.

Definition no_relation (f : Z -> Z) (K : nat) : bool :=
  let T := right_side f K in
  forallb (fun c => left_ok f T (orbit f K c)) all32.

Lemma fold_zset_mono (F : Z -> list Z) l p t : tmem p t = true ->
  tmem p (fold_left (fun t y => zset (F y) t) l t) = true.
Proof.
  revert t. induction l as [|y l IH]; intros t Ht; [exact Ht|]. cbn [fold_left]. apply IH, zset_mono, Ht.
Qed.

Lemma fold_zset_In (F : Z -> list Z) l x y t : In y l -> In x (F y) ->
  tmem (key x) (fold_left (fun t y => zset (F y) t) l t) = true.
Proof.
  revert t. induction l as [|z l IH]; intros t I Hx; [destruct I|]; destruct I as [->|Hy].
  - cbn [fold_left]. apply fold_zset_mono, zset_In, Hx.
  - cbn [fold_left]. apply IH; assumption.
Qed.

Lemma right_side_In f K e k d : gf e -> gf d -> d <> 0 -> (1 <= k <= K)%nat ->
  tmem (key (Z.lxor (Nat.iter k f e) d)) (right_side f K) = true.
Proof.
  intros Ge Gd Nd Hk. unfold right_side.
  assert (In d (tl all32)) as Hd.
  { apply all32_In in Gd. change all32 with (0 :: tl all32) in Gd. destruct Gd as [E|Hd]; [congruence|exact Hd]. }
  generalize Leaf. apply all32_In in Ge. revert Ge. generalize all32 at 1 3. intros l.
  induction l as [|a l IH]; intros I t; [destruct I|]. cbn [fold_left].
  destruct I as [->|I]; [|apply IH, I].
  assert (forall l p t, tmem p t = true ->
    tmem p (fold_left (fun t e => fold_left (fun t y => zset (map (Z.lxor y) (tl all32)) t) (orbit f K e) t) l t) = true)
    as M.
  { clear. induction l as [|x l IH]; intros p t Ht; [exact Ht|]. cbn [fold_left]. apply IH.
    apply fold_zset_mono, Ht. }
  apply M. apply (fold_zset_In (fun y => map (Z.lxor y) (tl all32)) _ _ (Nat.iter k f e)).
  - apply orbit_In, Hk.
  - apply in_map, Hd.
Qed.

Lemma iter_add {A} (f : A -> A) a b x : Nat.iter (a + b) f x = Nat.iter a f (Nat.iter b f x).
Proof. induction a as [|a IH]; [reflexivity|]. cbn [Nat.add Nat.iter nat_rect]. apply f_equal, IH. Qed.

Lemma left_ok_spec f T k x m j : left_ok f T (orbit f k x) = true ->
  (1 <= m)%nat -> (1 <= j)%nat -> (m + j <= k)%nat ->
  tmem (key (Nat.iter j f (Z.lxor (Nat.iter m f x) 1))) T = false.
Proof.
  revert x m. induction k as [|k IH]; intros x m E Hm Hj Hk; [lia|]. cbn [orbit left_ok] in E.
  rewrite orbit_length in E. apply andb_prop in E. destruct E as [E1 E2].
  destruct (Nat.eq_dec m 1) as [->|N].
  - rewrite forallb_forall in E1.
    specialize (E1 (Nat.iter j f (Z.lxor (f x) 1))). apply negb_true_iff.
    apply E1. apply orbit_In. lia.
  - specialize (IH (f x) (m - 1)%nat E2 ltac:(lia) Hj ltac:(lia)).
    replace m with ((m - 1) + 1)%nat by lia. rewrite iter_add. exact IH.
Qed.

Lemma no_relation_spec f K : no_relation f K = true ->
  forall c e d m j k, gf c -> gf e -> gf d -> d <> 0 ->
  (1 <= m)%nat -> (1 <= j)%nat -> (m + j <= K)%nat -> (1 <= k <= K)%nat ->
  Nat.iter j f (Z.lxor (Nat.iter m f c) 1) <> Z.lxor (Nat.iter k f e) d.
Proof.
  intros E c e d m j k Gc Ge Gd Nd Hm Hj Hmj Hk Eq. unfold no_relation in E.
  rewrite forallb_forall in E. specialize (E c (all32_In c Gc)).
  apply left_ok_spec with (m := m) (j := j) in E; try assumption.
  rewrite Eq in E. rewrite right_side_In in E by assumption. discriminate.
Qed.

(** * Field facts used for scaling *)

Lemma sweep2 (P : Z -> Z -> bool) : forallb (fun a => forallb (P a) all32) all32 = true ->
  forall a b, gf a -> gf b -> P a b = true.
Proof.
  intros F a b Ga Gb. pose proof (sweep32 _ F a Ga) as F'. cbv beta in F'.
  exact (sweep32 (P a) F' b Gb).
Qed.

Lemma gf_x_add a b : gf a -> gf b -> gf_x (gf_add a b) = gf_add (gf_x a) (gf_x b).
Proof.
  intros Ga Gb. apply Z.eqb_eq.
  apply (sweep2 (fun a b => gf_x (gf_add a b) =? gf_add (gf_x a) (gf_x b)));
    [vm_compute; reflexivity|exact Ga|exact Gb].
Qed.

Lemma gf_x_gf a : gf a -> gf (gf_x a).
Proof.
  intros Ga. assert ((0 <=? gf_x a) && (gf_x a <? 32) = true) as B.
  { apply (sweep32 (fun a => (0 <=? gf_x a) && (gf_x a <? 32))); [vm_compute; reflexivity|exact Ga]. }
  unfold gf. lia.
Qed.

Lemma iter_x_gf i a : gf a -> gf (Nat.iter i gf_x a).
Proof. intros Ga. induction i as [|i IH]; [exact Ga|]. apply (gf_x_gf _ IH). Qed.

Lemma iter_x_add i a b : gf a -> gf b ->
  Nat.iter i gf_x (gf_add a b) = gf_add (Nat.iter i gf_x a) (Nat.iter i gf_x b).
Proof.
  intros Ga Gb. induction i as [|i IH]; [reflexivity|].
  change (gf_x (Nat.iter i gf_x (gf_add a b)) = gf_add (gf_x (Nat.iter i gf_x a)) (gf_x (Nat.iter i gf_x b))).
  rewrite IH. apply gf_x_add; apply iter_x_gf; assumption.
Qed.

Lemma gf_mul_add_r k a b : gf a -> gf b -> gf_mul k (gf_add a b) = gf_add (gf_mul k a) (gf_mul k b).
Proof.
  intros Ga Gb. unfold gf_mul. unfold gf_add at 4. rewrite <- fold_xor_map. f_equal. apply map_ext. intros i.
  destruct (Z.testbit k (Z.of_nat i)); [apply iter_x_add; assumption|reflexivity].
Qed.

Lemma gf_mul_gf a b : gf b -> gf (gf_mul a b).
Proof.
  intros Gb. unfold gf_mul. generalize (seq 0 5). intros l. induction l as [|i l IH].
  - cbn. unfold gf; lia.
  - cbn [map fold_right]. apply gf_add_gf; [|exact IH].
    destruct (Z.testbit a (Z.of_nat i)); [apply iter_x_gf, Gb|unfold gf; lia].
Qed.

Lemma gf_mul_0_r a : gf_mul a 0 = 0.
Proof.
  unfold gf_mul. generalize (seq 0 5). intros l. induction l as [|i l IH]; [reflexivity|].
  cbn [map fold_right]. rewrite IH.
  replace (Nat.iter i gf_x 0) with 0 by (clear; induction i as [|i IH]; [reflexivity|];
    change (0 = gf_x (Nat.iter i gf_x 0)); rewrite <- IH; reflexivity).
  destruct (Z.testbit a (Z.of_nat i)); reflexivity.
Qed.

Definition gf_inv (a : Z) : Z :=
  match List.find (fun b => gf_mul b a =? 1) all32 with Some b => b | None => 0 end.

Lemma gf_inv_gf a : gf (gf_inv a).
Proof.
  unfold gf_inv. destruct (List.find _ all32) as [b|] eqn:E; [|unfold gf; lia].
  apply List.find_some in E. destruct E as [I _]. apply in_map_iff in I. destruct I as [n [<- I]].
  apply in_seq in I. unfold gf; lia.
Qed.

Lemma gf_inv_mul a : gf a -> a <> 0 -> gf_mul (gf_inv a) a = 1.
Proof.
  intros Ga N. assert ((a =? 0) || (gf_mul (gf_inv a) a =? 1) = true) as B.
  { apply (sweep32 (fun a => (a =? 0) || (gf_mul (gf_inv a) a =? 1))); [vm_compute; reflexivity|exact Ga]. }
  lia.
Qed.

Lemma gf_mul_nonzero a b : gf a -> gf b -> a <> 0 -> b <> 0 -> gf_mul a b <> 0.
Proof.
  intros Ga Gb Na Nb. assert ((a =? 0) || (b =? 0) || negb (gf_mul a b =? 0) = true) as B.
  { apply (sweep2 (fun a b => (a =? 0) || (b =? 0) || negb (gf_mul a b =? 0)));
    [vm_compute; reflexivity|exact Ga|exact Gb]. }
  lia.
Qed.

Definition weight (v : list Z) : nat := length (filter (fun e => negb (e =? 0)) v).

Lemma weight_0 v : weight v = 0%nat -> v = repeat 0 (length v).
Proof.
  induction v as [|e v IH]; [reflexivity|]. unfold weight. cbn [filter length repeat].
  destruct (Z.eqb_spec e 0) as [->|N]; cbn [negb]; [|discriminate]. intros W. f_equal. apply IH, W.
Qed.

Lemma weight_split v : weight v <> 0%nat ->
  exists a e v', v = repeat 0 a ++ e :: v' /\ e <> 0 /\ weight v = S (weight v').
Proof.
  induction v as [|e v IH]; intros W; [contradiction W; reflexivity|].
  destruct (Z.eq_dec e 0) as [->|N].
  - destruct IH as [a [d [v' [-> [Nd Wd]]]]]; [exact W|]. exists (S a), d, v'.
    split; [reflexivity|]. split; [exact Nd|exact Wd].
  - exists O, e, v. split; [reflexivity|]. split; [exact N|]. unfold weight. cbn [filter].
    destruct (Z.eqb_spec e 0); [contradiction|reflexivity].
Qed.

Lemma mul_closed_of g : gfs g -> forall q, gf q -> gfs (map (gf_mul q) g).
Proof.
  intros Gg q _. apply Forall_forall. intros x Hx. apply in_map_iff in Hx. destruct Hx as [y [<- Hy]].
  apply gf_mul_gf. unfold gfs in Gg. rewrite Forall_forall in Gg. apply Gg, Hy.
Qed.

Lemma gfs_repeat0 k : gfs (repeat 0 k).
Proof. apply Forall_forall. intros x Hx. apply repeat_spec in Hx. subst. unfold gf; lia. Qed.

Section Errors.
  Context (g : list Z) (n : nat) (f : Z -> Z) (K : nat).
  Hypothesis Hg : length g = S n.
  Hypothesis Gg : gfs g.
  Hypothesis Hinv : forall q, gf q -> gf_mul q (last g 0) = 0 -> q = 0.
  Hypothesis Hassoc : forall k q, gf k -> gf q -> map (gf_mul (gf_mul k q)) g = map (gf_mul k) (map (gf_mul q) g).
  Hypothesis Hf : forall r, gfs r -> length r = S n -> f (be_num 32 r) = be_num 32 (poly_push g r 0).
  Hypothesis Hrel : no_relation f K = true.

  Lemma mul_closed q : gf q -> gfs (map (gf_mul q) g).
  Proof using All.
    intros _. apply Forall_forall. intros x Hx. apply in_map_iff in Hx. destruct Hx as [y [<- Hy]].
    apply gf_mul_gf. unfold gfs in Gg. rewrite Forall_forall in Gg. apply Gg, Hy.
  Qed.

  Let lin v := fold_left (poly_push g) v (zeros n).
  (* e x^k *)
  Definition mono (k : nat) (e : Z) : list Z := fold_left (poly_push g) (repeat 0 k) (repeat 0 n ++ [e]).


  Lemma gfs_unit e : gf e -> gfs (repeat 0 n ++ [e]).
  Proof. intros Ge. apply Forall_app. split; [apply gfs_repeat0|]. constructor; [exact Ge|constructor]. Qed.

  Lemma unit_length (e : Z) : length (repeat 0 n ++ [e]) = S n.
  Proof. rewrite app_length, repeat_length. cbn [length]. lia. Qed.

  Lemma mono_length k e : length (mono k e) = S n.
  Proof using All. apply (fold_push_length g n Hg mul_closed Hinv), unit_length. Qed.

  Lemma mono_gfs k e : gf e -> gfs (mono k e).
  Proof using All.
    intros Ge. apply (fold_push_gfs g n Hg mul_closed Hinv); [apply gfs_repeat0|apply gfs_unit, Ge].
  Qed.

  Lemma lin_zeros k : lin (repeat 0 k) = zeros n.
  Proof using All. exact (fold_zero_state g n Hg mul_closed Hinv k). Qed.

  Lemma lin_split a e v : lin (repeat 0 a ++ e :: v) = poly_add (mono (length v) e) (lin v).
  Proof using All.
    unfold lin. rewrite fold_left_app. fold (lin (repeat 0 a)). rewrite lin_zeros. cbn [fold_left].
    unfold zeros at 1. cbn [repeat]. rewrite (push_zero_top g n Hg mul_closed Hinv) by apply repeat_length.
    unfold mono. rewrite <- (fold_push_add g n Hg mul_closed Hinv) by (rewrite ?unit_length, ?zeros_length, ?repeat_length; reflexivity).
    rewrite (poly_add_comm (repeat 0 (length v)) v), poly_add_zero_r.
    unfold zeros. rewrite <- (unit_length e). rewrite poly_add_zero_r. reflexivity.
  Qed.

  Definition shift (k : nat) (r : list Z) : list Z := fold_left (poly_push g) (repeat 0 k) r.

  Lemma shift_length k r : length r = S n -> length (shift k r) = S n.
  Proof using All. apply (fold_push_length g n Hg mul_closed Hinv). Qed.
  Lemma shift_gfs k r : gfs r -> gfs (shift k r).
  Proof using All. apply (fold_push_gfs g n Hg mul_closed Hinv); apply gfs_repeat0. Qed.
  Lemma shift_add2 k r s : length r = S n -> length s = S n ->
    shift k (poly_add r s) = poly_add (shift k r) (shift k s).
  Proof using All.
    intros Lr Ls. unfold shift. rewrite <- (fold_push_add g n Hg mul_closed Hinv) by (try assumption; reflexivity).
    rewrite poly_add_self, repeat_length. reflexivity.
  Qed.
  Lemma shift_mono k j e : shift k (mono j e) = mono (j + k) e.
  Proof. unfold shift, mono. rewrite <- fold_left_app, <- repeat_app. reflexivity. Qed.
  Lemma shift_inj k r : gfs r -> length r = S n -> shift k r = zeros n -> r = zeros n.
  Proof using All. apply (fold_push_zero_inj g n Hg mul_closed Hinv). Qed.

  Definition scale (k : Z) (r : list Z) := map (gf_mul k) r.

  Lemma scale_add k a b : gfs a -> gfs b -> scale k (poly_add a b) = poly_add (scale k a) (scale k b).
  Proof.
    revert b. induction a as [|x a IH]; intros [|y b] Ga Gb; try reflexivity.
    unfold gfs in *. inversion Ga; inversion Gb; subst. rewrite poly_add_cons. unfold scale in *. cbn [map].
    rewrite poly_add_cons, <- IH by assumption. rewrite gf_mul_add_r by assumption. reflexivity.
  Qed.

  Lemma scale_push k r : gf k -> gfs r -> scale k (poly_push g r 0) = poly_push g (scale k r) 0.
  Proof using All.
    intros Gk Gr. destruct r as [|q r]; [reflexivity|]. unfold gfs in Gr. inversion Gr; subst. cbn [poly_push].
    rewrite scale_add; [| |apply mul_closed; assumption].
    - unfold scale. cbn [map]. cbn [poly_push]. rewrite map_app. cbn [map]. rewrite gf_mul_0_r. f_equal.
      symmetry. apply Hassoc; assumption.
    - apply Forall_app. split; [assumption|]. constructor; [unfold gf; lia|constructor].
  Qed.

  Lemma scale_shift c k r : gf c -> gfs r -> scale c (shift k r) = shift k (scale c r).
  Proof using All.
    intros Gc. revert r. induction k as [|k IH]; intros r Gr; [reflexivity|]. unfold shift. cbn [repeat fold_left].
    fold (shift k (poly_push g r 0)). rewrite IH by (apply (push_gfs g n Hg mul_closed Hinv); [exact Gr|unfold gf; lia]).
    rewrite scale_push by assumption. reflexivity.
  Qed.

  Lemma scale_repeat0 c k : scale c (repeat 0 k) = repeat 0 k.
  Proof. unfold scale. induction k as [|k IH]; [reflexivity|]. cbn [repeat map]. rewrite gf_mul_0_r, IH. reflexivity. Qed.

  Lemma scale_mono c k e : gf c -> gf e -> scale c (mono k e) = mono k (gf_mul c e).
  Proof using All.
    intros Gc Ge. unfold mono. fold (shift k (repeat 0 n ++ [e])). rewrite scale_shift by (try assumption; apply gfs_unit, Ge).
    unfold scale at 1. rewrite map_app. fold (scale c (repeat 0 n)). rewrite scale_repeat0. reflexivity.
  Qed.

  (* packed *)
  Lemma pack_shift k r : gfs r -> length r = S n -> be_num 32 (shift k r) = Nat.iter k f (be_num 32 r).
  Proof using All.
    intros G L. induction k as [|k IH]; [reflexivity|].
    replace (S k) with (k + 1)%nat at 1 by lia. unfold shift. rewrite repeat_app, fold_left_app.
    cbn [repeat fold_left]. fold (shift k r). rewrite <- Hf by (auto using shift_gfs, shift_length). rewrite IH.
    reflexivity.
  Qed.

  Lemma pack_unit e : be_num 32 (repeat 0 n ++ [e]) = e.
  Proof. rewrite be_num_zeros. reflexivity. Qed.

  Lemma pack_mono k e : gf e -> be_num 32 (mono k e) = Nat.iter k f e.
  Proof using All.
    intros Ge. unfold mono. fold (shift k (repeat 0 n ++ [e])).
    rewrite pack_shift by (try apply gfs_unit; try apply unit_length; assumption). rewrite pack_unit. reflexivity.
  Qed.

  Lemma add_len a b : length a = S n -> length b = S n -> length (poly_add a b) = S n.
  Proof. intros La Lb. rewrite poly_add_length; congruence. Qed.

  (* the finite check, on vectors *)
  Lemma relation_impossible c a e d m j k : gf c -> gf a -> a <> 0 -> gf e -> gf d -> d <> 0 ->
    (1 <= m)%nat -> (1 <= j)%nat -> (m + j <= K)%nat -> (1 <= k <= K)%nat ->
    poly_add (mono (m + j) c) (mono j a) <> poly_add (mono k e) (mono 0 d).
  Proof using All.
    intros Gc Ga Na Ge Gd Nd Hm Hj Hmj Hk E.
    set (i := gf_inv a). pose proof (gf_inv_gf a) as Gi. fold i in Gi.
    assert (i <> 0) as Ni. { intros Z. pose proof (gf_inv_mul a Ga Na) as M. fold i in M. rewrite Z in M. discriminate. }
    apply (f_equal (scale i)) in E. rewrite !scale_add in E by (apply mono_gfs; assumption).
    rewrite !scale_mono in E by assumption. unfold i in E at 2. rewrite gf_inv_mul in E by assumption.
    assert (gf 1) as G1 by (unfold gf; lia).
    rewrite <- shift_mono in E. rewrite <- (shift_mono j 0 1) in E at 1. cbn [Nat.add] in E.
    rewrite <- shift_add2 in E by apply mono_length.
    apply (f_equal (be_num 32)) in E.
    rewrite pack_shift, !pack_add, !pack_mono in E;
      try (apply poly_add_gfs); try (apply mono_gfs); try (rewrite poly_add_length); rewrite ?mono_length; try reflexivity;
      try assumption; try (apply gf_mul_gf; assumption).
    cbn [Nat.iter nat_rect] in E.
    revert E. apply (no_relation_spec f K Hrel); try assumption; try (apply gf_mul_gf; assumption).
    apply gf_mul_nonzero; assumption.
  Qed.

  Lemma mono_zero k : mono k 0 = zeros n.
  Proof using All.
    unfold mono. replace (repeat 0 n ++ [0]) with (zeros n).
    - exact (fold_zero_state g n Hg mul_closed Hinv k).
    - unfold zeros. change [0] with (repeat 0 1). rewrite <- repeat_app. f_equal. lia.
  Qed.

  Lemma add_zeros_r r : length r = S n -> poly_add r (zeros n) = r.
  Proof. intros L. unfold zeros. rewrite <- L. apply poly_add_zero_r. Qed.

  Lemma move_over a b : length a = S n -> length b = S n -> poly_add a b = zeros n -> a = b.
  Proof. intros La Lb E. apply poly_add_zero_eq; [congruence|]. rewrite La. exact E. Qed.

  Lemma no_four c a e d m j k t : gf c -> gf a -> a <> 0 -> gf e -> gf d -> d <> 0 ->
    (1 <= m)%nat -> (1 <= j)%nat -> (m + j <= K)%nat -> (1 <= k <= K)%nat ->
    poly_add (mono (m + j + t) c) (poly_add (mono (j + t) a) (poly_add (mono (k + t) e) (mono t d))) <> zeros n.
  Proof using All.
    intros Gc Ga Na Ge Gd Nd Hm Hj Hmj Hk E.
    rewrite <- (shift_mono t (m + j)), <- (shift_mono t j), <- (shift_mono t k) in E.
    replace (mono t d) with (shift t (mono 0 d)) in E by (rewrite shift_mono; reflexivity).
    rewrite <- !shift_add2 in E by (repeat first [apply add_len | apply mono_length]).
    apply shift_inj in E.
    - rewrite poly_add_assoc in E. apply move_over in E; [|rewrite poly_add_length; rewrite ?mono_length; reflexivity..].
      revert E. apply relation_impossible; assumption.
    - repeat apply poly_add_gfs; apply mono_gfs; assumption.
    - repeat first [apply add_len | apply mono_length].
  Qed.

  (* no nonzero vector of weight at most four and length at most K *)
  Lemma few_errors v : gfs v -> (length v <= K)%nat -> (weight v <= 4)%nat ->
    lin v = zeros n -> v = repeat 0 (length v).
  Proof using All.
    intros G L W E. apply weight_0. destruct (Nat.eq_dec (weight v) 0) as [|N]; [assumption|exfalso].
    assert (gf 0) as G0 by (unfold gf; lia).
    destruct (weight_split v N) as [a1 [e1 [v1 [E1 [N1 W1]]]]]. subst v. rewrite W1 in W.
    unfold gfs in G. apply Forall_app in G. destruct G as [_ G]. inversion G as [|? ? Ge1 Gv1]; subst. clear G.
    rewrite app_length in L. cbn [length] in L. rewrite lin_split in E.
    destruct (Nat.eq_dec (weight v1) 0) as [Z1|P1].
    { apply weight_0 in Z1. rewrite Z1, lin_zeros, repeat_length in E.
      rewrite add_zeros_r in E by apply mono_length.
      replace (length v1) with (0 + length v1)%nat in E by lia. rewrite <- shift_mono in E.
      apply shift_inj in E; [|apply mono_gfs; assumption|apply mono_length].
      apply (f_equal (be_num 32)) in E. rewrite pack_mono in E by assumption.
      unfold zeros in E. rewrite <- (app_nil_r (repeat 0 (S n))), be_num_zeros in E. apply N1. exact E. }
    destruct (weight_split v1 P1) as [a2 [e2 [v2 [E2 [N2 W2]]]]]. subst v1. rewrite W2 in W.
    apply Forall_app in Gv1. destruct Gv1 as [_ G]. inversion G as [|? ? Ge2 Gv2]; subst. clear G.
    rewrite !app_length in L, E. cbn [length] in L, E. rewrite repeat_length in E. rewrite lin_split in E.
    rewrite ?repeat_length in L.
    destruct (Nat.eq_dec (weight v2) 0) as [Z2|P2].
    { apply weight_0 in Z2. rewrite Z2, lin_zeros in E. rewrite repeat_length in E.
      rewrite add_zeros_r in E by apply mono_length.
      apply (no_four 0 e1 0 e2 1 (a2 + 1) 1 (length v2)); try assumption; try lia.
      rewrite !mono_zero. rewrite (poly_add_comm (zeros n) (mono _ e2)), add_zeros_r by apply mono_length.
      rewrite poly_add_comm, add_zeros_r by (rewrite poly_add_length; rewrite ?mono_length; reflexivity).
      rewrite <- E. f_equal. f_equal. lia. }
    destruct (weight_split v2 P2) as [a3 [e3 [v3 [E3 [N3 W3]]]]]. subst v2. rewrite W3 in W.
    apply Forall_app in Gv2. destruct Gv2 as [_ G]. inversion G as [|? ? Ge3 Gv3]; subst. clear G.
    rewrite !app_length in L, E. cbn [length] in L, E. rewrite repeat_length in E. rewrite lin_split in E.
    rewrite ?repeat_length in L.
    destruct (Nat.eq_dec (weight v3) 0) as [Z3|P3].
    { apply weight_0 in Z3. rewrite Z3, lin_zeros in E. rewrite repeat_length in E.
      rewrite add_zeros_r in E by apply mono_length.
      apply (no_four e1 e2 0 e3 (a2 + 1) (a3 + 1) 1 (length v3)); try assumption; try lia.
      rewrite !mono_zero. rewrite (poly_add_comm (zeros n) (mono _ e3)), add_zeros_r by apply mono_length.
      rewrite <- E. f_equal; [f_equal; lia|]. f_equal; f_equal; lia. }
    destruct (weight_split v3 P3) as [a4 [e4 [v4 [E4 [N4 W4]]]]]. subst v3. rewrite W4 in W.
    apply Forall_app in Gv3. destruct Gv3 as [_ G]. inversion G as [|? ? Ge4 Gv4]; subst. clear G.
    rewrite !app_length in L, E. cbn [length] in L, E. rewrite repeat_length in E. rewrite lin_split in E.
    rewrite ?repeat_length in L. assert (weight v4 = 0%nat) as Z4 by lia.
    apply weight_0 in Z4. rewrite Z4, lin_zeros in E. rewrite repeat_length in E.
    rewrite add_zeros_r in E by apply mono_length.
    apply (no_four e1 e2 e3 e4 (a2 + 1) (a3 + 1 + a4 + 1) (a4 + 1) (length v4)); try assumption; try lia.
    rewrite <- E. f_equal; [f_equal; lia|]. f_equal; [f_equal; lia|]. f_equal; f_equal; lia.
  Qed.
End Errors.
