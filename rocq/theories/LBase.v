(* Lemmas about Py.v: the result monad, lists, slices, integer/byte conversion. *)
From Coq Require Import ZifyBool ZifyNat.
From Verif Require Import Py.
Open Scope list_scope.
Open Scope Z_scope.
Ltac Zify.zify_post_hook ::= Z.div_mod_to_equations.

(** * The result monad *)

Lemma bind_Ok {A B} (x : res A) (f : A -> res B) b :
  bind x f = Ok b -> exists a, x = Ok a /\ f a = Ok b.
Proof. destruct x; cbn [bind]; [eauto | discriminate]. Qed.

Lemma Ok_inj {A} (a b : A) : Ok a = Ok b -> a = b.
Proof. congruence. Qed.

Lemma guard_Ok c e : guard c e = Ok tt <-> c = false.
Proof. destruct c; cbn; split; congruence. Qed.

Lemma guard_cases c e : guard c e = if c then Err e else Ok tt.
Proof. reflexivity. Qed.

(* decompose hypotheses of the form  x <- a ;; b = Ok r *)
Ltac inv_bind :=
  repeat match goal with
  | E : bind (guard ?c ?e) _ = Ok _ |- _ =>
      let C := fresh "G" in destruct c eqn:C; cbn [guard bind] in E; [discriminate E|]
  | E : guard ?c ?e = Ok _ |- _ =>
      let C := fresh "G" in destruct c eqn:C; cbn [guard] in E; [discriminate E|]; clear E
  | E : bind ?a _ = Ok _ |- _ =>
      let x := fresh "x" in let E1 := fresh "E" in
      apply bind_Ok in E; destruct E as [x [E1 E]]; cbn beta in E
  | E : Err _ = Ok _ |- _ => discriminate E
  end.

Lemma mapM_Ok_map {A B} (f : A -> res B) (g : A -> B) l :
  (forall a, In a l -> f a = Ok (g a)) -> mapM f l = Ok (map g l).
Proof.
  induction l as [|a l IH]; intros Hf; [reflexivity|]. cbn [mapM map].
  rewrite (Hf a) by (left; reflexivity). cbn [bind].
  rewrite IH by (intros; apply Hf; right; assumption). reflexivity.
Qed.

Lemma mapM_Ok_Forall2 {A B} (f : A -> res B) l r :
  mapM f l = Ok r <-> Forall2 (fun a b => f a = Ok b) l r.
Proof.
  revert r; induction l as [|a l IH]; intros r; cbn [mapM].
  - split; intros E; [injection E as <-; constructor | inversion E; reflexivity].
  - split; intros E.
    + inv_bind. injection E as <-. constructor; [assumption|]. apply IH; assumption.
    + inversion E as [|? b ? bs E1 E2]; subst. rewrite E1. cbn [bind].
      apply IH in E2. rewrite E2. reflexivity.
Qed.

Lemma mapM_app {A B} (f : A -> res B) l1 l2 r1 r2 :
  mapM f l1 = Ok r1 -> mapM f l2 = Ok r2 -> mapM f (l1 ++ l2) = Ok (r1 ++ r2).
Proof. rewrite !mapM_Ok_Forall2. apply Forall2_app. Qed.

Lemma mapM_length {A B} (f : A -> res B) l r : mapM f l = Ok r -> length r = length l.
Proof. rewrite mapM_Ok_Forall2. intros E. induction E; cbn [length]; congruence. Qed.

Lemma mapM_ext {A B} (f g : A -> res B) l :
  (forall a, In a l -> f a = g a) -> mapM f l = mapM g l.
Proof.
  induction l as [|a l IH]; intros E; [reflexivity|]. cbn [mapM].
  rewrite (E a) by (left; reflexivity). rewrite IH by (intros; apply E; right; assumption).
  reflexivity.
Qed.

(** * Lengths and equality *)

Lemma zlen_nonneg {A} (l : list A) : 0 <= zlen l.
Proof. unfold zlen; lia. Qed.

Lemma zlen_app {A} (a b : list A) : zlen (a ++ b) = zlen a + zlen b.
Proof. unfold zlen; rewrite app_length; lia. Qed.

Lemma zlen_cons {A} (x : A) l : zlen (x :: l) = 1 + zlen l.
Proof. unfold zlen; cbn [length]; lia. Qed.

Lemma zlen_nil {A} : zlen (@nil A) = 0.
Proof. reflexivity. Qed.

Lemma zlen_rev {A} (l : list A) : zlen (rev l) = zlen l.
Proof. unfold zlen; rewrite rev_length; reflexivity. Qed.

Lemma zlen_map {A B} (f : A -> B) l : zlen (map f l) = zlen l.
Proof. unfold zlen; rewrite map_length; reflexivity. Qed.

Lemma zlen_zrepeat b n : 0 <= n -> zlen (zrepeat b n) = n.
Proof. unfold zlen, zrepeat; rewrite repeat_length; lia. Qed.

Lemma zlen_0 {A} (l : list A) : zlen l = 0 <-> l = [].
Proof. destruct l; cbn; [split; reflexivity | split; [unfold zlen; cbn; lia | discriminate]]. Qed.

Lemma leqb_refl a : leqb a a = true.
Proof. induction a as [|x a IH]; [reflexivity|]. cbn. rewrite Z.eqb_refl, IH. reflexivity. Qed.

Lemma leqb_eq a b : leqb a b = true <-> a = b.
Proof.
  split; [|intros ->; apply leqb_refl].
  revert b; induction a as [|x a IH]; intros [|y b]; cbn; try discriminate; [reflexivity|].
  intros E. apply andb_prop in E. destruct E as [E1 E2]. f_equal; [lia | auto].
Qed.

Lemma leqb_neq a b : leqb a b = false <-> a <> b.
Proof.
  split.
  - intros E Eq. rewrite (proj2 (leqb_eq a b) Eq) in E. discriminate.
  - intros N. destruct (leqb a b) eqn:E; [|reflexivity]. apply leqb_eq in E. contradiction.
Qed.

Lemma leqb_spec a b : reflect (a = b) (leqb a b).
Proof. destruct (leqb a b) eqn:E; constructor; [apply leqb_eq | apply leqb_neq]; assumption. Qed.

Lemma list_eq_dec_Z (a b : list Z) : {a = b} + {a <> b}.
Proof. destruct (leqb_spec a b); [left|right]; assumption. Defined.

Lemma zmem_In x l : zmem x l = true <-> In x l.
Proof.
  unfold zmem. rewrite existsb_exists. split.
  - intros [y [Hy E]]. apply Z.eqb_eq in E. subst. assumption.
  - intros Hx. exists x. rewrite Z.eqb_refl. auto.
Qed.

Lemma is_bytes_app a b : is_bytes (a ++ b) <-> is_bytes a /\ is_bytes b.
Proof. apply Forall_app. Qed.

Lemma is_bytes_concat l : is_bytes (concat l) <-> Forall is_bytes l.
Proof.
  induction l as [|a l IH]; cbn [concat]; [split; constructor|].
  rewrite is_bytes_app, IH. split; [intros [Ha Hl]; constructor; auto | intros Hl; inversion Hl; auto].
Qed.

Lemma is_bytes_rev a : is_bytes (rev a) <-> is_bytes a.
Proof.
  unfold is_bytes; split; intros Ha; [rewrite <- (rev_involutive a)|];
    apply Forall_rev; assumption.
Qed.

Lemma is_bytes_zrepeat b n : is_byte b -> is_bytes (zrepeat b n).
Proof. intros Hb. apply Forall_forall. intros x Hx. apply repeat_spec in Hx. subst; assumption. Qed.

(* decidable version, for closing concrete goals *)
Definition is_bytesb (l : bytes) : bool := forallb (fun b => (0 <=? b) && (b <? 256)) l.
Lemma is_bytesb_ok l : is_bytesb l = true -> is_bytes l.
Proof.
  unfold is_bytesb, is_bytes. rewrite forallb_forall, Forall_forall.
  intros E x Hx. apply E in Hx. unfold is_byte. lia.
Qed.

(** * Slices *)

Lemma slice_firstn {A} (l : list A) a b :
  0 <= a -> 0 <= b -> slice l a b = firstn (Z.to_nat (b - a)) (skipn (Z.to_nat a) l).
Proof.
  intros Ha Hb. unfold slice, clampi.
  destruct (a <? 0) eqn:Ea; [lia|]. destruct (b <? 0) eqn:Eb; [lia|].
  pose proof (zlen_nonneg l) as Hl.
  destruct (Z.leb_spec a (zlen l)) as [L|L].
  - rewrite (Z.min_l a) by lia.
    destruct (Z.leb_spec b (zlen l)) as [L2|L2].
    + rewrite Z.min_l by lia. reflexivity.
    + rewrite Z.min_r by lia. rewrite !firstn_all2; [reflexivity | | ];
        rewrite skipn_length; unfold zlen in *; lia.
  - rewrite (Z.min_r a) by lia.
    replace (skipn (Z.to_nat (zlen l)) l) with (@nil A)
      by (symmetry; apply skipn_all2; unfold zlen; lia).
    replace (skipn (Z.to_nat a) l) with (@nil A)
      by (symmetry; apply skipn_all2; unfold zlen in *; lia).
    rewrite !firstn_nil. reflexivity.
Qed.

Lemma slice_from_skipn {A} (l : list A) a :
  0 <= a -> slice_from l a = skipn (Z.to_nat a) l.
Proof.
  intros Ha. unfold slice_from, clampi. destruct (a <? 0) eqn:Ea; [lia|].
  destruct (Z.leb_spec a (zlen l)) as [L|L].
  - rewrite Z.min_l by lia. reflexivity.
  - rewrite Z.min_r by lia. rewrite !skipn_all2; [reflexivity | |]; unfold zlen in *; lia.
Qed.

Lemma slice_to_firstn {A} (l : list A) b :
  0 <= b -> slice_to l b = firstn (Z.to_nat b) l.
Proof.
  intros Hb. unfold slice_to, clampi. destruct (b <? 0) eqn:Eb; [lia|].
  destruct (Z.leb_spec b (zlen l)) as [L|L].
  - rewrite Z.min_l by lia. reflexivity.
  - rewrite Z.min_r by lia. rewrite !firstn_all2; [reflexivity | |]; unfold zlen in *; lia.
Qed.

Lemma skipn_app_zlen {A} (a b : list A) n : zlen a = n -> skipn (Z.to_nat n) (a ++ b) = b.
Proof.
  intros <-. unfold zlen. rewrite Nat2Z.id, skipn_app, skipn_all, Nat.sub_diag. reflexivity.
Qed.

Lemma firstn_app_zlen {A} (a b : list A) n : zlen a = n -> firstn (Z.to_nat n) (a ++ b) = a.
Proof.
  intros <-. unfold zlen. rewrite Nat2Z.id, firstn_app, Nat.sub_diag, firstn_all.
  cbn [firstn]. apply app_nil_r.
Qed.

Lemma slice_to_app {A} (a b : list A) n : zlen a = n -> slice_to (a ++ b) n = a.
Proof.
  intros E. pose proof (zlen_nonneg a). rewrite slice_to_firstn by lia.
  apply firstn_app_zlen; assumption.
Qed.

Lemma slice_from_app {A} (a b : list A) n : zlen a = n -> slice_from (a ++ b) n = b.
Proof.
  intros E. pose proof (zlen_nonneg a). rewrite slice_from_skipn by lia.
  apply skipn_app_zlen; assumption.
Qed.

(* the middle of three parts *)
Lemma slice_app {A} (a b c : list A) i j :
  zlen a = i -> zlen b = j - i -> slice (a ++ b ++ c) i j = b.
Proof.
  intros Ei Ej. pose proof (zlen_nonneg a). pose proof (zlen_nonneg b).
  rewrite slice_firstn by lia. rewrite (skipn_app_zlen a (b ++ c) i Ei).
  apply firstn_app_zlen; assumption.
Qed.

Lemma slice_app_l {A} (a c : list A) i j :
  i = 0 -> zlen a = j -> slice (a ++ c) i j = a.
Proof. intros -> Ej. apply (slice_app [] a c); [reflexivity | lia]. Qed.

Lemma slice_app_r {A} (a b : list A) i j :
  zlen a = i -> zlen b = j - i -> slice (a ++ b) i j = b.
Proof. intros Ei Ej. rewrite <- (app_nil_r (a ++ b)), <- app_assoc. apply slice_app; assumption. Qed.

(* reading at an offset that lies inside the second part *)
Lemma slice_skip {A} (a c : list A) i j :
  zlen a <= i -> 0 <= i -> 0 <= j -> slice (a ++ c) i j = slice c (i - zlen a) (Z.max 0 (j - zlen a)).
Proof.
  intros Hi H0 Hj. pose proof (zlen_nonneg a). rewrite !slice_firstn by lia.
  rewrite skipn_app. replace (skipn (Z.to_nat i) a) with (@nil A)
    by (symmetry; apply skipn_all2; unfold zlen in *; lia).
  cbn [app]. replace (Z.to_nat i - length a)%nat with (Z.to_nat (i - zlen a)) by (unfold zlen in *; lia).
  destruct (Z.leb_spec (zlen a) j).
  - f_equal. lia.
  - replace (Z.to_nat (j - i)) with O by lia.
    replace (Z.to_nat (Z.max 0 (j - zlen a) - (i - zlen a))) with O by lia. reflexivity.
Qed.

Lemma slice_from_skip {A} (a c : list A) i :
  zlen a <= i -> slice_from (a ++ c) i = slice_from c (i - zlen a).
Proof.
  intros Hi. pose proof (zlen_nonneg a). rewrite !slice_from_skipn by lia.
  rewrite skipn_app. replace (skipn (Z.to_nat i) a) with (@nil A)
    by (symmetry; apply skipn_all2; unfold zlen in *; lia).
  cbn [app]. f_equal. unfold zlen in *; lia.
Qed.

Lemma slice_full {A} (l : list A) j : zlen l <= j -> slice l 0 j = l.
Proof.
  intros Hj. pose proof (zlen_nonneg l). rewrite slice_firstn by lia. cbn [skipn Z.to_nat].
  apply firstn_all2. unfold zlen in *; lia.
Qed.

Lemma zlen_slice {A} (l : list A) a b :
  0 <= a -> a <= b -> zlen (slice l a b) = Z.max 0 (Z.min b (zlen l) - a).
Proof.
  intros Ha Hb. rewrite slice_firstn by lia. unfold zlen.
  rewrite firstn_length, skipn_length. lia.
Qed.

Lemma zlen_slice_to {A} (l : list A) b : 0 <= b -> zlen (slice_to l b) = Z.min b (zlen l).
Proof.
  intros Hb. rewrite slice_to_firstn by lia. unfold zlen. rewrite firstn_length. lia.
Qed.

Lemma zlen_slice_from {A} (l : list A) a : 0 <= a -> zlen (slice_from l a) = Z.max 0 (zlen l - a).
Proof.
  intros Ha. rewrite slice_from_skipn by lia. unfold zlen. rewrite skipn_length. lia.
Qed.

Lemma slice_from_0 {A} (l : list A) : slice_from l 0 = l.
Proof. rewrite slice_from_skipn by lia. reflexivity. Qed.

Lemma is_bytes_firstn n l : is_bytes l -> is_bytes (firstn n l).
Proof.
  intros Hl. rewrite <- (firstn_skipn n l) in Hl. apply is_bytes_app in Hl. apply Hl.
Qed.
Lemma is_bytes_skipn n l : is_bytes l -> is_bytes (skipn n l).
Proof.
  intros Hl. rewrite <- (firstn_skipn n l) in Hl. apply is_bytes_app in Hl. apply Hl.
Qed.
Lemma is_bytes_slice l a b : is_bytes l -> is_bytes (slice l a b).
Proof. intros Hl. apply is_bytes_firstn, is_bytes_skipn, Hl. Qed.
Lemma is_bytes_slice_to l b : is_bytes l -> is_bytes (slice_to l b).
Proof. apply is_bytes_firstn. Qed.
Lemma is_bytes_slice_from l a : is_bytes l -> is_bytes (slice_from l a).
Proof. apply is_bytes_skipn. Qed.

(** * Indexing *)

Lemma index_nth {A} (l : list A) i a :
  0 <= i -> index l i = Ok a <-> nth_error l (Z.to_nat i) = Some a.
Proof.
  intros Hi. unfold index. destruct (i <? 0) eqn:E; [lia|].
  destruct (Z.leb_spec (zlen l) i) as [L|L].
  - replace ((i <? 0) || true) with true by (rewrite orb_true_r; reflexivity).
    replace (nth_error l (Z.to_nat i)) with (@None A)
      by (symmetry; apply nth_error_None; unfold zlen in L; lia).
    split; discriminate.
  - replace ((i <? 0) || false) with false by lia.
    destruct (nth_error l (Z.to_nat i)); split; congruence.
Qed.

Lemma index_err {A} (l : list A) i : zlen l <= i -> index l i = Err IndexError.
Proof.
  intros Hi. pose proof (zlen_nonneg l). unfold index. destruct (i <? 0) eqn:E; [lia|].
  destruct (Z.leb_spec (zlen l) i); [|lia]. rewrite orb_true_r. reflexivity.
Qed.

Lemma index_ok {A} (l : list A) i : 0 <= i < zlen l -> exists a, index l i = Ok a.
Proof.
  intros Hi. destruct (nth_error l (Z.to_nat i)) as [a|] eqn:E.
  - exists a. apply index_nth; [lia|assumption].
  - apply nth_error_None in E. unfold zlen in Hi. lia.
Qed.

Lemma index_Ok_lt {A} (l : list A) i a : 0 <= i -> index l i = Ok a -> i < zlen l.
Proof.
  intros Hi E. destruct (Z.ltb_spec i (zlen l)); [assumption|].
  rewrite index_err in E by assumption. discriminate.
Qed.

Lemma index_0 {A} (x : A) l : index (x :: l) 0 = Ok x.
Proof. apply index_nth; [lia|reflexivity]. Qed.

Lemma index_app_mid {A} (a : list A) x b i : zlen a = i -> index (a ++ x :: b) i = Ok x.
Proof.
  intros E. pose proof (zlen_nonneg a). apply index_nth; [lia|].
  rewrite nth_error_app2 by (unfold zlen in *; lia).
  replace (Z.to_nat i - length a)%nat with O by (unfold zlen in *; lia). reflexivity.
Qed.

Lemma index_In {A} (l : list A) i a : index l i = Ok a -> In a l.
Proof.
  unfold index. destruct (_ || _); [discriminate|].
  destruct (nth_error _ _) eqn:E; [|discriminate]. intros Eq; injection Eq as <-.
  eapply nth_error_In; eassumption.
Qed.

Lemma index_map {A B} (f : A -> B) l i a : index l i = Ok a -> index (map f l) i = Ok (f a).
Proof.
  unfold index. rewrite zlen_map. destruct (_ || _); [discriminate|].
  destruct (nth_error l _) eqn:E; [|discriminate]. intros Eq; injection Eq as <-.
  rewrite (map_nth_error f _ _ E). reflexivity.
Qed.

Lemma set_nth_length {A} (l : list A) n a : length (set_nth l n a) = length l.
Proof.
  revert n; induction l as [|x l IH]; intros [|n]; cbn [set_nth length]; try reflexivity.
  rewrite IH. reflexivity.
Qed.

Lemma set_nth_eq {A} (l : list A) n a :
  (n < length l)%nat -> set_nth l n a = firstn n l ++ a :: skipn (S n) l.
Proof.
  revert n; induction l as [|x l IH]; intros [|n] Hn; cbn [set_nth firstn skipn length app] in *;
    try lia; [reflexivity|]. rewrite IH by lia. reflexivity.
Qed.

Lemma set_index_Ok {A} (l : list A) i a :
  0 <= i < zlen l -> set_index l i a = Ok (set_nth l (Z.to_nat i) a).
Proof.
  intros Hi. unfold set_index. destruct (i <? 0) eqn:E; [lia|].
  destruct (Z.leb_spec (zlen l) i); [lia|]. replace ((i <? 0) || false) with false by lia. reflexivity.
Qed.

(** * Little-endian numbers *)

Lemma pow256_pos n : 0 <= n -> 0 < 256 ^ n.
Proof. intros; apply Z.pow_pos_nonneg; lia. Qed.

Lemma pow256_S n : 256 ^ Z.of_nat (S n) = 256 * 256 ^ Z.of_nat n.
Proof. rewrite Nat2Z.inj_succ, Z.pow_succ_r by lia. reflexivity. Qed.

Lemma from_le_range l : is_bytes l -> 0 <= from_le l < 256 ^ zlen l.
Proof.
  unfold zlen. induction l as [|b l IH]; intros Hl; [cbn; lia|].
  inversion Hl as [|? ? Hb Hl']; subst. specialize (IH Hl'). unfold is_byte in Hb.
  cbn [from_le length]. rewrite pow256_S. nia.
Qed.

Lemma from_le_app a b : from_le (a ++ b) = from_le a + 256 ^ zlen a * from_le b.
Proof.
  unfold zlen. induction a as [|x a IH]; cbn [app from_le length].
  - cbn. destruct (from_le b); reflexivity.
  - rewrite IH, pow256_S. ring.
Qed.

Lemma to_le_length n x : length (to_le n x) = n.
Proof. revert x; induction n as [|n IH]; intros x; cbn; [|rewrite IH]; reflexivity. Qed.

Lemma zlen_to_le n x : zlen (to_le n x) = Z.of_nat n.
Proof. unfold zlen. rewrite to_le_length. reflexivity. Qed.

Lemma to_le_bytes n x : is_bytes (to_le n x).
Proof.
  revert x; induction n as [|n IH]; intros x; cbn [to_le]; constructor; [|apply IH].
  unfold is_byte. lia.
Qed.

Lemma from_to_le n x : from_le (to_le n x) = x mod 256 ^ Z.of_nat n.
Proof.
  revert x; induction n as [|n IH]; intros x; cbn [to_le from_le].
  - cbn. symmetry. apply Z.mod_1_r.
  - rewrite IH, pow256_S. pose proof (pow256_pos (Z.of_nat n)).
    rewrite Z.rem_mul_r by lia. reflexivity.
Qed.

Lemma to_from_le l : is_bytes l -> to_le (length l) (from_le l) = l.
Proof.
  induction l as [|b l IH]; intros Hl; [reflexivity|].
  inversion Hl as [|? ? Hb Hl']; subst. unfold is_byte in Hb.
  cbn [to_le from_le length].
  replace ((b + 256 * from_le l) mod 256) with b by lia.
  replace ((b + 256 * from_le l) / 256) with (from_le l) by lia.
  rewrite IH by assumption. reflexivity.
Qed.

Lemma from_le_inj a b :
  is_bytes a -> is_bytes b -> length a = length b -> from_le a = from_le b -> a = b.
Proof.
  intros Ha Hb Hl E. rewrite <- (to_from_le a), <- (to_from_le b) by assumption.
  rewrite Hl, E. reflexivity.
Qed.

Lemma from_le_zeros n : from_le (repeat 0 n) = 0.
Proof. induction n as [|n IH]; cbn [repeat from_le]; lia. Qed.

Lemma to_le_small_S n x : 0 <= x < 256 ^ Z.of_nat n -> to_le (S n) x = to_le n x ++ [0].
Proof.
  revert x; induction n as [|n IH]; intros x Hx.
  - cbn in Hx. replace x with 0 by lia. reflexivity.
  - rewrite pow256_S in Hx. change (to_le (S (S n)) x) with (x mod 256 :: to_le (S n) (x / 256)).
    rewrite IH by lia. reflexivity.
Qed.

Lemma to_le_pad n k x :
  0 <= x < 256 ^ Z.of_nat n -> to_le (n + k) x = to_le n x ++ repeat 0 k.
Proof.
  intros Hx. induction k as [|k IH]; [rewrite Nat.add_0_r, app_nil_r; reflexivity|].
  rewrite Nat.add_succ_r, to_le_small_S.
  - rewrite IH, <- app_assoc. f_equal. clear.
    change [0] with (repeat 0 1). rewrite <- repeat_app. f_equal. lia.
  - rewrite Nat2Z.inj_add, Z.pow_add_r by lia. pose proof (pow256_pos (Z.of_nat k)). nia.
Qed.

(* to_bytes, unsigned *)
Lemma to_bytes_le n len :
  0 <= len -> 0 <= n < 256 ^ len -> to_bytes n len false false = Ok (to_le (Z.to_nat len) n).
Proof.
  intros Hl Hn. unfold to_bytes, fits. destruct (len <? 0) eqn:E; [lia|].
  replace ((0 <=? n) && (n <? 256 ^ len)) with true by lia. reflexivity.
Qed.

Lemma to_bytes_Ok n len big l :
  to_bytes n len big false = Ok l ->
  0 <= len /\ 0 <= n < 256 ^ len /\
  l = if big then rev (to_le (Z.to_nat len) n) else to_le (Z.to_nat len) n.
Proof.
  unfold to_bytes, fits. destruct (len <? 0) eqn:E; [discriminate|].
  destruct ((0 <=? n) && (n <? 256 ^ len)) eqn:F; [|discriminate].
  intros Eq; injection Eq as <-. repeat split; lia.
Qed.

Lemma from_bytes_unsigned big l : from_bytes big false l = from_le (if big then rev l else l).
Proof. reflexivity. Qed.

(** * bit_length *)

Lemma bit_length_spec n : 0 < n -> 2 ^ (bit_length n - 1) <= n < 2 ^ bit_length n.
Proof.
  intros Hn. unfold bit_length. destruct (n =? 0) eqn:E; [lia|].
  rewrite Z.abs_eq by lia. pose proof (Z.log2_spec n Hn) as [L U].
  replace (Z.log2 n + 1 - 1) with (Z.log2 n) by lia.
  replace (Z.log2 n + 1) with (Z.succ (Z.log2 n)) by lia. auto.
Qed.

Lemma byte_length_spec n :
  0 < n -> 256 ^ ((bit_length n + 7) / 8 - 1) <= n < 256 ^ ((bit_length n + 7) / 8)
           /\ 1 <= (bit_length n + 7) / 8.
Proof.
  intros Hn. pose proof (bit_length_spec n Hn) as [L U].
  assert (1 <= bit_length n) as B.
  { unfold bit_length. destruct (n =? 0) eqn:E; [lia|]. pose proof (Z.log2_nonneg (Z.abs n)). lia. }
  set (k := (bit_length n + 7) / 8). assert (8 * k - 7 <= bit_length n <= 8 * k) as K by (unfold k; lia).
  clearbody k. change 256 with (2 ^ 8). rewrite <- !Z.pow_mul_r by lia.
  repeat split; [| |lia].
  - eapply Z.le_trans; [|exact L]. apply Z.pow_le_mono_r; lia.
  - eapply Z.lt_le_trans; [exact U|]. apply Z.pow_le_mono_r; lia.
Qed.

(** * Hex *)

Lemma hexdigit_inv d : 0 <= d < 16 -> unhexdigit (hexdigit d) = Some d.
Proof.
  intros Hd. unfold unhexdigit, hexdigit. destruct (d <? 10) eqn:E.
  - replace ((48 <=? 48 + d) && (48 + d <=? 57)) with true by lia. f_equal; lia.
  - replace ((48 <=? 87 + d) && (87 + d <=? 57)) with false by lia.
    replace ((97 <=? 87 + d) && (87 + d <=? 102)) with true by lia. f_equal; lia.
Qed.

Lemma hexdigit_range d : 0 <= d < 16 -> 48 <= hexdigit d <= 57 \/ 97 <= hexdigit d <= 102.
Proof. intros. unfold hexdigit. destruct (d <? 10) eqn:E; lia. Qed.

Lemma hexdigit_not_space d : 0 <= d < 16 -> ascii_space (hexdigit d) = false.
Proof.
  intros. unfold ascii_space, hexdigit. destruct (d <? 10) eqn:E; lia.
Qed.

Lemma fromhex_hex l : is_bytes l -> fromhex (hex l) = Ok l.
Proof.
  induction l as [|b l IH]; intros Hl; [reflexivity|].
  inversion Hl as [|? ? Hb Hl']; subst. unfold is_byte in Hb. cbn [hex fromhex].
  rewrite hexdigit_not_space by lia. rewrite !hexdigit_inv by lia.
  rewrite IH by assumption. cbn [bind]. do 2 f_equal. lia.
Qed.

Lemma zlen_hex l : zlen (hex l) = 2 * zlen l.
Proof. induction l as [|b l IH]; [reflexivity|]. cbn [hex]. rewrite !zlen_cons, IH. lia. Qed.

Lemma hex_app a b : hex (a ++ b) = hex a ++ hex b.
Proof. induction a as [|x a IH]; [reflexivity|]. cbn [hex app]. rewrite IH. reflexivity. Qed.

Lemma hex_inj a b : is_bytes a -> is_bytes b -> hex a = hex b -> a = b.
Proof.
  intros Ha Hb E. apply f_equal with (f := fromhex) in E.
  rewrite !fromhex_hex in E by assumption. congruence.
Qed.

Lemma unhexdigit_range c d : unhexdigit c = Some d -> 0 <= d < 16.
Proof.
  unfold unhexdigit.
  destruct ((48 <=? c) && (c <=? 57)) eqn:E1; [intros E; injection E as <-; lia|].
  destruct ((97 <=? c) && (c <=? 102)) eqn:E2; [intros E; injection E as <-; lia|].
  destruct ((65 <=? c) && (c <=? 70)) eqn:E3; [intros E; injection E as <-; lia|discriminate].
Qed.

Lemma fromhex_bytes s b : fromhex s = Ok b -> is_bytes b.
Proof.
  remember (length s) as n eqn:En. assert (length s <= n)%nat as Hn by lia. clear En.
  revert s b Hn; induction n as [|n IH]; intros s b Hn E.
  - destruct s; [|cbn in Hn; lia]. injection E as <-. constructor.
  - destruct s as [|c t]; [injection E as <-; constructor|].
    cbn [fromhex] in E. cbn [length] in Hn. destruct (ascii_space c).
    + eapply IH; [|eassumption]. lia.
    + destruct t as [|d t']; [discriminate|]. cbn [length] in Hn.
      destruct (unhexdigit c) as [h|] eqn:Ec; [|discriminate].
      destruct (unhexdigit d) as [l|] eqn:Ed; [|discriminate].
      inv_bind. apply Ok_inj in E. subst b. constructor.
      * apply unhexdigit_range in Ec, Ed. unfold is_byte. lia.
      * eapply IH; [|eassumption]. lia.
Qed.

(** * find *)

Lemma is_prefix_spec p l : is_prefix p l = true <-> exists r, l = p ++ r.
Proof.
  revert l; induction p as [|x p IH]; intros l; cbn [is_prefix].
  - split; [exists l; reflexivity | reflexivity].
  - destruct l as [|y l]; [split; [discriminate | intros [r E]; discriminate]|].
    rewrite andb_true_iff, IH. split.
    + intros [E [r ->]]. exists r. cbn. f_equal. lia.
    + intros [r E]. injection E as -> ->. split; [lia | exists r; reflexivity].
Qed.

Lemma find_from_ge p l i : find_from p l i = -1 \/ i <= find_from p l i.
Proof.
  revert i; induction l as [|x l IH]; intros i; cbn [find_from].
  - destruct (is_prefix p []); lia.
  - destruct (is_prefix p (x :: l)); [lia|]. specialize (IH (i + 1)). lia.
Qed.

Lemma find_0 l p : (find l p =? 0) = is_prefix p l.
Proof.
  unfold find. destruct l as [|x l]; cbn [find_from]; destruct (is_prefix p _) eqn:E; try reflexivity.
  pose proof (find_from_ge p l (0 + 1)). lia.
Qed.

Lemma skipn_skipn {A} (a b : nat) (l : list A) : skipn a (skipn b l) = skipn (b + a) l.
Proof.
  revert l; induction b as [|b IH]; intros l; [reflexivity|].
  destruct l as [|x l]; [rewrite !skipn_nil; reflexivity|]. cbn [skipn Nat.add]. apply IH.
Qed.

Lemma app_inj_len {A} (a b c d : list A) : a ++ b = c ++ d -> length a = length c -> a = c /\ b = d.
Proof.
  revert c; induction a as [|x a IH]; intros [|y c] E L; cbn in *; try discriminate; [auto|].
  injection E as -> E. destruct (IH c E) as [-> ->]; [lia|auto].
Qed.

Lemma app_inj_zlen {A} (a b c d : list A) : a ++ b = c ++ d -> zlen a = zlen c -> a = c /\ b = d.
Proof. intros E L. apply app_inj_len; [assumption|unfold zlen in L; lia]. Qed.
