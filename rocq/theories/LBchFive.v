(* Five changed characters in a cashaddr payload of at most 112.  In a relation
   between five places the last one is projected away; what is left of a place is
   scaled so that its first symbol says by how much it is multiplied, and then the
   sums of two places are compared with each other. *)
From Coq Require Import ZifyBool ZifyNat String.
From Verif Require Import Py LBase MNet MUtils MBech32 MCashaddr SNum SNet SBase58 SBits SBch SBech32 SCashaddr
  LNet LUtils LBase58 LBits LBch LBchErr LBchAlg LBech32 LCashaddr LBurst.
Open Scope list_scope.
Open Scope Z_scope.

(** * The projection *)

(* eight symbols to seven: linear, and zero on the last symbol *)
Definition images : list Z :=
   [0; 0; 0; 0; 0; 1073741824; 2147483648; 4294967296; 8589934592; 17179869184; 28991029249; 33285996546;
    24696061956; 7516192776; 15032385552; 10737418272; 21474836544; 1073741952; 2147483904; 4294967808;
    17179870208; 9663678464; 19327356928; 13958651904; 27917303808; 24696094720; 7516258304; 15032516608;
    30065033216; 18254135296; 11812208640; 23624417280; 5372903424; 10745806848; 21491613696; 6476005376;
    12952010752; 25904021504; 27111981056; 29527900160].
Definition proj (x : Z) : Z :=
  fold_right (fun p s => Z.lxor (if Z.testbit x (Z.of_nat (fst p)) then snd p else 0) s) 0 (combine (seq 0 40) images).

Lemma proj_add a b : proj (Z.lxor a b) = Z.lxor (proj a) (proj b).
Proof.
  unfold proj. generalize (combine (seq 0 40) images). intros l.
  induction l as [|[i v] l IH]; [reflexivity|]. cbn [fold_right fst snd].
  rewrite IH, Z.lxor_spec, if_xor. apply xor4.
Qed.
Lemma proj_last d : gf d -> proj d = 0.
Proof. intros G. apply Z.eqb_eq, (sweep32 (fun d => proj d =? 0)); [vm_compute; reflexivity|exact G]. Qed.

(* what a place is divided by *)
Definition psis : list Z :=
   [1; 30; 4; 22; 19; 9; 12; 21; 10; 28; 20; 14; 16; 28; 5; 20; 22; 22; 17; 6; 4; 15; 21; 4; 28; 28; 13; 8; 8;
    13; 15; 30; 7; 8; 12; 24; 19; 2; 1; 4; 25; 23; 13; 29; 25; 21; 7; 19; 12; 18; 18; 15; 29; 7; 5; 20; 3; 24;
    16; 25; 27; 18; 21; 24; 30; 4; 10; 26; 11; 2; 7; 18; 21; 22; 6; 31; 25; 15; 31; 11; 10; 20; 15; 31; 15;
    17; 16; 26; 10; 29; 12; 21; 10; 28; 28; 3; 22; 13; 30; 15; 22; 18; 4; 8; 5; 22; 11; 6; 8; 22; 7].
Definition psi (i : nat) : Z := nth (i - 1) psis 0.

Definition entry (i : nat) (e : Z) : Z := proj (Nat.iter i cstep e).
Definition unit_entry (i : nat) (l : Z) : Z := entry i (gf_mul l (psi i)).

(** * The table of all places *)

Fixpoint table (i : nat) (ps : list Z) (st : list Z) : list (nat * list Z) :=
  match ps with
  | [] => []
  | q :: t => let st := map cstep st in
              (i, map (fun l => proj (nth (Z.to_nat (gf_mul l q)) st 0)) all32) :: table (S i) t st
  end.
Definition rows : list (nat * list Z) := table 1 psis all32.
Definition row (i : nat) : nat * list Z := (i, map (unit_entry i) all32).

Lemma nth_all32 e : gf e -> nth (Z.to_nat e) all32 0 = e.
Proof. intros G. apply Z.eqb_eq, (sweep32 (fun e => nth (Z.to_nat e) all32 0 =? e)); [vm_compute; reflexivity|exact G]. Qed.

Lemma table_rows ps : forall i st, length st = 32%nat ->
  (forall e, gf e -> nth (Z.to_nat e) st 0 = Nat.iter (i - 1) cstep e) -> (1 <= i)%nat -> Forall gf ps ->
  (forall k, (k < length ps)%nat -> nth k ps 0 = psi (i + k)) ->
  table i ps st = map row (seq i (length ps)).
Proof.
  induction ps as [|q ps IH]; intros i st L T Hi G P; [reflexivity|]. inversion G as [|? ? Gq Gp]; subst.
  assert (forall e, gf e -> nth (Z.to_nat e) (map cstep st) 0 = Nat.iter i cstep e) as S'.
  { intros e Ge. rewrite (nth_indep _ 0 (cstep 0)) by (rewrite map_length, L; unfold gf in Ge; lia).
    rewrite map_nth, (T e Ge). destruct i as [|i]; [lia|]. replace (S i - 1)%nat with i by lia. reflexivity. }
  cbn [table length seq map]. f_equal.
  - unfold row. f_equal. apply map_ext_in. intros l _. unfold unit_entry, entry.
    assert (psi i = q) as -> by (specialize (P 0%nat); cbn [length nth] in P; rewrite Nat.add_0_r in P; symmetry; apply P; lia).
    f_equal. apply S'. apply gf_mul_gf, Gq.
  - apply IH; [rewrite map_length; exact L|intros e Ge; replace (S i - 1)%nat with i by lia; apply S', Ge|lia|exact Gp|].
    intros k Hk. specialize (P (S k) ltac:(cbn [length]; lia)). cbn [nth] in P. rewrite P. f_equal. lia.
Qed.

Lemma psis_gf : Forall (fun q => gf q /\ q <> 0) psis.
Proof.
  apply Forall_forall. intros q I.
  assert (forallb (fun q => (1 <=? q) && (q <? 32)) psis = true) as C by (vm_compute; reflexivity).
  rewrite forallb_forall in C. specialize (C q I). unfold gf. lia.
Qed.

Lemma rows_spec : rows = map row (seq 1 111).
Proof.
  unfold rows. rewrite (table_rows psis 1 all32); [reflexivity|reflexivity|intros e Ge; apply nth_all32, Ge|lia| |].
  - generalize psis_gf. apply Forall_impl. intros q [G _]. exact G.
  - intros k _. unfold psi. f_equal. lia.
Qed.

Lemma psi_gf i : (1 <= i <= 111)%nat -> gf (psi i) /\ psi i <> 0.
Proof.
  intros Hi. pose proof psis_gf as F. rewrite Forall_forall in F. apply F. apply nth_In. change (length psis) with 111%nat. lia.
Qed.

(** * The comparison *)

Fixpoint pairs {X} (l : list X) : list (X * X) :=
  match l with [] => [] | x :: t => map (pair x) t ++ pairs t end.

Fixpoint distinct_from (t : trie) (l : list Z) : bool :=
  match l with
  | [] => true
  | x :: r => if tmem (key x) t then false else distinct_from (tadd (key x) t) r
  end.

Lemma distinct_spec l : forall t, distinct_from t l = true ->
  NoDup l /\ forall x, In x l -> tmem (key x) t = false.
Proof.
  induction l as [|x l IH]; intros t D; [split; [constructor|intros _ []]|]. cbn [distinct_from] in D.
  destruct (tmem (key x) t) eqn:M; [discriminate|]. destruct (IH _ D) as [N F]. split.
  - constructor; [|exact N]. intros I. specialize (F x I). rewrite tmem_add in F. discriminate.
  - intros y [<-|I]; [exact M|]. specialize (F y I). destruct (tmem (key y) t) eqn:T; [|reflexivity].
    rewrite (tmem_add_mono _ _ _ T) in F. discriminate.
Qed.

Definition elem := (nat * nat * (Z * Z))%type.
Definition value (x : elem) : Z := Z.lxor (fst (snd x)) (snd (snd x)).

Definition from2 : list nat := seq 2 30.
Definition flip (k : nat) : nat := if Nat.even k then S k else (k - 1)%nat.
Definition plain (N : list Z) : list Z := skipn 2 N.
Definition swapped (N : list Z) : list Z := map (fun k => nth (flip k) N 0) from2.
Definition elems (f g : list Z -> list Z) (ps : list ((nat * list Z) * (nat * list Z))) : list elem :=
  flat_map (fun p => map (pair (fst (fst p), fst (snd p))) (combine (f (snd (fst p))) (g (snd (snd p))))) ps.
Definition first1 (N : list Z) : list Z := [nth 1 N 0].

Definition apart (l1 l2 : list elem) : bool :=
  let T := zset (map value l1) Leaf in forallb (fun x => negb (tmem (key (value x)) T)) l2.
Lemma apart_spec l1 l2 : apart l1 l2 = true -> forall x y, In x l1 -> In y l2 -> value x <> value y.
Proof.
  unfold apart. intros A x y Ix Iy E. rewrite forallb_forall in A. specialize (A y Iy).
  rewrite <- E, (zset_In (map value l1) (value x) Leaf (in_map value l1 x Ix)) in A. discriminate.
Qed.
Lemma value_eq p q u v : value (p, q, (u, v)) = Z.lxor u v.
Proof. reflexivity. Qed.

Definition tops (rs : list (nat * list Z)) : bool :=
  forallb (fun r => forallb (fun l => Z.shiftr (nth (Z.to_nat l) (snd r) 0) 30 =? l) all32) rs.
Lemma tops_spec rs r l : tops rs = true -> In r rs -> gf l -> Z.shiftr (nth (Z.to_nat l) (snd r) 0) 30 = l.
Proof.
  unfold tops. intros T I G. rewrite forallb_forall in T. specialize (T r I). rewrite forallb_forall in T.
  apply Z.eqb_eq, (T l (all32_In l G)).
Qed.

Lemma tops_ok : tops rows = true.
Proof. vm_cast_no_check (eq_refl true). Qed.
(* the factors of the two places differ by 1 *)
Lemma differ_ok : distinct_from Leaf (map value (elems plain swapped (pairs rows))) = true.
Proof. vm_cast_no_check (eq_refl true). Qed.
(* they are equal *)
Lemma same1_ok : distinct_from Leaf (map value (elems first1 first1 (pairs rows))) = true.
Proof. vm_cast_no_check (eq_refl true). Qed.
Lemma same_ok : apart (elems first1 first1 (pairs rows)) (elems plain plain (pairs rows)) = true.
Proof. vm_cast_no_check (eq_refl true). Qed.

Lemma in_pairs {X} (f : nat -> X) p q n : forall i, (i <= p)%nat -> (p < q)%nat -> (q < i + n)%nat ->
  In (f p, f q) (pairs (map f (seq i n))).
Proof.
  induction n as [|n IH]; intros i Hp Hpq Hq; [lia|]. cbn [seq map pairs]. apply in_or_app.
  destruct (Nat.eq_dec i p) as [->|N].
  - left. apply in_map_iff. exists (f q). split; [reflexivity|]. apply in_map, in_seq. lia.
  - right. apply IH; lia.
Qed.

Lemma in_combine_map {X} (f g : X -> Z) l x : In x l -> In (f x, g x) (combine (map f l) (map g l)).
Proof. induction l as [|y l IH]; intros I; [destruct I|]. cbn [map combine]. destruct I as [->|I]; [left; reflexivity|right; apply IH, I]. Qed.

Lemma in_elems f g p q u v : (1 <= p)%nat -> (p < q)%nat -> (q <= 111)%nat ->
  In (u, v) (combine (f (snd (row p))) (g (snd (row q)))) -> In (p, q, (u, v)) (elems f g (pairs rows)).
Proof.
  intros Hp Hpq Hq I. unfold elems. apply in_flat_map. exists (row p, row q). split.
  - rewrite rows_spec. apply in_pairs; lia.
  - cbn [fst snd row] in *. apply in_map_iff. exists (u, v). auto.
Qed.

Lemma elem_eq (p q p' q' : nat) (z z' : Z * Z) : (p, q, z) = (p', q', z') -> p = p'.
Proof. intros E. injection E as E _ _. exact E. Qed.

Lemma nodup_value l x y : NoDup (map value l) -> In x l -> In y l -> value x = value y -> x = y.
Proof.
  induction l as [|z l IH]; intros N Hx Hy E; [destruct Hx|]. cbn [map] in N. inversion N as [|? ? Nz Nl]; subst.
  destruct Hx as [->|Hx], Hy as [->|Hy]; [reflexivity| | |apply IH; assumption].
  - exfalso. apply Nz. rewrite E. apply in_map, Hy.
  - exfalso. apply Nz. rewrite <- E. apply in_map, Hx.
Qed.

Lemma row_nth i l : gf l -> nth (Z.to_nat l) (snd (row i)) 0 = unit_entry i l.
Proof.
  intros G. cbn [row snd]. rewrite (nth_indep _ 0 (unit_entry i 0)) by (rewrite map_length; change (length all32) with 32%nat; unfold gf in G; lia).
  rewrite map_nth, nth_all32 by exact G. reflexivity.
Qed.

Lemma row_flip i l : gf l -> nth (flip (Z.to_nat l)) (snd (row i)) 0 = unit_entry i (Z.lxor l 1).
Proof.
  intros G. assert (flip (Z.to_nat l) = Z.to_nat (Z.lxor l 1)) as ->.
  { apply Nat.eqb_eq. apply (sweep32 (fun l => Nat.eqb (flip (Z.to_nat l)) (Z.to_nat (Z.lxor l 1)))); [vm_compute; reflexivity|exact G]. }
  apply row_nth. apply gf_add_gf; [exact G|unfold gf; lia].
Qed.

Lemma plain_row i : plain (snd (row i)) = map (fun k => nth k (snd (row i)) 0) from2.
Proof.
  unfold plain. cbn [row snd]. unfold from2. rewrite skipn_map.
  transitivity (map (unit_entry i) (map Z.of_nat (seq 2 30))); [reflexivity|]. rewrite map_map. apply map_ext_in.
  intros k I. apply in_seq in I. pose proof (row_nth i (Z.of_nat k) ltac:(unfold gf; lia)) as R. rewrite Nat2Z.id in R.
  symmetry. exact R.
Qed.

Lemma in_from2 l : gf l -> l <> 0 -> l <> 1 -> In (Z.to_nat l) from2.
Proof. intros G N0 N1. apply in_seq. unfold gf in G. lia. Qed.

Lemma in_differ p q l : (1 <= p)%nat -> (p < q)%nat -> (q <= 111)%nat -> gf l -> l <> 0 -> l <> 1 ->
  In (p, q, (unit_entry p l, unit_entry q (Z.lxor l 1))) (elems plain swapped (pairs rows)).
Proof.
  intros Hp Hpq Hq G N0 N1. apply in_elems; try assumption. rewrite plain_row. unfold swapped.
  rewrite <- (row_nth p l G), <- (row_flip q l G).
  apply (in_combine_map (fun k => nth k (snd (row p)) 0) (fun k => nth (flip k) (snd (row q)) 0)), in_from2; assumption.
Qed.

Lemma in_same p q l : (1 <= p)%nat -> (p < q)%nat -> (q <= 111)%nat -> gf l -> l <> 0 -> l <> 1 ->
  In (p, q, (unit_entry p l, unit_entry q l)) (elems plain plain (pairs rows)).
Proof.
  intros Hp Hpq Hq G N0 N1. apply in_elems; try assumption. rewrite !plain_row.
  rewrite <- (row_nth p l G), <- (row_nth q l G).
  apply (in_combine_map (fun k => nth k (snd (row p)) 0) (fun k => nth k (snd (row q)) 0)), in_from2; assumption.
Qed.

Lemma in_same1 p q : (1 <= p)%nat -> (p < q)%nat -> (q <= 111)%nat ->
  In (p, q, (unit_entry p 1, unit_entry q 1)) (elems first1 first1 (pairs rows)).
Proof.
  intros Hp Hpq Hq. apply in_elems; try assumption. unfold first1.
  pose proof (row_nth p 1 ltac:(unfold gf; lia)) as R. pose proof (row_nth q 1 ltac:(unfold gf; lia)) as R'.
  change (Z.to_nat 1) with 1%nat in R, R'. rewrite R, R'. left. reflexivity.
Qed.

(** * The factors *)

Lemma gf_mul_assoc a b c : gf a -> gf b -> gf c -> gf_mul a (gf_mul b c) = gf_mul (gf_mul a b) c.
Proof.
  intros Ga Gb Gc. apply Z.eqb_eq. refine (sweep32 (fun c => gf_mul a (gf_mul b c) =? gf_mul (gf_mul a b) c) _ c Gc).
  apply (sweep2 (fun a b => forallb (fun c => gf_mul a (gf_mul b c) =? gf_mul (gf_mul a b) c) all32)); try assumption.
  vm_cast_no_check (eq_refl true).
Qed.
Lemma gf_mul_comm a b : gf a -> gf b -> gf_mul a b = gf_mul b a.
Proof. intros Ga Gb. apply Z.eqb_eq, (sweep2 (fun a b => gf_mul a b =? gf_mul b a)); [vm_compute; reflexivity|exact Ga|exact Gb]. Qed.
Lemma gf_mul_1 a : gf a -> gf_mul 1 a = a.
Proof. intros Ga. apply Z.eqb_eq, (sweep32 (fun a => gf_mul 1 a =? a)); [vm_compute; reflexivity|exact Ga]. Qed.

Lemma factor i e : (1 <= i <= 111)%nat -> gf e -> e <> 0 -> exists l, gf l /\ l <> 0 /\ e = gf_mul l (psi i).
Proof.
  intros Hi Ge Ne. destruct (psi_gf i Hi) as [Gp Np]. exists (gf_mul e (gf_inv (psi i))). pose proof (gf_inv_gf (psi i)) as Gi.
  split; [apply gf_mul_gf, Gi|]. split.
  - apply gf_mul_nonzero; try assumption. intros E. pose proof (gf_inv_mul _ Gp Np) as M. rewrite E in M. discriminate.
  - rewrite <- gf_mul_assoc by assumption. rewrite (gf_inv_mul _ Gp Np), gf_mul_comm, gf_mul_1 by (try assumption; unfold gf; lia).
    reflexivity.
Qed.

Lemma top_entry i l : (1 <= i <= 111)%nat -> gf l -> Z.shiftr (unit_entry i l) 30 = l.
Proof.
  intros Hi G. rewrite <- (row_nth i l G). apply (tops_spec rows); [exact tops_ok| |exact G].
  rewrite rows_spec. apply in_map, in_seq. lia.
Qed.

Lemma entry_scaled i c l : (1 <= i <= 111)%nat -> gf c -> gf l -> entry i (gf_mul c (gf_mul l (psi i))) = unit_entry i (gf_mul c l).
Proof.
  intros Hi Gc Gl. unfold unit_entry. rewrite gf_mul_assoc; [reflexivity|exact Gc|exact Gl|apply (psi_gf i Hi)].
Qed.

(* no relation between five places *)
Lemma no_five i1 i2 i3 i4 l1 l2 l3 l4 : (1 <= i4)%nat -> (i4 < i3)%nat -> (i3 < i2)%nat -> (i2 < i1)%nat -> (i1 <= 111)%nat ->
  gf l1 -> gf l2 -> gf l3 -> gf l4 -> l1 <> 0 -> l2 <> 0 -> l3 <> 0 -> l4 <> 0 ->
  (forall c, gf c -> Z.lxor (unit_entry i2 (gf_mul c l2)) (unit_entry i1 (gf_mul c l1)) =
                     Z.lxor (unit_entry i4 (gf_mul c l4)) (unit_entry i3 (gf_mul c l3))) -> False.
Proof.
  intros H4 H3 H2 H1 H0 G1 G2 G3 G4 N1 N2 N3 N4 R.
  assert (Z.lxor l2 l1 = Z.lxor l4 l3) as Es.
  { specialize (R 1 ltac:(unfold gf; lia)). apply (f_equal (fun x => Z.shiftr x 30)) in R.
    rewrite !Z.shiftr_lxor, !top_entry, !gf_mul_1 in R by (try lia; try assumption; rewrite gf_mul_1; assumption). exact R. }
  destruct (Z.eq_dec (Z.lxor l2 l1) 0) as [Z0|NZ].
  - assert (l1 = l2) as -> by (symmetry; apply Z.lxor_eq, Z0). rewrite Z0 in Es.
    assert (l3 = l4) as -> by (symmetry; apply Z.lxor_eq; congruence). clear Z0 Es.
    pose proof (gf_inv_gf l2) as Gi. specialize (R _ Gi). rewrite (gf_inv_mul l2 G2 N2) in R.
    set (m := gf_mul (gf_inv l2) l4) in *.
    assert (gf m) as Gm by (apply gf_mul_gf, G4).
    assert (m <> 0) as Nm. { apply gf_mul_nonzero; try assumption. intros E. pose proof (gf_inv_mul l2 G2 N2) as M. rewrite E in M. discriminate. }
    pose proof (in_same1 i2 i1 ltac:(lia) ltac:(lia) ltac:(lia)) as I1.
    destruct (Z.eq_dec m 1) as [E1|Nm1].
    + rewrite E1 in R. destruct (distinct_spec _ _ same1_ok) as [N _].
      rewrite <- (value_eq i2 i1), <- (value_eq i4 i3) in R.
      pose proof (nodup_value _ _ _ N I1 (in_same1 i4 i3 ltac:(lia) ltac:(lia) ltac:(lia)) R) as E. apply elem_eq in E. lia.
    + pose proof (in_same i4 i3 m ltac:(lia) ltac:(lia) ltac:(lia) Gm Nm Nm1) as I2.
      rewrite <- (value_eq i2 i1), <- (value_eq i4 i3) in R. exact (apart_spec _ _ same_ok _ _ I1 I2 R).
  - set (s := Z.lxor l2 l1) in *. assert (gf s) as Gs by (apply gf_add_gf; assumption).
    pose proof (gf_inv_gf s) as Gi. specialize (R _ Gi).
    assert (gf_inv s <> 0) as Ni. { intros E. pose proof (gf_inv_mul s Gs NZ) as M. rewrite E in M. discriminate. }
    assert (forall a b, gf a -> gf b -> b <> 0 -> a <> 0 -> Z.lxor a b = s -> gf_mul (gf_inv s) b = Z.lxor (gf_mul (gf_inv s) a) 1 /\
      gf (gf_mul (gf_inv s) a) /\ gf_mul (gf_inv s) a <> 0 /\ gf_mul (gf_inv s) a <> 1) as K.
    { intros a b Ga Gb Nb Na E. pose proof (gf_inv_mul s Gs NZ) as M.
      assert (gf_mul (gf_inv s) b = Z.lxor (gf_mul (gf_inv s) a) 1) as E1.
      { rewrite <- M, <- E at 1. rewrite <- E in Gi, M |- *. pose proof (gf_mul_add_r (gf_inv (Z.lxor a b)) a b Ga Gb) as D. unfold gf_add in D.
        rewrite D, <- Z.lxor_assoc, Z.lxor_nilpotent, Z.lxor_0_l. reflexivity. }
      split; [exact E1|]. split; [apply gf_mul_gf, Ga|]. split; [apply gf_mul_nonzero; assumption|].
      intros E2. rewrite E2, Z.lxor_nilpotent in E1. revert E1. apply gf_mul_nonzero; assumption. }
    destruct (K l2 l1 G2 G1 N1 N2 eq_refl) as [E1 [Ga [Na0 Na1]]].
    destruct (K l4 l3 G4 G3 N3 N4 (eq_sym Es)) as [E2 [Gb [Nb0 Nb1]]]. rewrite E1, E2 in R.
    destruct (distinct_spec _ _ differ_ok) as [N _]. rewrite <- (value_eq i2 i1), <- (value_eq i4 i3) in R.
    pose proof (nodup_value _ _ _ N (in_differ i2 i1 _ ltac:(lia) ltac:(lia) ltac:(lia) Ga Na0 Na1)
      (in_differ i4 i3 _ ltac:(lia) ltac:(lia) ltac:(lia) Gb Nb0 Nb1) R) as E. apply elem_eq in E. lia.
Qed.

(** * Words of weight five *)

Lemma ca_assoc k q : gf k -> gf q -> map (gf_mul (gf_mul k q)) cashaddr_g = map (gf_mul k) (map (gf_mul q) cashaddr_g).
Proof.
  intros Gk Gq. rewrite map_map. apply map_ext_in. intros x I. symmetry. apply gf_mul_assoc; try assumption.
  pose proof cashaddr_g_gfs as G. unfold gfs in G. rewrite Forall_forall in G. apply G, I.
Qed.

Lemma relation_of_word i1 i2 i3 i4 t e1 e2 e3 e4 d c : gf e1 -> gf e2 -> gf e3 -> gf e4 -> gf d -> gf c ->
  poly_add (mono cashaddr_g 7 (i1 + t) e1) (poly_add (mono cashaddr_g 7 (i2 + t) e2) (poly_add (mono cashaddr_g 7 (i3 + t) e3)
    (poly_add (mono cashaddr_g 7 (i4 + t) e4) (mono cashaddr_g 7 t d)))) = zeros 7 ->
  Z.lxor (entry i2 (gf_mul c e2)) (entry i1 (gf_mul c e1)) = Z.lxor (entry i4 (gf_mul c e4)) (entry i3 (gf_mul c e3)).
Proof.
  intros G1 G2 G3 G4 Gd Gc E.
  assert (no_relation cstep 0 = true) as Hrel by reflexivity.
  pose proof (mono_length cashaddr_g 7 cstep 0 eq_refl cashaddr_g_gfs cashaddr_g_inv ca_assoc cstep_push Hrel) as ML.
  pose proof (mono_gfs cashaddr_g 7 cstep 0 eq_refl cashaddr_g_gfs cashaddr_g_inv ca_assoc cstep_push Hrel) as MG.
  pose proof (shift_add2 cashaddr_g 7 cstep 0 eq_refl cashaddr_g_gfs cashaddr_g_inv ca_assoc cstep_push Hrel) as SA.
  pose proof (shift_inj cashaddr_g 7 cstep 0 eq_refl cashaddr_g_gfs cashaddr_g_inv ca_assoc cstep_push Hrel) as SI.
  pose proof (scale_mono cashaddr_g 7 cstep 0 eq_refl cashaddr_g_gfs cashaddr_g_inv ca_assoc cstep_push Hrel) as SM.
  pose proof (pack_mono cashaddr_g 7 cstep 0 eq_refl cashaddr_g_gfs cashaddr_g_inv ca_assoc cstep_push Hrel) as PM.
  assert (forall a b, length a = 8%nat -> length b = 8%nat -> length (poly_add a b) = 8%nat) as PL
    by (intros a b La Lb; rewrite poly_add_length; congruence).
  replace (mono cashaddr_g 7 t d) with (shift cashaddr_g t (mono cashaddr_g 7 0 d)) in E
    by (rewrite (shift_mono cashaddr_g 7); reflexivity).
  rewrite <- !(shift_mono cashaddr_g 7) in E. rewrite <- !SA in E by (repeat first [apply PL | apply ML]).
  apply SI in E; [|repeat apply poly_add_gfs; apply MG; assumption|repeat first [apply PL | apply ML]].
  apply (f_equal (scale c)) in E.
  rewrite !scale_add in E by (repeat first [apply poly_add_gfs | apply MG]; assumption).
  rewrite !SM in E by assumption. unfold zeros in E. rewrite scale_repeat0 in E.
  apply (f_equal (be_num 32)) in E.
  assert (forall a b, gf b -> gf (gf_mul a b)) as GM by (intros; apply gf_mul_gf; assumption).
  rewrite !pack_add, !PM in E; repeat first [apply poly_add_gfs | apply MG | apply GM]; try assumption;
    try (repeat (rewrite poly_add_length; [|]); rewrite ?ML; reflexivity).
  rewrite <- (app_nil_r (repeat 0 8)), be_num_zeros in E. change (be_num 32 []) with 0 in E.
  apply (f_equal proj) in E. rewrite !proj_add in E. fold (entry i1 (gf_mul c e1)) (entry i2 (gf_mul c e2)) (entry i3 (gf_mul c e3)) (entry i4 (gf_mul c e4)) in E.
  change (Nat.iter 0 cstep (gf_mul c d)) with (gf_mul c d) in E.
  rewrite (proj_last (gf_mul c d)) in E by (apply GM, Gd). change (proj 0) with 0 in E. rewrite Z.lxor_0_r in E.
  rewrite <- Z.lxor_assoc in E. apply Z.lxor_eq in E. rewrite Z.lxor_comm, E. apply Z.lxor_comm.
Qed.

Lemma cashaddr_five v : gfs v -> (length v <= 112)%nat -> (weight v <= 5)%nat ->
  fold_left (poly_push cashaddr_g) v (zeros 7) = zeros 7 -> v = repeat 0 (length v).
Proof.
  intros G L W E. destruct (le_lt_dec (weight v) 4) as [W4|W5]; [apply cashaddr_four; try assumption; lia|exfalso].
  assert (no_relation cstep 0 = true) as Hrel by reflexivity.
  pose proof (lin_split cashaddr_g 7 cstep 0 eq_refl cashaddr_g_gfs cashaddr_g_inv ca_assoc cstep_push Hrel) as LS.
  pose proof (lin_zeros cashaddr_g 7 cstep 0 eq_refl cashaddr_g_gfs cashaddr_g_inv ca_assoc cstep_push Hrel) as LZ.
  pose proof (mono_length cashaddr_g 7 cstep 0 eq_refl cashaddr_g_gfs cashaddr_g_inv ca_assoc cstep_push Hrel) as ML.
  cbv beta zeta in LS, LZ.
  assert (weight v = 5%nat) as W' by lia. clear W W5.
  destruct (weight_split v ltac:(lia)) as [a1 [e1 [v1 [-> [N1 W1]]]]].
  destruct (weight_split v1 ltac:(lia)) as [a2 [e2 [v2 [-> [N2 W2]]]]].
  destruct (weight_split v2 ltac:(lia)) as [a3 [e3 [v3 [-> [N3 W3]]]]].
  destruct (weight_split v3 ltac:(lia)) as [a4 [e4 [v4 [-> [N4 W4]]]]].
  destruct (weight_split v4 ltac:(lia)) as [a5 [e5 [v5 [-> [N5 W5]]]]].
  assert (weight v5 = 0%nat) as W6 by lia. apply weight_0 in W6.
  assert (exists t, v5 = repeat 0 t) as [t Et] by (exists (length v5); exact W6). subst v5. clear W6.
  assert (forall a e l, Forall gf (repeat 0 a ++ e :: l) -> gf e /\ Forall gf l) as GS.
  { intros a e l F. apply Forall_app in F. destruct F as [_ F]. inversion F; subst. auto. }
  unfold gfs in G. apply GS in G. destruct G as [Ge1 G]. apply GS in G. destruct G as [Ge2 G]. apply GS in G. destruct G as [Ge3 G].
  apply GS in G. destruct G as [Ge4 G]. apply GS in G. destruct G as [Ge5 _].
  rewrite !LS, LZ in E.
  assert (poly_add (mono cashaddr_g 7 (length (repeat 0 t)) e5) (zeros 7) = mono cashaddr_g 7 t e5) as E5.
  { rewrite repeat_length. unfold zeros. rewrite <- (ML t e5). apply poly_add_zero_r. }
  rewrite E5 in E. clear E5.
  rewrite !app_length in L. cbn [length] in L. rewrite !app_length in L. cbn [length] in L. rewrite !app_length in L. cbn [length] in L.
  rewrite !app_length in L. cbn [length] in L. rewrite !app_length in L. cbn [length] in L. rewrite !repeat_length in L.
  set (i4 := (a5 + 1)%nat). set (i3 := (a4 + 1 + i4)%nat). set (i2 := (a3 + 1 + i3)%nat). set (i1 := (a2 + 1 + i2)%nat).
  assert (forall a x, length (repeat 0 a ++ x :: repeat 0 t) = (a + 1 + t)%nat) as LL by (intros; rewrite app_length; cbn [length]; rewrite !repeat_length; lia).
  assert (forall a (x : Z) l, length (repeat 0 a ++ x :: l) = (a + 1 + length l)%nat) as LC by (intros; rewrite app_length; cbn [length]; rewrite repeat_length; lia).
  rewrite !LC, ?repeat_length in E.
  replace (a5 + 1 + t)%nat with (i4 + t)%nat in E by (unfold i4; lia).
  replace (a4 + 1 + (i4 + t))%nat with (i3 + t)%nat in E by (unfold i3; lia).
  replace (a3 + 1 + (i3 + t))%nat with (i2 + t)%nat in E by (unfold i2; lia).
  replace (a2 + 1 + (i2 + t))%nat with (i1 + t)%nat in E by (unfold i1; lia).
  destruct (factor i1 e1) as [l1 [G1 [M1 F1]]]; [unfold i1, i2, i3, i4; lia|assumption|assumption|].
  destruct (factor i2 e2) as [l2 [G2 [M2 F2]]]; [unfold i2, i3, i4; lia|assumption|assumption|].
  destruct (factor i3 e3) as [l3 [G3 [M3 F3]]]; [unfold i3, i4; lia|assumption|assumption|].
  destruct (factor i4 e4) as [l4 [G4 [M4 F4]]]; [unfold i4; lia|assumption|assumption|].
  apply (no_five i1 i2 i3 i4 l1 l2 l3 l4); try assumption; try (unfold i1, i2, i3, i4; lia).
  intros c Gc. pose proof (relation_of_word i1 i2 i3 i4 t e1 e2 e3 e4 e5 c ltac:(assumption) ltac:(assumption) ltac:(assumption) ltac:(assumption) ltac:(assumption) Gc E) as R.
  rewrite F1, F2, F3, F4 in R. rewrite !entry_scaled in R by (try assumption; unfold i1, i2, i3, i4; lia). exact R.
Qed.

Lemma ca_detect_five name net P t t' b : get_network name = Ok net ->
  ~ In 58 P -> length t = length t' -> (1 <= hamming t t' <= 5)%nat -> (length t <= 112)%nat ->
  cashaddr_decode net (P ++ lit ":" ++ t) = Ok b ->
  cashaddr_decode net (P ++ lit ":" ++ t') = Err ValueError \/ cashaddr_decode net (P ++ lit ":" ++ t') = Err TypeError.
Proof.
  intros En NP L H Lt D.
  destruct (CASHADDR_PREFIX net) as [p|] eqn:Ep; [|unfold cashaddr_decode in D; rewrite Ep in D; discriminate].
  destruct (ca_decode_total name net p (P ++ lit ":" ++ t') En Ep) as [[b' D']|X]; [exfalso|exact X].
  destruct (ca_text_same_prefix net name p P t t' b b' En Ep NP D D') as [v [v' [-> [-> [G [G' [V V']]]]]]].
  rewrite map_length in Lt. rewrite !map_length in L. rewrite (hamming_b32 v v' G G' L) in H.
  pose proof (codeword_diff cashaddr_g 7 eq_refl (mul_closed_of _ cashaddr_g_gfs) cashaddr_g_inv
    (cashaddr_prefix_values P ++ v) (cashaddr_prefix_values P ++ v') ltac:(rewrite !app_length; lia) V V') as F.
  rewrite poly_add_app in F by reflexivity. rewrite poly_add_self in F. rewrite fold_left_app in F.
  rewrite (fold_zero_state cashaddr_g 7 eq_refl (mul_closed_of _ cashaddr_g_gfs) cashaddr_g_inv) in F.
  apply cashaddr_five in F.
  - rewrite poly_add_length in F by exact L. apply poly_add_zero_eq in F; [|exact L]. subst v'. rewrite hamming_same in H. lia.
  - apply poly_add_gfs; assumption.
  - rewrite poly_add_length by exact L. exact Lt.
  - rewrite hamming_weight by exact L. lia.
Qed.
