(* Lemmas about MHeapDel.v *)
From Coq Require Import String Lia.
From Verif Require Import Py LBase MNet MUtils MTx MHeap MHeapTx MHeapDel SHeap SHeapTx SHeapDel LHeap LHeapTx.
Open Scope list_scope.
Open Scope Z_scope.

Lemma assoc_remove k k' attrs : assoc k' (filter (fun kv => negb (leqb k (fst kv))) attrs) = if leqb k' k then None else assoc k' attrs.
Proof.
  induction attrs as [|[a v] attrs IH]; cbn [filter assoc fst]; [destruct (leqb k' k); reflexivity|].
  destruct (leqb k a) eqn:E; cbn [negb].
  - apply leqb_eq in E. subst a. rewrite IH. destruct (leqb k' k); reflexivity.
  - cbn [assoc]. rewrite IH. destruct (leqb k' a) eqn:E'; [|reflexivity]. apply leqb_eq in E'. subst a.
    destruct (leqb k' k) eqn:E2; [|reflexivity]. apply leqb_eq in E2. subst k'. rewrite leqb_refl in E. discriminate E.
Qed.

(* an object replaced by an object *)
Lemma buffer_update h l i a c v : nth_error h l = Some (CObj i a) -> (exists j b, c = CObj j b) -> buffer (update h l c) v = buffer h v.
Proof.
  intros E (j & b & ->). destruct v as [| | | |l']; try reflexivity. cbn [buffer]. rewrite nth_update by exact (nth_lt _ _ _ E).
  destruct (Nat.eqb_spec l' l) as [->|]; [rewrite E|]; reflexivity.
Qed.
Lemma content_update h l i a j b v : nth_error h l = Some (CObj i a) -> assoc (lit "_bytes") b = assoc (lit "_bytes") a ->
  content (update h l (CObj j b)) v = content h v.
Proof.
  intros E A. assert (exists j' b', CObj j b = CObj j' b') as X by eauto.
  destruct v as [| | | |l']; try reflexivity. cbn [content]. rewrite nth_update by exact (nth_lt _ _ _ E).
  destruct (Nat.eqb_spec l' l) as [->|]; [rewrite E, A; destruct (assoc (lit "_bytes") a) as [x|]; [exact (buffer_update h l i a _ x E X)|reflexivity]|].
  destruct (nth_error h l') as [[?|?|? at']|]; try reflexivity. destruct (assoc (lit "_bytes") at') as [x|]; [exact (buffer_update h l i a _ x E X)|reflexivity].
Qed.
Lemma getattr_update h l c l' k : (l < length h)%nat -> getattr (update h l c) l' k =
  if Nat.eqb l' l then match c with CObj _ attrs => match assoc k attrs with Some v => Ok v | None => Err AttributeError end | _ => Err AttributeError end
  else getattr h l' k.
Proof. intros L. unfold getattr. rewrite nth_update by exact L. destruct (Nat.eqb l' l); reflexivity. Qed.

Lemma can_write_iff h l : can_write h l <-> exists attrs, nth_error h l = Some (CObj false attrs).
Proof.
  unfold can_write, setattr. split.
  - intros (k & v & h' & E). destruct (nth_error h l) as [[?|?|[|] a]|]; try discriminate E. eauto.
  - intros [a ->]. exists [], VNone. eauto.
Qed.
Lemma can_write_update h l i a b l' : nth_error h l = Some (CObj i a) -> (can_write (update h l (CObj i b)) l' <-> can_write h l').
Proof.
  intros E. rewrite !can_write_iff, nth_update by exact (nth_lt _ _ _ E). destruct (Nat.eqb_spec l' l) as [->|]; [|reflexivity]. rewrite E.
  split; intros [x X]; injection X as -> _; eauto.
Qed.
Lemma mutable_flag h l : can_write h l -> delattr h l flag_name = Err AttributeError.
Proof. intros W. apply can_write_iff in W. destruct W as [a E]. unfold delattr. rewrite E, leqb_refl. reflexivity. Qed.

Lemma deletion_lemma h l k v : k <> flag_name -> getattr h l k = Ok v ->
  exists h', delattr h l k = Ok h' /\ getattr h' l k = Err AttributeError /\
    (forall l' k', l' <> l \/ k' <> k -> getattr h' l' k' = getattr h l' k') /\
    (k <> lit "_bytes" -> forall w, content h' w = content h w) /\
    (k = lit "_bytes" -> content h' (VRef l) = None) /\ (forall l', can_write h' l' <-> can_write h l').
Proof.
  intros Nk G. unfold getattr in G. unfold delattr. destruct (nth_error h l) as [[?|?|i attrs]|] eqn:E; try discriminate G.
  destruct (leqb k flag_name) eqn:F; [apply leqb_eq in F; contradiction|]. destruct (assoc k attrs) as [x|] eqn:A; [|discriminate G].
  eexists. split; [reflexivity|]. pose proof (nth_lt _ _ _ E) as L. split; [|split; [|split; [|split]]].
  - rewrite getattr_update by exact L. rewrite Nat.eqb_refl, assoc_remove, leqb_refl. reflexivity.
  - intros l' k' D. rewrite getattr_update by exact L. destruct (Nat.eqb_spec l' l) as [->|]; [|reflexivity]. rewrite assoc_remove.
    destruct (leqb k' k) eqn:Q; [apply leqb_eq in Q; destruct D; contradiction|]. unfold getattr. rewrite E. reflexivity.
  - intros Nb w. apply (content_update h l i attrs _ _ w E). rewrite assoc_remove. destruct (leqb (lit "_bytes") k) eqn:Q; [apply leqb_eq in Q; congruence|reflexivity].
  - intros ->. cbn [content]. rewrite nth_update by exact L. rewrite Nat.eqb_refl, assoc_remove, leqb_refl. reflexivity.
  - intros l'. apply (can_write_update h l i attrs _ l' E).
Qed.
Lemma no_deletion h l k e : k <> flag_name -> getattr h l k = Err e -> delattr h l k = Err AttributeError.
Proof.
  intros Nk G. unfold getattr in G. unfold delattr. destruct (nth_error h l) as [[?|?|i attrs]|]; try reflexivity.
  destruct (leqb k flag_name) eqn:F; [apply leqb_eq in F; contradiction|]. destruct (assoc k attrs); [discriminate G|reflexivity].
Qed.

Lemma thaw_lemma h l attrs : nth_error h l = Some (CObj true attrs) ->
  exists h', delattr h l flag_name = Ok h' /\ (forall w, content h' w = content h w) /\ (forall l' k, getattr h' l' k = getattr h l' k) /\
    forall k v, exists h'', setattr h' l k v = Ok h'' /\ getattr h'' l k = Ok v /\
      (k = lit "_bytes" -> forall b, v = VB b -> content h'' (VRef l) = Some b).
Proof.
  intros E. unfold delattr. rewrite E, leqb_refl. pose proof (nth_lt _ _ _ E) as L. eexists. split; [reflexivity|]. split; [|split].
  - intros w. exact (content_update h l true attrs false attrs w E eq_refl).
  - intros l' k. rewrite getattr_update by exact L. destruct (Nat.eqb_spec l' l) as [->|]; [|reflexivity]. unfold getattr. rewrite E. reflexivity.
  - intros k v. unfold setattr. rewrite nth_update by exact L. rewrite Nat.eqb_refl. eexists. split; [reflexivity|].
    assert (l < length (update h l (CObj false attrs)))%nat as L' by (rewrite length_update; exact L). split.
    + rewrite getattr_update by exact L'. rewrite Nat.eqb_refl. unfold set_assoc. cbn [assoc]. rewrite leqb_refl. reflexivity.
    + intros -> b ->. cbn [content]. rewrite nth_update by exact L'. rewrite Nat.eqb_refl. unfold set_assoc. cbn [assoc]. rewrite leqb_refl. reflexivity.
Qed.

(** * Programs that delete nothing of an object *)
Definition spares (R : nat -> Prop) (h h' : heap) : Prop :=
  forall l attrs, R l -> nth_error h l = Some (CObj true attrs) -> nth_error h' l = Some (CObj true attrs).
Lemma del_step_spares (R : nat -> Prop) h o : (forall l k, o = DDel l k -> ~ R l) -> spares R h (fst (del_step h o)).
Proof.
  intros N l attrs Rl E. destruct o as [o|l' k]; cbn [del_step]; [exact (step_preserves h o l attrs E)|].
  assert (l <> l') as D by (intros <-; exact (N l k eq_refl Rl)).
  destruct (delattr h l' k) as [h'|] eqn:Q; [|exact E]. cbn [fst]. unfold delattr in Q. destruct (nth_error h l') as [[?|?|i a]|] eqn:E'; try discriminate Q.
  assert (exists c, h' = update h l' c) as [c ->].
  { destruct (leqb k flag_name); [destruct i|destruct (assoc k a)]; try discriminate Q; apply Ok_inj in Q; eauto. }
  rewrite nth_update by exact (nth_lt _ _ _ E'). destruct (Nat.eqb_spec l l'); [contradiction|exact E].
Qed.
Lemma del_run_spares (R : nat -> Prop) ops : forall h, (forall l k, In (DDel l k) ops -> ~ R l) -> spares R h (del_run h ops).
Proof.
  induction ops as [|o ops IH]; intros h N l attrs Rl E; [exact E|]. cbn [del_run fold_left].
  apply (IH (fst (del_step h o))); [intros l' k I; apply (N l' k); right; exact I|exact Rl|].
  apply (del_step_spares R h o); [|exact Rl|exact E]. intros l' k ->. apply (N l' k). left. reflexivity.
Qed.
Lemma view_spared h h' : forall n v, spares (reaches h v) h h' -> frozen h v -> view n h' v = view n h v.
Proof.
  induction n as [|n IH]; intros v P F; [reflexivity|]. destruct F as [| | |vs F|l attrs E F]; try reflexivity; cbn [view].
  - f_equal. apply map_ext_in. intros v I. apply IH; [|exact (F v I)]. intros l a R. apply P. exact (reaches_tuple h vs v l I R).
  - rewrite (P l attrs (reaches_here h l) E), E. f_equal. apply map_ext_in. intros [k v] I. cbn [fst snd]. f_equal.
    apply IH; [|exact (F k v I)]. intros l' a R. apply P. exact (reaches_attribute h l true attrs k v l' E I R).
Qed.
Lemma spared_lemma h v ops : frozen h v -> (forall l k, In (DDel l k) ops -> ~ reaches h v l) -> forall n, view n (del_run h ops) v = view n h v.
Proof. intros F N n. apply view_spared; [|exact F]. apply del_run_spares, N. Qed.

(** * Transactions *)
Lemma tx_deletion_lemma h l t : is_tx h (VRef l) t ->
  (forall k v, k <> flag_name -> getattr h l k = Ok v ->
     getattr (del_run h [DDel l k]) l k = Err AttributeError) /\
  content (del_run h [DDel l (lit "_bytes")]) (VRef l) = None /\
  forall b, let h' := del_run h [DDel l flag_name; DOp (OSetattr l (lit "_bytes") (VB b))] in
    content h (VRef l) = Some (tx_bytes t) /\ content h' (VRef l) = Some b /\ getattr h' l (lit "tx_id") = Ok (VB (tx_tx_id t)).
Proof.
  intros (ins & outs & wits & _ & _ & _ & l' & attrs & E & N & A & _). injection E as <-.
  assert (getattr h l (lit "_bytes") = Ok (VB (tx_bytes t))) as Gb by (unfold getattr; rewrite N, A; reflexivity).
  split; [|split].
  - intros k v K G. destruct (deletion_lemma h l k v K G) as (h' & D & G' & _). cbn [del_run fold_left del_step]. rewrite D. exact G'.
  - assert (lit "_bytes" <> flag_name) as K by (intros X; vm_compute in X; discriminate X).
    destruct (deletion_lemma h l _ _ K Gb) as (h' & D & _ & _ & _ & C & _). cbn [del_run fold_left del_step]. rewrite D. exact (C eq_refl).
  - intros b. cbn zeta. split; [unfold content; rewrite N, A; reflexivity|].
    destruct (thaw_lemma h l attrs N) as (h1 & D & _ & G & W). destruct (W (lit "_bytes") (VB b)) as (h2 & S' & _ & C).
    cbn [del_run fold_left del_step step]. rewrite D. cbn [fst]. rewrite S'. cbn [fst]. split; [exact (C eq_refl b eq_refl)|].
    assert (getattr h l (lit "tx_id") = Ok (VB (tx_tx_id t))) as Gi by (unfold getattr; rewrite N, A; destruct (tx_wtx_id_le t); reflexivity).
    rewrite <- G in Gi. unfold setattr in S'. unfold getattr in *. destruct (nth_error h1 l) as [[?|?|[|] a1]|] eqn:E1; try discriminate Gi; try discriminate S'.
    apply Ok_inj in S'. subst h2. rewrite nth_update by exact (nth_lt _ _ _ E1). rewrite Nat.eqb_refl. rewrite assoc_set_other; [exact Gi|].
    intros X; vm_compute in X; discriminate X.
Qed.
