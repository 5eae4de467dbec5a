(* Lemmas about MHeap.v *)
From Coq Require Import String.
From Verif Require Import Py LBase MShared MHeap SHeap.
Open Scope list_scope.
Open Scope Z_scope.

Definition preserves (h h' : heap) : Prop :=
  forall l attrs, nth_error h l = Some (CObj true attrs) -> nth_error h' l = Some (CObj true attrs).

Lemma preserves_refl h : preserves h h.
Proof. intros l a E. exact E. Qed.
Lemma preserves_trans a b c : preserves a b -> preserves b c -> preserves a c.
Proof. intros P Q l x E. apply Q, P, E. Qed.

Lemma nth_update h l c l' : (l < length h)%nat ->
  nth_error (update h l c) l' = if Nat.eqb l' l then Some c else nth_error h l'.
Proof.
  intros L. unfold update. assert (length (firstn l h) = l) as Ln by (rewrite firstn_length; lia).
  destruct (Nat.eqb_spec l' l) as [->|N].
  - rewrite nth_error_app2 by lia. rewrite Ln, Nat.sub_diag. reflexivity.
  - destruct (Nat.lt_ge_cases l' l) as [Q|Q].
    + rewrite nth_error_app1 by lia. rewrite <- (firstn_skipn l h) at 2. rewrite nth_error_app1 by lia. reflexivity.
    + rewrite nth_error_app2 by lia. rewrite Ln. destruct (l' - l)%nat as [|k] eqn:K; [lia|]. cbn [nth_error].
      rewrite <- (firstn_skipn (S l) h) at 2. rewrite nth_error_app2; rewrite firstn_length; [|lia].
      f_equal. lia.
Qed.

Lemma nth_lt {A} (h : list A) l c : nth_error h l = Some c -> (l < length h)%nat.
Proof. intros E. apply nth_error_Some. congruence. Qed.

Lemma update_preserves h l c c' : nth_error h l = Some c -> (forall a, c <> CObj true a) -> preserves h (update h l c').
Proof.
  intros E N l' a E'. rewrite nth_update by (eapply nth_lt, E). destruct (Nat.eqb_spec l' l) as [->|]; [|exact E'].
  exfalso. apply (N a). congruence.
Qed.

Lemma app_preserves h t : preserves h (h ++ t).
Proof. intros l a E. rewrite nth_error_app1 by (eapply nth_lt, E). exact E. Qed.

Lemma setattr_preserves h l k v h' : setattr h l k v = Ok h' -> preserves h h'.
Proof.
  unfold setattr. destruct (nth_error h l) as [[| |[] a]|] eqn:E; try discriminate.
  intros Q. apply Ok_inj in Q. subst. eapply update_preserves; [exact E|discriminate].
Qed.

Lemma iadd_preserves h v w h' v' : iadd h v w = Ok (h', v') -> preserves h h'.
Proof.
  unfold iadd. destruct v as [|n|a|a|l]; try discriminate.
  - destruct w; try discriminate. intros Q. apply Ok_inj in Q. injection Q as <- _. apply preserves_refl.
  - destruct (buffer h w); [|discriminate]. intros Q. apply Ok_inj in Q. injection Q as <- _. apply preserves_refl.
  - destruct w; try discriminate. intros Q. apply Ok_inj in Q. injection Q as <- _. apply preserves_refl.
  - destruct (nth_error h l) as [[a|a|i a]|] eqn:E; try discriminate.
    + destruct (buffer h w); [|discriminate]. intros Q. apply Ok_inj in Q. injection Q as <- _.
      eapply update_preserves; [exact E|discriminate].
    + destruct (items h w); [|discriminate]. intros Q. apply Ok_inj in Q. injection Q as <- _.
      eapply update_preserves; [exact E|discriminate].
    + destruct (content h w); [|discriminate]. destruct (assoc _ a) as [[| | | |ra]|]; try discriminate.
      destruct (nth_error h ra) as [[x| |]|] eqn:F; try discriminate. intros Q. apply Ok_inj in Q. injection Q as <- _.
      eapply update_preserves; [exact F|discriminate].
Qed.

Lemma setattr_obj h l k v h' : setattr h l k v = Ok h' ->
  exists a, nth_error h l = Some (CObj false a) /\ h' = update h l (CObj false (set_assoc k v a)).
Proof.
  unfold setattr. destruct (nth_error h l) as [[| |[] a]|] eqn:E; try discriminate.
  intros Q. apply Ok_inj in Q. eauto.
Qed.

Lemma make_immutable_inv h l h' : make_immutable h l = Ok h' ->
  exists a b, nth_error h l = Some (CObj false a) /\ content h (VRef l) = Some b /\
    preserves h h' /\ nth_error h' l = Some (CObj true (set_assoc (lit "_bytes") (VB b) a)).
Proof.
  unfold make_immutable. destruct (content h (VRef l)) as [b|] eqn:C; [|discriminate].
  intros E. apply bind_Ok in E. destruct E as [h1 [E1 E]]. pose proof (setattr_preserves _ _ _ _ _ E1) as P.
  apply setattr_obj in E1. destruct E1 as [a [F ->]].
  pose proof (nth_lt _ _ _ F) as L. rewrite nth_update, Nat.eqb_refl in E by exact L. apply Ok_inj in E. subst h'.
  exists a, b. split; [exact F|]. split; [reflexivity|]. split.
  - eapply preserves_trans; [exact P|]. eapply update_preserves; [rewrite nth_update by exact L; rewrite Nat.eqb_refl; reflexivity|discriminate].
  - rewrite nth_update, Nat.eqb_refl; [reflexivity|].
    unfold update. rewrite app_length, firstn_length. cbn [length]. lia.
Qed.

Lemma iadd_all_preserves parts : forall h l h', iadd_all h l parts = Ok h' -> preserves h h'.
Proof.
  induction parts as [|p ps IH]; intros h l h' E; cbn [iadd_all] in E.
  - apply Ok_inj in E. subst. apply preserves_refl.
  - apply bind_Ok in E. destruct E as [[h1 v] [E1 E]]. eapply preserves_trans; [eapply iadd_preserves, E1|eapply IH, E].
Qed.
Lemma setattr_all_preserves attrs : forall h l h', setattr_all h l attrs = Ok h' -> preserves h h'.
Proof.
  induction attrs as [|[k v] r IH]; intros h l h' E; cbn [setattr_all] in E.
  - apply Ok_inj in E. subst. apply preserves_refl.
  - apply bind_Ok in E. destruct E as [h1 [E1 E]]. eapply preserves_trans; [eapply setattr_preserves, E1|eapply IH, E].
Qed.
Lemma construct_preserves h parts attrs h' l : construct h parts attrs = Ok (h', l) -> preserves h h'.
Proof.
  unfold construct, new_object. intros E. apply bind_Ok in E. destruct E as [h1 [E1 E]].
  apply bind_Ok in E. destruct E as [h2 [E2 E]]. apply bind_Ok in E. destruct E as [h3 [E3 E]].
  apply Ok_inj in E. injection E as <- <-.
  eapply preserves_trans; [apply app_preserves|]. eapply preserves_trans; [eapply iadd_all_preserves, E1|].
  eapply preserves_trans; [eapply setattr_all_preserves, E2|].
  apply make_immutable_inv in E3. destruct E3 as [? [? [_ [_ [P _]]]]]. exact P.
Qed.

Lemma step_preserves h o : preserves h (fst (step h o)).
Proof.
  destruct o as [l k v|v w|l k w|b|vs|l b|l vs|parts attrs|l]; cbn [step].
  - destruct (setattr h l k v) eqn:E; [eapply setattr_preserves, E|apply preserves_refl].
  - destruct (iadd h v w) as [[h' v']|] eqn:E; cbn [bind]; [eapply iadd_preserves, E|apply preserves_refl].
  - destruct (getattr h l k) as [v|]; [|apply preserves_refl].
    destruct (iadd h v w) as [[h' v']|] eqn:E; [|apply preserves_refl].
    pose proof (iadd_preserves _ _ _ _ _ E) as P.
    destruct (setattr h' l k v') eqn:E'; [|exact P]. eapply preserves_trans; [exact P|eapply setattr_preserves, E'].
  - apply app_preserves.
  - apply app_preserves.
  - destruct (nth_error h l) as [[| |]|] eqn:E; try apply preserves_refl. eapply update_preserves; [exact E|discriminate].
  - destruct (nth_error h l) as [[| |]|] eqn:E; try apply preserves_refl. eapply update_preserves; [exact E|discriminate].
  - destruct (construct h parts attrs) as [[h' v']|] eqn:E; cbn [bind]; [eapply construct_preserves, E|apply preserves_refl].
  - destruct (make_immutable h l) eqn:E; [|apply preserves_refl]. apply make_immutable_inv in E.
    destruct E as [? [? [_ [_ [P _]]]]]. exact P.
Qed.

Lemma run_preserves ops : forall h, preserves h (run h ops).
Proof.
  induction ops as [|o ops IH]; intros h; [apply preserves_refl|].
  cbn [run fold_left]. eapply preserves_trans; [apply step_preserves|apply IH].
Qed.

Lemma frozen_preserved h h' v : preserves h h' -> frozen h v -> frozen h' v.
Proof.
  intros P F. induction F as [| | |vs F IH|l attrs E F IH]; try constructor; [exact IH|].
  econstructor; [apply P, E|exact IH].
Qed.

Lemma view_preserved h h' : preserves h h' -> forall n v, frozen h v -> view n h' v = view n h v.
Proof.
  intros P. induction n as [|n IH]; intros v F; [reflexivity|]. cbn [view].
  destruct F as [| | |vs F|l attrs E F]; try reflexivity.
  - f_equal. apply map_ext_in. intros v I. apply IH, F, I.
  - rewrite (P _ _ E), E. f_equal. apply map_ext_in. intros [k v] I. cbn [fst snd]. f_equal. apply IH. eapply F, I.
Qed.

(** * C20 *)

Lemma cell_forever h l attrs ops : nth_error h l = Some (CObj true attrs) ->
  nth_error (run h ops) l = Some (CObj true attrs).
Proof. apply run_preserves. Qed.

Lemma bytes_forever h l attrs b ops : nth_error h l = Some (CObj true attrs) ->
  assoc (lit "_bytes") attrs = Some (VB b) -> content (run h ops) (VRef l) = Some b.
Proof. intros E A. unfold content. rewrite (run_preserves ops h l attrs E), A. reflexivity. Qed.

Lemma frozen_forever h v ops : frozen h v -> frozen (run h ops) v /\ forall n, view n (run h ops) v = view n h v.
Proof.
  intros F. split; [apply (frozen_preserved h); [apply run_preserves|exact F]|].
  intros n. apply view_preserved; [apply run_preserves|exact F].
Qed.

Lemma writes_raise h l attrs b : nth_error h l = Some (CObj true attrs) -> assoc (lit "_bytes") attrs = Some (VB b) ->
  (forall k v, step h (OSetattr l k v) = (h, Err TypeError)) /\
  (forall w, step h (OIadd (VRef l) w) = (h, Err (match content h w with Some _ => AttributeError | None => TypeError end))) /\
  (forall k w, exists e, snd (step h (OAttrIadd l k w)) = Err e) /\
  step h (OMakeImmutable l) = (h, Err TypeError).
Proof.
  intros E A. split; [|split; [|split]].
  - intros k v. cbn [step]. unfold setattr. rewrite E. reflexivity.
  - intros w. cbn [step]. unfold iadd. rewrite E. destruct (content h w); [|reflexivity]. rewrite A. reflexivity.
  - intros k w. cbn [step]. destruct (getattr h l k) as [v|e]; [|eexists; reflexivity].
    destruct (iadd h v w) as [[h' v']|e] eqn:I; [|eexists; reflexivity].
    unfold setattr. rewrite (iadd_preserves _ _ _ _ _ I _ _ E). eexists; reflexivity.
  - cbn [step]. unfold make_immutable. destruct (content h (VRef l)); [|reflexivity].
    unfold setattr. rewrite E. reflexivity.
Qed.

(** constructors give such objects *)

Lemma length_update h l c : (l < length h)%nat -> length (update h l c) = length h.
Proof. intros L. unfold update. rewrite app_length, firstn_length. cbn [length]. rewrite skipn_length. lia. Qed.

Lemma nth_last {A} (h : list A) x y : nth_error (h ++ [x; y]) (length h) = Some x /\ nth_error (h ++ [x; y]) (S (length h)) = Some y.
Proof.
  split; rewrite nth_error_app2 by lia.
  - rewrite Nat.sub_diag. reflexivity.
  - replace (S (length h) - length h)%nat with 1%nat by lia. reflexivity.
Qed.

(* a new object under construction *)
Definition building (h0 h : heap) (b : bytes) (attrs : list (str * val)) : Prop :=
  let a := length h0 in
  length h = S (S a) /\
  nth_error h a = Some (CArray b) /\ nth_error h (S a) = Some (CObj false attrs) /\
  assoc (lit "_bytes") attrs = Some (VRef a) /\
  forall l, (l < a)%nat -> nth_error h l = nth_error h0 l.

Lemma building_new h : building h (h ++ [CArray []; CObj false [(lit "_bytes", VRef (length h))]]) [] [(lit "_bytes", VRef (length h))].
Proof.
  unfold building. cbv zeta. destruct (nth_last h (CArray []) (CObj false [(lit "_bytes", VRef (length h))])) as [A B].
  repeat split; try assumption.
  - rewrite app_length. cbn [length]. lia.
  - intros l L. apply nth_error_app1, L.
Qed.

(* content of a value that refers to older cells only *)
Definition old (h0 : heap) (v : val) : Prop := match v with VRef l => (l < length h0)%nat | _ => True end.
Definition closed (h0 : heap) : Prop := forall l i attrs, nth_error h0 l = Some (CObj i attrs) ->
  forall v, assoc (lit "_bytes") attrs = Some v -> old h0 v.

Lemma content_old h0 h b attrs v : building h0 h b attrs -> closed h0 -> old h0 v -> content h v = content h0 v.
Proof.
  intros [L [A [B [C D]]]] Cl O. destruct v as [| | | |l]; try reflexivity. cbn [old] in O. unfold content.
  rewrite (D l O). destruct (nth_error h0 l) as [[|?|i a]|] eqn:E; try reflexivity.
  destruct (assoc (lit "_bytes") a) as [v|] eqn:F; [|reflexivity].
  specialize (Cl _ _ _ E _ F). destruct v as [| | | |l']; try reflexivity. cbn [old] in Cl.
  unfold buffer. rewrite (D l' Cl). reflexivity.
Qed.

Lemma building_iadd h0 h b attrs p x : building h0 h b attrs -> closed h0 -> old h0 p -> content h0 p = Some x ->
  exists h', iadd h (VRef (S (length h0))) p = Ok (h', VRef (S (length h0))) /\ building h0 h' (b ++ x) attrs.
Proof.
  intros Bu Cl O C. pose proof (content_old _ _ _ _ _ Bu Cl O) as Q. destruct Bu as [L [A [B [S D]]]].
  unfold iadd. rewrite B, Q, C, S, A. eexists. split; [reflexivity|].
  assert (length h0 < length h)%nat as Lt by lia.
  unfold building. cbv zeta. rewrite length_update by exact Lt. repeat split; try assumption.
  - rewrite nth_update, Nat.eqb_refl by exact Lt. reflexivity.
  - rewrite nth_update by exact Lt. destruct (Nat.eqb_spec (Datatypes.S (length h0)) (length h0)); [lia|exact B].
  - intros l Ll. rewrite nth_update by exact Lt. destruct (Nat.eqb_spec l (length h0)); [lia|apply D, Ll].
Qed.

Lemma building_iadds h0 parts xs : closed h0 -> Forall2 (fun p x => old h0 p /\ content h0 p = Some x) parts xs ->
  forall h b attrs, building h0 h b attrs ->
  exists h', iadd_all h (S (length h0)) parts = Ok h' /\ building h0 h' (b ++ concat xs) attrs.
Proof.
  intros Cl F. induction F as [|p x parts xs [O C] F IH]; intros h b attrs Bu.
  - exists h. split; [reflexivity|]. cbn. rewrite app_nil_r. exact Bu.
  - cbn [iadd_all]. destruct (building_iadd h0 h b attrs p x Bu Cl O C) as [h1 [E1 B1]]. rewrite E1. cbn [bind].
    destruct (IH _ _ _ B1) as [h2 [E2 B2]]. exists h2. split; [exact E2|]. cbn [concat]. rewrite app_assoc. exact B2.
Qed.

Lemma assoc_set_other k k' v attrs : k' <> k -> assoc k' (set_assoc k v attrs) = assoc k' attrs.
Proof.
  intros N. unfold set_assoc. cbn [assoc]. destruct (leqb_spec k' k) as [|_]; [contradiction|].
  induction attrs as [|[x y] r IH]; [reflexivity|]. cbn [filter fst]. destruct (leqb_spec k x) as [->|Q]; cbn [negb].
  - rewrite IH. cbn [assoc]. destruct (leqb_spec k' x); [contradiction|reflexivity].
  - cbn [assoc]. destruct (leqb k' x); [reflexivity|exact IH].
Qed.

Lemma building_setattr h0 h b attrs k v : building h0 h b attrs -> k <> lit "_bytes" ->
  exists h', setattr h (S (length h0)) k v = Ok h' /\ building h0 h' b (set_assoc k v attrs).
Proof.
  intros [L [A [B [S D]]]] N. unfold setattr. rewrite B. eexists. split; [reflexivity|].
  assert (Datatypes.S (length h0) < length h)%nat as Lt by lia.
  unfold building. cbv zeta. rewrite length_update by exact Lt. repeat split; try assumption.
  - rewrite nth_update by exact Lt. destruct (Nat.eqb_spec (length h0) (Datatypes.S (length h0))); [lia|exact A].
  - rewrite nth_update, Nat.eqb_refl by exact Lt. reflexivity.
  - rewrite assoc_set_other; [exact S|]. intros Q. apply N. symmetry. exact Q.
  - intros l Ll. rewrite nth_update by exact Lt. destruct (Nat.eqb_spec l (Datatypes.S (length h0))); [lia|apply D, Ll].
Qed.

Definition set_all (attrs start : list (str * val)) : list (str * val) :=
  fold_left (fun a kv => set_assoc (fst kv) (snd kv) a) attrs start.

Lemma building_setattrs h0 new : Forall (fun kv => fst kv <> lit "_bytes") new ->
  forall h b attrs, building h0 h b attrs ->
  exists h', setattr_all h (S (length h0)) new = Ok h' /\ building h0 h' b (set_all new attrs).
Proof.
  intros F. induction F as [|[k v] r N F IH]; intros h b attrs Bu; [exists h; split; [reflexivity|exact Bu]|].
  cbn [setattr_all]. destruct (building_setattr h0 h b attrs k v Bu N) as [h1 [E1 B1]]. rewrite E1. cbn [bind].
  destruct (IH _ _ _ B1) as [h2 [E2 B2]]. exists h2. split; [exact E2|exact B2].
Qed.

Lemma In_set_all new : forall start k v, In (k, v) (set_all new start) -> In (k, v) start \/ In (k, v) new.
Proof.
  induction new as [|[x y] r IH]; intros start k v I; [left; exact I|]. cbn [set_all fold_left fst snd] in I.
  destruct (IH _ _ _ I) as [J|J]; [|right; right; exact J]. destruct J as [E|J]; [injection E as <- <-; right; left; reflexivity|].
  left. apply filter_In in J. apply J.
Qed.

Lemma construct_object h parts xs attrs : closed h -> Forall2 (fun p x => old h p /\ content h p = Some x) parts xs ->
  Forall (fun kv => fst kv <> lit "_bytes") attrs ->
  exists h' l final, construct h parts attrs = Ok (h', l) /\ nth_error h' l = Some (CObj true final) /\
    assoc (lit "_bytes") final = Some (VB (concat xs)) /\ length h' = S (S (length h)) /\
    (forall k v, In (k, v) final -> k = lit "_bytes" /\ v = VB (concat xs) \/ In (k, v) attrs).
Proof.
  intros Cl F N. unfold construct, new_object.
  destruct (building_iadds h parts xs Cl F _ _ _ (building_new h)) as [h1 [E1 B1]]. rewrite E1. cbn [bind].
  destruct (building_setattrs h attrs N _ _ _ B1) as [h2 [E2 B2]]. rewrite E2. cbn [bind].
  destruct B2 as [L [A [B [S D]]]]. set (a2 := set_all attrs _) in *.
  assert (content h2 (VRef (Datatypes.S (length h))) = Some ([] ++ concat xs)) as C.
  { unfold content. rewrite B, S. cbn [buffer]. rewrite A. reflexivity. }
  unfold make_immutable. rewrite C. unfold setattr. rewrite B. cbn [bind].
  assert (Datatypes.S (length h) < length h2)%nat as Lt by lia.
  rewrite nth_update, Nat.eqb_refl by exact Lt. cbn [bind].
  exists (update (update h2 (Datatypes.S (length h)) (CObj false (set_assoc (lit "_bytes") (VB ([] ++ concat xs)) a2)))
           (Datatypes.S (length h)) (CObj true (set_assoc (lit "_bytes") (VB ([] ++ concat xs)) a2))),
         (Datatypes.S (length h)), (set_assoc (lit "_bytes") (VB ([] ++ concat xs)) a2).
  split; [reflexivity|]. split; [rewrite nth_update, Nat.eqb_refl by (rewrite length_update; lia); reflexivity|].
  split; [unfold set_assoc; cbn [assoc]; rewrite leqb_refl; reflexivity|].
  split; [rewrite !length_update by (rewrite ?length_update; lia); exact L|].
  intros k v [E|I]; [injection E as <- <-; left; split; reflexivity|].
  apply filter_In in I. destruct I as [I Nk]. cbn [fst] in Nk. unfold a2 in I. apply In_set_all in I.
  destruct I as [[E|[]]|I]; [|right; exact I]. injection E as <- <-. rewrite leqb_refl in Nk. discriminate.
Qed.

Lemma construct_frozen h parts xs attrs : closed h -> Forall2 (fun p x => old h p /\ content h p = Some x) parts xs ->
  Forall (fun kv => fst kv <> lit "_bytes" /\ frozen h (snd kv)) attrs ->
  exists h' l, construct h parts attrs = Ok (h', l) /\ frozen h' (VRef l) /\ content h' (VRef l) = Some (concat xs).
Proof.
  intros Cl F N. destruct (construct_object h parts xs attrs Cl F) as [h' [l [final [E [Nl [Ab [Lh Fin]]]]]]].
  { eapply Forall_impl; [|exact N]. intros kv [Q _]. exact Q. }
  exists h', l. split; [exact E|]. split.
  - econstructor; [exact Nl|]. intros k v I. destruct (Fin k v I) as [[_ ->]|J]; [constructor|].
    rewrite Forall_forall in N. destruct (N _ J) as [_ Fv]. cbn [snd] in Fv.
    eapply frozen_preserved; [eapply construct_preserves, E|exact Fv].
  - unfold content. rewrite Nl, Ab. reflexivity.
Qed.
