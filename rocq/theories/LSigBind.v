(* Lemmas: what signature digests commit to and what they leave open *)
From Coq Require Import String.
From Verif Require Import Py LBase MNet MUtils MShared MScript MTx SNum SNet SHash SScript STx SSig LNet LUtils LVarint LScript LBase58 LTx LTxParse LTxWire LSig LBip143.
Open Scope list_scope.
Open Scope Z_scope.
Ltac Zify.zify_post_hook ::= idtac.

Lemma double_hash_len H name m : hashes_ok H -> zlen (double_hash H name m) = 32.
Proof.
  intros [A [_ [B _]]]. unfold double_hash. destruct in_dec; [apply B|apply A].
Qed.

Lemma concat_fixed {A} (k : nat) (l m : list (list A)) : (0 < k)%nat -> Forall (fun x => length x = k) l -> Forall (fun x => length x = k) m ->
  concat l = concat m -> l = m.
Proof.
  intros K. revert m. induction l as [|a l IH]; intros [|b m] F G E; try reflexivity.
  - inversion G; subst. cbn in E. destruct b; [cbn in *; lia|discriminate].
  - inversion F; subst. cbn in E. destruct a; [cbn in *; lia|discriminate].
  - inversion F; inversion G; subst. cbn [concat] in E. apply app_inj_zlen in E; [|unfold zlen; lia]. destruct E as [-> E].
    f_equal. apply IH; assumption.
Qed.

Lemma concat_pfx {A} (ok : A -> Prop) w : pfx ok w -> (forall a, 1 <= zlen (w a)) -> forall l m, Forall ok l -> Forall ok m ->
  concat (map w l) = concat (map w m) -> l = m.
Proof.
  intros P W. induction l as [|a l IH]; intros [|b m] F G E; try reflexivity.
  - exfalso. cbn in E. specialize (W b). destruct (w b); [unfold zlen in W; cbn in W; lia|discriminate].
  - exfalso. cbn in E. specialize (W a). destruct (w a); [unfold zlen in W; cbn in W; lia|discriminate].
  - inversion F; inversion G; subst. cbn [map concat] in E. apply P in E; try assumption. destruct E as [-> E]. f_equal. apply IH; assumption.
Qed.

Lemma outpoint_len i : input_ok i -> zlen (outpoint_wire i) = 36.
Proof. intros [A [B _]]. norm_spec. unfold outpoint_wire. rewrite zlen_app. lia. Qed.
Lemma outpoint_inj i i' : input_ok i -> input_ok i' -> outpoint_wire i = outpoint_wire i' -> in_txid i = in_txid i' /\ in_index i = in_index i'.
Proof. intros [A [B _]] [A' [B' _]] E. norm_spec. apply app_inj_zlen in E; [exact E|lia]. Qed.

Lemma outpoints_inj l m : Forall input_ok l -> Forall input_ok m -> concat (map outpoint_wire l) = concat (map outpoint_wire m) ->
  map outpoint_wire l = map outpoint_wire m.
Proof.
  intros F G. apply (concat_fixed 36); [lia| |]; apply Forall_map.
  - eapply Forall_impl; [|exact F]. intros i O. pose proof (outpoint_len i O). unfold zlen in *. lia.
  - eapply Forall_impl; [|exact G]. intros i O. pose proof (outpoint_len i O). unfold zlen in *. lia.
Qed.
Lemma sequences_inj l m : Forall input_ok l -> Forall input_ok m -> concat (map in_sequence l) = concat (map in_sequence m) ->
  map in_sequence l = map in_sequence m.
Proof.
  intros F G. apply (concat_fixed 4); [lia| |]; apply Forall_map.
  - eapply Forall_impl; [|exact F]. intros i [_ [_ [O _]]]. norm_spec. unfold zlen in *. lia.
  - eapply Forall_impl; [|exact G]. intros i [_ [_ [O _]]]. norm_spec. unfold zlen in *. lia.
Qed.

Lemma same_or_collide (h : bytes -> bytes) l a b : h a = h b -> In a l -> In b l -> a = b \/ collision h l.
Proof. intros E A B. destruct (list_eq_dec_Z a b) as [|N]; [auto|right; exists a, b; auto]. Qed.
Lemma collision_incl h l l' : incl l l' -> collision h l -> collision h l'.
Proof. intros I [a [b [A [B C]]]]. exists a, b. auto. Qed.

Lemma type_number_inj ty acp ty' acp' : type_number ty acp = type_number ty' acp' -> ty = ty' /\ acp = acp'.
Proof. destruct ty, acp, ty', acp'; cbn; intros E; try discriminate; auto. Qed.

Lemma le4_inj a b : 0 <= a < 2 ^ 32 -> 0 <= b < 2 ^ 32 -> le_bytes 4 a = le_bytes 4 b -> a = b.
Proof.
  intros A B E. rewrite !le_bytes_to_le in E. apply (f_equal from_le) in E.
  rewrite !from_to_le, !Z.mod_small in E by (change (256 ^ Z.of_nat 4) with (2 ^ 32); lia). exact E.
Qed.

Section Bind.
Context (hash : bytes -> bytes) (W : forall m, zlen (hash m) = 32).

Lemma body_binds ty acp n i code v t n' i' code' v' t' : transaction_ok t -> transaction_ok t' ->
  nth_error (t_ins t) n = Some i -> nth_error (t_ins t') n' = Some i' -> len v = 8 -> len v' = 8 ->
  len code < 2 ^ 64 -> len code' < 2 ^ 64 ->
  (ty = Single -> (n < length (t_outs t))%nat /\ (n' < length (t_outs t'))%nat) ->
  raw_body hash ty acp n i (string_wire code) v t = raw_body hash ty acp n' i' (string_wire code') v' t' ->
  collision hash (bip143_parts t ++ bip143_parts t') \/ (covered_same ty acp n t n' t' /\ same_signed i i' /\ code = code' /\ v = v').
Proof.
  intros [A1 [A2 [_ [_ [A5 [A6 _]]]]]] [B1 [B2 [_ [_ [B5 [B6 _]]]]]] E E' V V' C C' S X. norm_spec.
  assert (input_ok i) as Oi by (rewrite Forall_forall in A5; apply A5; eapply nth_error_In; exact E).
  assert (input_ok i') as Oi' by (rewrite Forall_forall in B5; apply B5; eapply nth_error_In; exact E').
  unfold raw_body in X.
  apply app_inj_zlen in X; [|lia]. destruct X as [X1 X].
  apply app_inj_zlen in X; [|destruct acp; [reflexivity|rewrite !W; reflexivity]]. destruct X as [X2 X].
  apply app_inj_zlen in X; [|destruct acp, ty; try reflexivity; rewrite !W; reflexivity]. destruct X as [X3 X].
  apply app_inj_zlen in X; [|rewrite !outpoint_len by assumption; reflexivity]. destruct X as [X4 X].
  apply pfx_string in X; [|assumption|assumption]. destruct X as [X5 X].
  apply app_inj_zlen in X; [|lia]. destruct X as [X6 X].
  apply app_inj_zlen in X; [|destruct Oi as [_ [_ [Oi _]]]; destruct Oi' as [_ [_ [Oi' _]]]; norm_spec; lia]. destruct X as [X7 X].
  assert (ty = Single -> exists o o', nth_error (t_outs t) n = Some o /\ nth_error (t_outs t') n' = Some o') as So.
  { intros Et. destruct (S Et) as [L L']. destruct (nth_error (t_outs t) n) as [o|] eqn:Eo; [|apply nth_error_None in Eo; lia].
    destruct (nth_error (t_outs t') n') as [o'|] eqn:Eo'; [|apply nth_error_None in Eo'; lia]. eauto. }
  apply app_inj_zlen in X.
  2: { destruct ty; [rewrite !W; reflexivity|]. destruct (So eq_refl) as [o [o' [-> ->]]]. rewrite !W. reflexivity. }
  destruct X as [X8 X9].
  assert (same_signed i i') as SS.
  { destruct (outpoint_inj i i' Oi Oi' X4). repeat split; assumption. }
  assert (collision hash (bip143_parts t ++ bip143_parts t') \/ (acp = false -> map outpoint_wire (t_ins t) = map outpoint_wire (t_ins t'))) as [K|K1].
  { destruct acp; [right; discriminate|]. apply (same_or_collide _ (bip143_parts t ++ bip143_parts t')) in X2; [|apply in_or_app; left; left; reflexivity|apply in_or_app; right; left; reflexivity]. destruct X2 as [X2|X2]; [|auto].
    right. intros _. apply outpoints_inj; assumption. }
  { auto. }
  assert (collision hash (bip143_parts t ++ bip143_parts t') \/ (acp = false -> ty = All -> map in_sequence (t_ins t) = map in_sequence (t_ins t'))) as [K|K2].
  { destruct acp; [right; discriminate|]. destruct ty; [|right; discriminate]. apply (same_or_collide _ (bip143_parts t ++ bip143_parts t')) in X3; [|apply in_or_app; left; right; left; reflexivity|apply in_or_app; right; right; left; reflexivity]. destruct X3 as [X3|X3]; [|auto].
    right. intros _ _. apply sequences_inj; assumption. }
  { auto. }
  assert (collision hash (bip143_parts t ++ bip143_parts t') \/ ((ty = All -> t_outs t = t_outs t') /\ (ty = Single -> nth_error (t_outs t) n = nth_error (t_outs t') n'))) as [K|[K3 K4]].
  { destruct ty.
    - apply (same_or_collide _ (bip143_parts t ++ bip143_parts t')) in X8; [|apply in_or_app; left; right; right; left; reflexivity|apply in_or_app; right; right; right; left; reflexivity]. destruct X8 as [X8|X8]; [|auto]. right. split; [|discriminate]. intros _.
      eapply concat_pfx; [exact pfx_output|exact output_wire_pos|assumption|assumption|exact X8].
    - destruct (So eq_refl) as [o [o' [Eo Eo']]]. rewrite Eo, Eo' in *. apply (same_or_collide _ (bip143_parts t ++ bip143_parts t')) in X8; [|apply in_or_app; left; do 3 right; apply in_map; eapply nth_error_In; exact Eo|apply in_or_app; right; do 3 right; apply in_map; eapply nth_error_In; exact Eo']. destruct X8 as [X8|X8]; [|auto].
      right. split; [discriminate|]. intros _. f_equal. destruct (pfx_output o o' [] []) as [? _]; auto.
      + rewrite Forall_forall in A6. apply A6. eapply nth_error_In; exact Eo.
      + rewrite Forall_forall in B6. apply B6. eapply nth_error_In; exact Eo'.
      + rewrite X8. reflexivity. }
  { auto. }
  right. repeat split; auto; try apply SS.
Qed.

Lemma body_ignores ty acp n i sc v t n' i' t' : covered_same ty acp n t n' t' -> same_signed i i' ->
  raw_body hash ty acp n i sc v t = raw_body hash ty acp n' i' sc v t'.
Proof.
  intros [A [B [C [D [E F]]]]] [G [I J]]. unfold raw_body, outpoint_wire at 2 4. rewrite A, B, G, I, J. repeat f_equal.
  - destruct acp; [reflexivity|]. rewrite C; reflexivity.
  - destruct acp; [reflexivity|]. destruct ty; [|reflexivity]. rewrite D; reflexivity.
  - destruct ty; [rewrite E; reflexivity|]. rewrite F; reflexivity.
Qed.
End Bind.

(** * the original algorithm *)

Lemma lib_ins ty acp n code t : t_ins (lib_tx ty acp n code t) = t_ins (legacy_tx ty acp n code t).
Proof. destruct ty; reflexivity. Qed.
Lemma lib_version ty acp n code t : t_version (lib_tx ty acp n code t) = t_version t /\ t_lock (lib_tx ty acp n code t) = t_lock t /\ t_witness (lib_tx ty acp n code t) = None.
Proof. destruct ty; repeat split. Qed.

Lemma legacy_ins_split ty acp n code t i : nth_error (t_ins t) n = Some i ->
  t_ins (legacy_tx ty acp n code t) =
  if acp then [with_script code i]
  else map (other_input ty) (firstn n (t_ins t)) ++ with_script code i :: map (other_input ty) (skipn (S n) (t_ins t)).
Proof. intros E. unfold legacy_tx. cbn [t_ins]. rewrite (nth_one _ n i E). reflexivity. Qed.

Lemma other_input_ok ty i : input_ok i -> input_ok (other_input ty i).
Proof.
  intros [A [B [C D]]]. norm_spec. unfold input_ok. destruct ty; cbn [other_input with_script with_sequence in_txid in_index in_script in_sequence];
    repeat split; norm_spec; try assumption; try reflexivity.
Qed.

Lemma lib_ok ty acp n code t i : transaction_ok t -> nth_error (t_ins t) n = Some i -> (ty = Single -> (n < length (t_outs t))%nat) ->
  len code < 2 ^ 64 -> transaction_ok (lib_tx ty acp n code t) /\ bip144 (lib_tx ty acp n code t).
Proof.
  intros [A1 [A2 [A3 [A4 [A5 [A6 _]]]]]] E S C.
  destruct (lib_version ty acp n code t) as [V [L Wn]]. split; [|unfold bip144; rewrite Wn; exact I].
  unfold transaction_ok. rewrite V, L, Wn, lib_ins, (legacy_ins_split ty acp n code t i E). norm_count. norm_spec.
  destruct (Forall_parts _ _ _ _ E A5) as [Oi [Fa Fb]].
  assert (input_ok (with_script code i)) as Ow.
  { destruct Oi as [O1 [O2 [O3 _]]]. repeat split; assumption. }
  pose proof (nth_lt _ _ _ E) as Ln.
  split; [exact A1|]. split; [exact A2|]. split; [|split; [|split; [|split; [|exact I]]]].
  - destruct acp; [unfold zlen; cbn [length]; lia|]. rewrite zlen_app, zlen_cons, !zlen_map.
    rewrite (nth_split _ n i E), zlen_app, zlen_cons in A3. exact A3.
  - destruct ty; [exact A4|]. unfold lib_tx, single_tx, single_outs. cbn [t_outs].
    rewrite !zlen_app. unfold zlen. rewrite !repeat_length, firstn_length, skipn_length. specialize (S eq_refl). unfold zlen in A3. lia.
  - destruct acp; [constructor; [exact Ow|constructor]|]. apply Forall_app. split; [|constructor; [exact Ow|]]; apply Forall_map;
      (eapply Forall_impl; [|eassumption]; apply other_input_ok).
  - destruct ty; [exact A6|]. unfold lib_tx, single_tx, single_outs. cbn [t_outs].
    assert (output_ok null_output) as On by (split; reflexivity).
    assert (forall k, Forall output_ok (repeat null_output k)) as Fr.
    { intros k. apply Forall_forall. intros x X. apply repeat_spec in X. subst. exact On. }
    apply Forall_app. split; [apply Fr|]. apply Forall_app. split; [|apply Fr].
    apply Forall_forall. intros x X. rewrite Forall_forall in A6. apply A6.
    apply (in_or_app (firstn n (t_outs t)) (skipn n (t_outs t))) in X || idtac.
    rewrite <- (firstn_skipn n (t_outs t)). apply in_or_app. right. rewrite <- (firstn_skipn 1 (skipn n (t_outs t))). apply in_or_app. auto.
Qed.

Lemma map_inv {A B} (f g : A -> B) (h : A -> A) l : (forall a, f (h a) = g a) -> map f (map h l) = map g l.
Proof. intros E. rewrite map_map. apply map_ext. exact E. Qed.

Lemma lib_outpoints ty n code t i : nth_error (t_ins t) n = Some i ->
  map outpoint_wire (t_ins (lib_tx ty false n code t)) = map outpoint_wire (t_ins t).
Proof.
  intros E. rewrite lib_ins, (legacy_ins_split ty false n code t i E). rewrite map_app. cbn [map].
  rewrite !(map_inv outpoint_wire outpoint_wire) by (intros; destruct ty; reflexivity).
  rewrite (nth_split _ n i E) at 3. rewrite map_app. reflexivity.
Qed.
Lemma lib_sequences n code t i : nth_error (t_ins t) n = Some i ->
  map in_sequence (t_ins (lib_tx All false n code t)) = map in_sequence (t_ins t).
Proof.
  intros E. rewrite lib_ins, (legacy_ins_split All false n code t i E). rewrite map_app. cbn [map].
  rewrite !(map_inv in_sequence in_sequence) by (intros; reflexivity).
  rewrite (nth_split _ n i E) at 3. rewrite map_app. reflexivity.
Qed.
Lemma lib_scripts ty n code t i : nth_error (t_ins t) n = Some i ->
  map in_script (t_ins (lib_tx ty false n code t)) = repeat [] n ++ code :: repeat [] (length (t_ins t) - S n).
Proof.
  intros E. rewrite lib_ins, (legacy_ins_split ty false n code t i E). rewrite map_app. cbn [map].
  rewrite !(map_inv in_script (fun _ => [])) by (intros; destruct ty; reflexivity).
  rewrite !map_const, firstn_length, skipn_length. pose proof (nth_lt _ _ _ E). rewrite Nat.min_l by lia. reflexivity.
Qed.

(* one entry different from the default, at a position *)
Lemma spot_nth {A} (d x : A) n k m : (m < n + S k)%nat ->
  nth_error (repeat d n ++ x :: repeat d k) m = Some (if Nat.eqb m n then x else d).
Proof.
  intros L. destruct (Nat.eqb_spec m n) as [->|N].
  - rewrite nth_error_app2; rewrite repeat_length; [|lia]. rewrite Nat.sub_diag. reflexivity.
  - destruct (Nat.lt_ge_cases m n) as [G|G].
    + rewrite nth_error_app1 by (rewrite repeat_length; exact G). apply nth_error_repeat, G.
    + rewrite nth_error_app2 by (rewrite repeat_length; exact G). rewrite repeat_length.
      destruct (m - n)%nat as [|j] eqn:J; [lia|]. cbn [nth_error]. apply nth_error_repeat. lia.
Qed.

Lemma spot_eq {A} (d x : A) n k x' n' k' : repeat d n ++ x :: repeat d k = repeat d n' ++ x' :: repeat d k' ->
  x = x' /\ (x <> d -> n = n').
Proof.
  intros E. assert (n + S k = n' + S k')%nat as L.
  { apply (f_equal (@length A)) in E. rewrite !app_length in E. cbn [length] in E. rewrite !repeat_length in E. exact E. }
  pose proof (spot_nth d x n k n ltac:(lia)) as P. rewrite E, (spot_nth d x' n' k' n ltac:(lia)), Nat.eqb_refl in P.
  pose proof (spot_nth d x' n' k' n' ltac:(lia)) as Q. rewrite <- E, (spot_nth d x n k n' ltac:(lia)), Nat.eqb_refl in Q.
  injection P as P. injection Q as Q. destruct (Nat.eqb_spec n n') as [->|N].
  - rewrite Nat.eqb_refl in Q. auto.
  - destruct (Nat.eqb_spec n' n); [congruence|]. split; congruence.
Qed.

Lemma lib_eq ty acp n i code t n' i' code' t' : transaction_ok t -> transaction_ok t' ->
  nth_error (t_ins t) n = Some i -> nth_error (t_ins t') n' = Some i' ->
  (ty = Single -> (n < length (t_outs t))%nat /\ (n' < length (t_outs t'))%nat) ->
  lib_tx ty acp n code t = lib_tx ty acp n' code' t' ->
  covered_same ty acp n t n' t' /\ (acp = true \/ code <> [] -> same_signed i i') /\ code = code'.
Proof.
  intros Ok1 Ok2 E E' S X.
  pose proof (f_equal t_version X) as Xv. pose proof (f_equal t_lock X) as Xl.
  destruct (lib_version ty acp n code t) as [V [L _]]. rewrite V in Xv. rewrite L in Xl. destruct (lib_version ty acp n' code' t') as [V' [L' _]]. rewrite V' in Xv. rewrite L' in Xl.
  pose proof (f_equal t_ins X) as Xi. pose proof (f_equal t_outs X) as Xo.
  assert ((ty = All -> t_outs t = t_outs t') /\ (ty = Single -> nth_error (t_outs t) n = nth_error (t_outs t') n')) as [K3 K4].
  { destruct ty; [split; [auto|discriminate]|]. split; [discriminate|]. intros _. destruct (S eq_refl) as [Ln Ln'].
    destruct (nth_error (t_outs t) n) as [o|] eqn:Eo; [|apply nth_error_None in Eo; lia].
    destruct (nth_error (t_outs t') n') as [o'|] eqn:Eo'; [|apply nth_error_None in Eo'; lia].
    unfold lib_tx, single_tx, single_outs in Xo. cbn [t_outs] in Xo. rewrite (nth_one _ n o Eo), (nth_one _ n' o' Eo') in Xo.
    apply spot_eq in Xo. destruct Xo as [-> _]. reflexivity. }
  destruct acp.
  - rewrite !lib_ins, (legacy_ins_split _ _ _ _ _ i E), (legacy_ins_split _ _ _ _ _ i' E') in Xi. injection Xi as X1 X2 X3 X4.
    split; [|split; [intros _; repeat split; assumption|assumption]].
    split; [exact Xv|]. split; [exact Xl|]. split; [discriminate|]. split; [discriminate|]. auto.
  - assert (map outpoint_wire (t_ins t) = map outpoint_wire (t_ins t')) as K1.
    { rewrite <- (lib_outpoints ty n code t i E), <- (lib_outpoints ty n' code' t' i' E'), Xi. reflexivity. }
    assert (ty = All -> map in_sequence (t_ins t) = map in_sequence (t_ins t')) as K2.
    { intros ->. rewrite <- (lib_sequences n code t i E), <- (lib_sequences n' code' t' i' E'), Xi. reflexivity. }
    assert (repeat [] n ++ code :: repeat [] (length (t_ins t) - Datatypes.S n) = repeat [] n' ++ code' :: repeat [] (length (t_ins t') - Datatypes.S n')) as K5.
    { rewrite <- (lib_scripts ty n code t i E), <- (lib_scripts ty n' code' t' i' E'), Xi. reflexivity. }
    apply spot_eq in K5. destruct K5 as [Kc Kn].
    split; [|split; [|exact Kc]].
    + split; [exact Xv|]. split; [exact Xl|]. auto.
    + intros [|Nc]; [discriminate|]. specialize (Kn Nc). subst n'.
      assert (with_script code i = with_script code' i') as Ws.
      { rewrite !lib_ins, (legacy_ins_split _ _ _ _ _ i E), (legacy_ins_split _ _ _ _ _ i' E') in Xi.
        assert (length (map (other_input ty) (firstn n (t_ins t))) = length (map (other_input ty) (firstn n (t_ins t')))) as Le.
        { rewrite !map_length, !firstn_length. pose proof (nth_lt _ _ _ E). pose proof (nth_lt _ _ _ E'). lia. }
        apply app_inj_zlen in Xi; [|unfold zlen; lia]. destruct Xi as [_ Xi]. injection Xi. intros _ A B C D.
        unfold with_script. congruence. }
      unfold with_script in Ws. injection Ws as W1 W2 W3 W4. repeat split; assumption.
Qed.

Lemma lib_ignores ty acp n i code t n' i' t' :
  nth_error (t_ins t) n = Some i -> nth_error (t_ins t') n' = Some i' ->
  covered_same ty acp n t n' t' -> same_signed i i' -> (acp = false \/ ty = Single -> n = n') -> (ty = Single -> length (t_ins t) = length (t_ins t')) ->
  Forall input_ok (t_ins t) -> Forall input_ok (t_ins t') ->
  lib_tx ty acp n code t = lib_tx ty acp n' code t'.
Proof.
  intros E E' [A [B [C [D [F G]]]]] [I1 [I2 I3]] N Lz Fi Fi'.
  assert (with_script code i = with_script code i') as Ew by (unfold with_script; congruence).
  assert (t_ins (legacy_tx ty acp n code t) = t_ins (legacy_tx ty acp n' code t')) as Ei.
  { rewrite (legacy_ins_split _ _ _ _ _ i E), (legacy_ins_split _ _ _ _ _ i' E'). destruct acp; [congruence|].
    assert (n = n') by auto. subst n'. rewrite Ew. specialize (C eq_refl). specialize (D eq_refl).
    assert (map (other_input ty) (t_ins t) = map (other_input ty) (t_ins t')) as M.
    { clear - C D Fi Fi'. revert C D Fi'. generalize (t_ins t'). revert Fi. generalize (t_ins t).
      induction 1 as [|x l Ox Fl IH]; intros [|y m] C D Fm; try discriminate C; [reflexivity|].
      inversion Fm; subst. cbn [map] in *. injection C as C1 C2. destruct (outpoint_inj x y) as [O1 O2]; try assumption. f_equal.
      - destruct ty; unfold other_input, with_script, with_sequence; cbn [in_txid in_index in_script in_sequence]; [|congruence].
        specialize (D eq_refl). injection D as D1 _. congruence.
      - apply IH; try assumption. intros T. specialize (D T). injection D as _ D. exact D. }
    rewrite <- !firstn_map, <- !(skipn_map (other_input ty)), M. reflexivity. }
  destruct ty.
  - unfold lib_tx, legacy_tx in *. cbn [t_ins] in Ei. rewrite Ei, A, B, F; reflexivity.
  - assert (n = n') by auto. subst n'. unfold lib_tx, single_tx. rewrite Ei, Lz by reflexivity. cbn [legacy_tx t_version t_lock]. rewrite A, B.
    f_equal. unfold single_outs. do 2 f_equal. specialize (G eq_refl).
    destruct (nth_error (t_outs t) n) as [o|] eqn:Eo.
    + rewrite (nth_one _ n o Eo). symmetry in G. rewrite (nth_one _ n o G). reflexivity.
    + symmetry in G. apply nth_error_None in Eo, G. rewrite !skipn_all2 by assumption. reflexivity.
Qed.

(* SINGLE|ANYONECANPAY covers the number of inputs *)
Lemma single_counts acp n code t n' code' t' : (n < length (t_ins t))%nat -> (n' < length (t_ins t'))%nat ->
  (n < length (t_outs t))%nat -> (n' < length (t_outs t'))%nat ->
  lib_tx Single acp n code t = lib_tx Single acp n' code' t' -> length (t_ins t) = length (t_ins t').
Proof.
  intros L1 L2 L3 L4 X. apply (f_equal t_outs) in X. unfold lib_tx, single_tx, single_outs in X. cbn [t_outs] in X.
  apply (f_equal (@length output)) in X. rewrite !app_length, !repeat_length, !firstn_length, !skipn_length in X. lia.
Qed.

Lemma single_outs_spec k n (outs : list output) : (n < length outs)%nat -> (n < k)%nat ->
  (single_outs k n outs = repeat null_output n ++ firstn 1 (skipn n outs) <-> S n = k).
Proof.
  intros L K. unfold single_outs. split; intros X.
  - apply (f_equal (@length output)) in X. rewrite !app_length, !repeat_length, !firstn_length, !skipn_length in X. lia.
  - subst k. rewrite Nat.sub_diag. cbn [repeat]. rewrite app_nil_r. reflexivity.
Qed.
