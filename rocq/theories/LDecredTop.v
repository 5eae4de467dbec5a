(* Lemmas about MDecred.v: what digests commit to, and the statements of PDecred.v *)
From Coq Require Import String.
From Verif Require Import Py LBase MNet MUtils MShared MScript MTx MDecred SNum SNet SHash SScript STx SSig SDecred LNet LUtils LVarint LScript LTx LTxParse LTxWire LSig LSigBind LSigTop LDecred LDecredSig.
Open Scope list_scope.
Open Scope Z_scope.
Ltac Zify.zify_post_hook ::= idtac.

Lemma pfx_dinput : pfx dinput_ok dinput_wire.
Proof.
  intros a b r s [A1 [A2 [A3 A4]]] [B1 [B2 [B3 B4]]] E. norm_spec. unfold dinput_wire in E. rewrite <- !app_assoc in E.
  apply app_inj_zlen in E; [|lia]. destruct E as [E1 E]. apply app_inj_zlen in E; [|lia]. destruct E as [E2 E].
  apply app_inj_zlen in E; [|lia]. destruct E as [E3 E]. apply app_inj_zlen in E; [|lia]. destruct E as [E4 E].
  destruct a, b. cbn in *. subst. auto.
Qed.
Lemma pfx_doutput : pfx doutput_ok doutput_wire.
Proof.
  intros a b r s [A1 [A2 A3]] [B1 [B2 B3]] E. norm_spec. unfold doutput_wire in E. rewrite <- !app_assoc in E.
  apply app_inj_zlen in E; [|lia]. destruct E as [E1 E]. apply app_inj_zlen in E; [|lia]. destruct E as [E2 E].
  apply pfx_string in E; [|exact A3|exact B3]. destruct E as [E3 E]. destruct a, b. cbn in *. subst. auto.
Qed.
Lemma pfx_dspend : pfx dspend_ok dspend_wire.
Proof.
  intros a b r s [A1 [A2 [A3 A4]]] [B1 [B2 [B3 B4]]] E. norm_spec. unfold dspend_wire in E. rewrite <- !app_assoc in E.
  apply app_inj_zlen in E; [|lia]. destruct E as [E1 E]. apply app_inj_zlen in E; [|lia]. destruct E as [E2 E].
  apply app_inj_zlen in E; [|lia]. destruct E as [E3 E]. apply pfx_string in E; [|exact A4|exact B4]. destruct E as [E4 E].
  destruct a, b. cbn in *. subst. auto.
Qed.

Definition dprefix_ok (t : dtransaction) : Prop :=
  zlen (d_version t) = 4 /\ zlen (d_lock t) = 4 /\ zlen (d_expiry t) = 4 /\
  zlen (d_ins t) < 2 ^ 64 /\ zlen (d_outs t) < 2 ^ 64 /\ Forall dinput_ok (d_ins t) /\ Forall doutput_ok (d_outs t).

Lemma dbody_prefix a b r s : dprefix_ok a -> dprefix_ok b -> dprefix_body a ++ r = dprefix_body b ++ s ->
  d_ins a = d_ins b /\ d_outs a = d_outs b /\ d_lock a = d_lock b /\ d_expiry a = d_expiry b /\ r = s.
Proof.
  intros [A1 [A2 [A3 [A4 [A5 [A6 A7]]]]]] [B1 [B2 [B3 [B4 [B5 [B6 B7]]]]]] E. unfold dprefix_body in E. rewrite <- !app_assoc in E.
  apply (pfx_vector _ _ pfx_dinput) in E; [|split; assumption|split; assumption]. destruct E as [-> E].
  apply (pfx_vector _ _ pfx_doutput) in E; [|split; assumption|split; assumption]. destruct E as [-> E].
  apply app_inj_zlen in E; [|lia]. destruct E as [-> E]. apply app_inj_zlen in E; [|lia]. destruct E as [-> E]. auto.
Qed.
Lemma dprefix_inj a b : dprefix_ok a -> dprefix_ok b -> dprefix_wire a = dprefix_wire b ->
  firstn 2 (d_version a) = firstn 2 (d_version b) /\ d_ins a = d_ins b /\ d_outs a = d_outs b /\ d_lock a = d_lock b /\ d_expiry a = d_expiry b.
Proof.
  intros A B E. unfold dprefix_wire in E. apply app_inj_zlen in E.
  2:{ destruct A as [A _], B as [B _]. unfold zlen in *. rewrite !firstn_length. lia. }
  destruct E as [E1 E]. split; [exact E1|]. apply app_inv_head in E. rewrite <- (app_nil_r (dprefix_body a)), <- (app_nil_r (dprefix_body b)) in E.
  apply dbody_prefix in E; try assumption. tauto.
Qed.
Lemma dsigning_inj v v' s s' : zlen v = 4 -> zlen v' = 4 -> zlen s < 2 ^ 64 -> zlen s' < 2 ^ 64 -> Forall (fun x => zlen x < 2 ^ 64) s -> Forall (fun x => zlen x < 2 ^ 64) s' ->
  dsigning_wire v s = dsigning_wire v' s' -> s = s'.
Proof.
  intros V V' S S' F F' E. unfold dsigning_wire in E. apply app_inj_zlen in E.
  2:{ unfold zlen in *. rewrite !firstn_length. lia. }
  destruct E as [_ E]. apply app_inv_head in E. rewrite <- (app_nil_r (vector_wire _ s)), <- (app_nil_r (vector_wire _ s')) in E.
  apply (pfx_vector _ _ pfx_string) in E; [|split; assumption|split; assumption]. tauto.
Qed.

Lemma dwire_counts t : dtransaction_ok t -> zlen (d_ins t) <= 100000 /\ zlen (d_outs t) <= 100000 /\ zlen (d_spends t) <= 100000.
Proof.
  intros [A [B [C [_ [_ [Fi [Fo [Fs L]]]]]]]]. norm_spec. unfold dwire, dprefix_body, vector_wire in L. norm_count. rewrite !zlen_app in L.
  assert (zlen (d_ins t) <= zlen (concat (map dinput_wire (d_ins t)))).
  { apply count_bytes. intros a I. pose proof (Forall_in _ _ _ Fi I) as O. destruct O as [O _]. norm_spec. unfold dinput_wire. rewrite zlen_app.
    match goal with |- context [zlen (?a ++ ?b)] => pose proof (zlen_nonneg (a ++ b)) end. lia. }
  assert (zlen (d_outs t) <= zlen (concat (map doutput_wire (d_outs t)))).
  { apply count_bytes. intros a I. pose proof (Forall_in _ _ _ Fo I) as O. destruct O as [O _]. norm_spec. unfold doutput_wire. rewrite zlen_app.
    match goal with |- context [zlen (?a ++ ?b)] => pose proof (zlen_nonneg (a ++ b)) end. lia. }
  assert (zlen (d_spends t) <= zlen (concat (map dspend_wire (d_spends t)))).
  { apply count_bytes. intros a I. pose proof (Forall_in _ _ _ Fs I) as O. destruct O as [O _]. norm_spec. unfold dspend_wire. rewrite zlen_app.
    match goal with |- context [zlen (?a ++ ?b)] => pose proof (zlen_nonneg (a ++ b)) end. lia. }
  repeat match type of L with context [zlen ?x] => lazymatch goal with _ : 0 <= zlen x |- _ => fail | _ => pose proof (zlen_nonneg x) end end. lia.
Qed.
Lemma dtx_prefix_ok t : dtransaction_ok t -> dprefix_ok t.
Proof.
  intros O. destruct (dwire_counts t O) as [A [B _]]. destruct O as [V [L [E [_ [_ [Fi [Fo _]]]]]]]. norm_spec. unfold dprefix_ok.
  repeat split; try assumption; lia.
Qed.
(* the format tells the transaction *)
Lemma dwire_inj a b : dtransaction_ok a -> dtransaction_ok b -> dwire a = dwire b -> a = b.
Proof.
  intros A B E. unfold dwire in E. pose proof (dtx_prefix_ok a A) as A'. pose proof (dtx_prefix_ok b B) as B'.
  apply app_inj_zlen in E; [|destruct A' as [-> _], B' as [-> _]; reflexivity]. destruct E as [E1 E].
  apply dbody_prefix in E; try assumption. destruct E as [E2 [E3 [E4 [E5 E]]]].
  rewrite <- (app_nil_r (vector_wire _ (d_spends a))), <- (app_nil_r (vector_wire _ (d_spends b))) in E.
  destruct (dwire_counts a A) as [_ [_ LA]]. destruct (dwire_counts b B) as [_ [_ LB]].
  destruct A as [_ [_ [_ [_ [_ [_ [_ [FA _]]]]]]]]. destruct B as [_ [_ [_ [_ [_ [_ [_ [FB _]]]]]]]].
  apply (pfx_vector _ _ pfx_dspend) in E; [|split; [lia|assumption]|split; [lia|assumption]]. destruct E as [E6 _].
  destruct a, b. cbn in *. subst. reflexivity.
Qed.

(** * the transactions that are signed *)

Lemma dnull_ok : doutput_ok dnull_output.
Proof. repeat split. Qed.
Lemma dother_ok ty i : dinput_ok i -> dinput_ok (dother_input ty i).
Proof. intros [A [B [C D]]]. destruct ty; repeat split; assumption. Qed.
Lemma Forall_sub {A} (P : A -> Prop) l n : Forall P l -> Forall P (firstn n l) /\ Forall P (skipn n l).
Proof. intros F. rewrite <- (firstn_skipn n l) in F. apply Forall_app in F. exact F. Qed.
Lemma Forall_repeat {A} (P : A -> Prop) a n : P a -> Forall P (repeat a n).
Proof. intros X. apply Forall_forall. intros b I. apply repeat_spec in I. subst. exact X. Qed.

Lemma parts_len {A} (l : list A) n : (n < length l)%nat -> length (firstn n l) = n /\ length (firstn 1 (skipn n l)) = 1%nat /\ length (skipn (S n) l) = (length l - S n)%nat.
Proof. intros L. rewrite !firstn_length, !skipn_length. lia. Qed.

Lemma dsigned_ins_len ty n t : (n < length (d_ins t))%nat -> length (d_ins (dsigned_tx ty false n t)) = length (d_ins t).
Proof.
  intros L. unfold dsigned_tx, with_ins_outs. cbn [d_ins]. rewrite !app_length, !map_length. destruct (parts_len (d_ins t) n L) as [-> [-> ->]]. lia.
Qed.
Lemma dsigned_ins_ok ty anyone n t : Forall dinput_ok (d_ins t) -> Forall dinput_ok (d_ins (dsigned_tx ty anyone n t)).
Proof.
  intros F. destruct (Forall_sub _ _ n F) as [F1 F2]. destruct (Forall_sub _ _ (S n) F) as [_ F3]. destruct (Forall_sub _ _ 1 F2) as [F4 _].
  unfold dsigned_tx, with_ins_outs. cbn [d_ins]. destruct anyone; [exact F4|].
  rewrite !Forall_app. split; [|split; [exact F4|]]; apply Forall_map; (eapply Forall_impl; [exact (dother_ok ty)|assumption]).
Qed.
Lemma dlib_ok ty n t : dtransaction_ok t -> (n < length (d_ins t))%nat -> dprefix_ok (dlib_tx ty n t).
Proof.
  intros O L. destruct (dwire_counts t O) as [Ci [Co _]]. pose proof O as O'. destruct O' as [V [Lk [E [_ [_ [Fi [Fo _]]]]]]]. norm_spec.
  unfold dprefix_ok. unfold dlib_tx, with_ins_outs. cbn [d_version d_ins d_outs d_lock d_expiry].
  repeat (split; [assumption|]). split; [unfold zlen in *; rewrite dsigned_ins_len by exact L; lia|].
  assert (Forall doutput_ok (firstn 1 (skipn n (d_outs t)))) as F1 by (apply Forall_sub, Forall_sub, Fo).
  split; [|split; [apply dsigned_ins_ok, Fi|]].
  - destruct ty; [lia|]. unfold zlen in *. rewrite !app_length, !repeat_length, firstn_length, skipn_length. lia.
  - destruct ty; [exact Fo|]. rewrite !Forall_app. split; [apply Forall_repeat, dnull_ok|]. split; [exact F1|apply Forall_repeat, dnull_ok].
Qed.
Lemma dsigned_ok ty anyone n t : dtransaction_ok t -> (n < length (d_ins t))%nat -> dprefix_ok (dsigned_tx ty anyone n t).
Proof.
  intros O L. destruct (dwire_counts t O) as [Ci [Co _]]. pose proof O as O'. destruct O' as [V [Lk [E [_ [_ [Fi [Fo _]]]]]]]. norm_spec.
  unfold dprefix_ok. split; [assumption|]. split; [assumption|]. split; [assumption|]. split.
  - destruct anyone.
    + unfold dsigned_tx, with_ins_outs, zlen. cbn [d_ins]. rewrite firstn_length. lia.
    + unfold zlen in *. rewrite dsigned_ins_len by exact L. lia.
  - assert (Forall doutput_ok (firstn 1 (skipn n (d_outs t)))) as F1 by (apply Forall_sub, Forall_sub, Fo).
    split; [|split; [apply dsigned_ins_ok, Fi|]]; unfold dsigned_tx, with_ins_outs; cbn [d_outs].
    + destruct ty; [lia|]. unfold zlen in *. rewrite !app_length, !repeat_length, firstn_length, skipn_length. lia.
    + destruct ty; [exact Fo|]. rewrite !Forall_app. split; [apply Forall_repeat, dnull_ok|exact F1].
Qed.
Lemma dscripts_ok k n code : (n < k)%nat -> Z.of_nat k <= 100000 -> zlen code < 2 ^ 64 ->
  zlen (dscripts k n code) < 2 ^ 64 /\ Forall (fun x : bytes => zlen x < 2 ^ 64) (dscripts k n code).
Proof.
  intros L K C. unfold dscripts. split.
  - unfold zlen. rewrite app_length. cbn [length]. rewrite !repeat_length. lia.
  - apply Forall_app. split; [apply Forall_repeat; reflexivity|]. constructor; [exact C|]. apply Forall_repeat. reflexivity.
Qed.
Lemma dscripts_len k n code : (n < k)%nat -> length (dscripts k n code) = k.
Proof. intros L. unfold dscripts. rewrite app_length. cbn [length]. rewrite !repeat_length. lia. Qed.

Section Binds.
Context (h : bytes -> bytes) (h32 : forall m, zlen (h m) = 32).

Lemma three_parts k p s k' p' s' : h (le_bytes 4 k ++ h p ++ h s) = h (le_bytes 4 k' ++ h p' ++ h s') ->
  0 <= k < 2 ^ 32 -> 0 <= k' < 2 ^ 32 -> forall l,
  incl [le_bytes 4 k ++ h p ++ h s; p; s] l -> incl [le_bytes 4 k' ++ h p' ++ h s'; p'; s'] l ->
  collision h l \/ (k = k' /\ p = p' /\ s = s').
Proof.
  intros E K K' l I I'.
  apply (same_or_collide _ l) in E; [|apply I; left; reflexivity|apply I'; left; reflexivity].
  destruct E as [E|]; [|auto]. apply app_inj_zlen in E.
  2:{ rewrite !zlen_le_bytes by lia. reflexivity. }
  destruct E as [Ek E]. apply le4_inj in Ek; try assumption. apply app_inj_zlen in E; [|rewrite !h32; reflexivity]. destruct E as [Ep Es].
  apply (same_or_collide _ l) in Ep; [|apply I; right; left; reflexivity|apply I'; right; left; reflexivity]. destruct Ep as [Ep|]; [|auto].
  apply (same_or_collide _ l) in Es; [|apply I; do 2 right; left; reflexivity|apply I'; do 2 right; left; reflexivity]. destruct Es as [Es|]; auto.
Qed.

Lemma type_32 ty anyone : 0 <= type_number ty anyone < 2 ^ 32.
Proof. destruct ty, anyone; split; vm_compute; congruence. Qed.
Lemma dbinds ty anyone n code t ty' anyone' n' code' t' : dtransaction_ok t -> dtransaction_ok t' ->
  (n < length (d_ins t))%nat -> (n' < length (d_ins t'))%nat -> (n < length (d_spends t))%nat -> (n' < length (d_spends t'))%nat ->
  (ty = Single -> n < length (d_outs t))%nat -> (ty' = Single -> n' < length (d_outs t'))%nat ->
  len code < 2 ^ 64 -> len code' < 2 ^ 64 ->
  h (dlib_preimage h ty anyone n code t) = h (dlib_preimage h ty' anyone' n' code' t') ->
  collision h (dmessages h ty anyone n code t ++ dmessages h ty' anyone' n' code' t') \/
  (ty = ty' /\ anyone = anyone' /\ dcovered_same ty n t n' t' /\ code = code' /\
   (code <> [] -> n = n' /\ nth_error (d_ins t) n = nth_error (d_ins t') n')).
Proof.
  intros O O' Li Li' Ls Ls' Lo Lo' C C' E. unfold dlib_preimage in E.
  pose proof (three_parts _ _ _ _ _ _ E (type_32 ty anyone) (type_32 ty' anyone') (dmessages h ty anyone n code t ++ dmessages h ty' anyone' n' code' t')
    (incl_appl _ (incl_refl _)) (incl_appr _ (incl_refl _))) as E'. clear E. rename E' into E.
  - destruct E as [|[Ek [Ep Es]]]; [auto|right]. apply type_number_inj in Ek. destruct Ek as [<- <-].
    apply dprefix_inj in Ep; try (apply dlib_ok; assumption). destruct Ep as [Ev [Ei [Eo [El Ee]]]].
    unfold dlib_tx, with_ins_outs in *. cbn [d_version d_ins d_outs d_lock d_expiry] in *.
    destruct (dwire_counts t O) as [_ [_ Lw]]. destruct (dwire_counts t' O') as [_ [_ Lw']].
    pose proof (dscripts_ok _ _ _ Ls Lw C) as [S1 S2]. pose proof (dscripts_ok _ _ _ Ls' Lw' C') as [S1' S2'].
    apply dsigning_inj in Es; try assumption; [|apply O|apply O'].
    pose proof (f_equal (@length _) Es) as El2. rewrite !dscripts_len in El2 by assumption.
    unfold dscripts in Es. apply spot_eq in Es. destruct Es as [Ec En].
    assert (length (d_ins t) = length (d_ins t')) as Lii.
    { rewrite <- (dsigned_ins_len ty n t Li), <- (dsigned_ins_len ty n' t' Li'), Ei. reflexivity. }
    split; [reflexivity|]. split; [reflexivity|]. split; [|split; [exact Ec|]].
    + unfold dcovered_same. split; [exact Ev|]. split; [exact El|]. split; [exact Ee|]. split.
      { apply (f_equal (map (dwith_sequence []))) in Ei. unfold dsigned_tx, with_ins_outs in Ei. cbn [d_ins] in Ei.
        rewrite !map_app, !map_map in Ei.
        rewrite !(map_ext (fun x => dwith_sequence [] (dother_input ty x)) (dwith_sequence [])) in Ei by (intros a; destruct ty; reflexivity).
        rewrite <- !map_app, !split_parts in Ei. exact Ei. }
      split; [|split; [|exact El2]].
      * intros ->. unfold dsigned_tx, with_ins_outs in Ei. cbn [d_ins] in Ei. rewrite !(map_idf (dother_input All)) in Ei by reflexivity. rewrite !split_parts in Ei.
        split; assumption.
      * intros ->. specialize (Lo eq_refl). specialize (Lo' eq_refl).
        destruct (nth_error (d_outs t) n) as [o|] eqn:No; [|apply nth_error_None in No; lia].
        destruct (nth_error (d_outs t') n') as [o'|] eqn:No'; [|apply nth_error_None in No'; lia].
        rewrite (nth_one _ _ _ No), (nth_one _ _ _ No') in Eo. cbn [app] in Eo. apply spot_eq in Eo. destruct Eo as [-> _]. reflexivity.
    + intros Nc. specialize (En Nc). subst n'. split; [reflexivity|].
      destruct (nth_error (d_ins t) n) as [i|] eqn:Ni; [|apply nth_error_None in Ni; lia].
      destruct (nth_error (d_ins t') n) as [i'|] eqn:Ni'; [|apply nth_error_None in Ni'; lia].
      unfold dsigned_tx, with_ins_outs in Ei. cbn [d_ins] in Ei. rewrite (nth_one _ _ _ Ni), (nth_one _ _ _ Ni') in Ei. cbn [app] in Ei.
      apply app_inj_zlen in Ei; [|unfold zlen; rewrite !map_length, !firstn_length; lia]. destruct Ei as [_ Ei]. injection Ei. intros _ ->. reflexivity.
Qed.

(* nothing else is covered *)
Lemma dignores ty anyone n code t t' : (n < length (d_ins t))%nat -> dcovered_same ty n t n t' -> nth_error (d_ins t) n = nth_error (d_ins t') n ->
  dlib_preimage h ty anyone n code t = dlib_preimage h ty anyone n code t'.
Proof.
  clear h32. intros L [V [Lk [E [I [A [S W]]]]]] N. unfold dlib_preimage. rewrite W. unfold dsigning_wire. rewrite V. do 3 f_equal.
  unfold dprefix_wire, dprefix_body, dlib_tx, with_ins_outs. cbn [d_version d_ins d_outs d_lock d_expiry]. rewrite V, Lk, E.
  assert (length (d_ins t) = length (d_ins t')) as Ll by (apply (f_equal (@length _)) in I; rewrite !map_length in I; exact I).
  f_equal. f_equal. destruct ty.
  - destruct (A eq_refl) as [Ai Ao]. unfold dsigned_tx, with_ins_outs. cbn [d_ins]. rewrite Ai, Ao. reflexivity.
  - specialize (S eq_refl). rewrite Ll. f_equal.
    + f_equal. unfold dsigned_tx, with_ins_outs. cbn [d_ins].
      destruct (nth_error (d_ins t) n) as [i|] eqn:Ni; [|apply nth_error_None in Ni; lia]. symmetry in N.
      rewrite (nth_one _ _ _ Ni), (nth_one _ _ _ N).
      assert (forall l m : list dinput, map (dwith_sequence []) l = map (dwith_sequence []) m -> map (dother_input Single) l = map (dother_input Single) m) as M.
      { intros l m X. apply (f_equal (map (dwith_sequence [0; 0; 0; 0]))) in X. rewrite !map_map in X. exact X. }
      f_equal; [apply M; rewrite <- !firstn_map, I; reflexivity|]. f_equal. apply M. rewrite <- !skipn_map, I. reflexivity.
    + f_equal. f_equal. f_equal. f_equal.
      destruct (nth_error (d_outs t) n) as [o|] eqn:No.
      * symmetry in S. rewrite (nth_one _ _ _ No), (nth_one _ _ _ S). reflexivity.
      * symmetry in S. apply nth_error_None in No. apply nth_error_None in S. rewrite !skipn_all2 by lia. reflexivity.
Qed.

(* where the library and Decred agree *)
Lemma dagree ty anyone n code t : length (d_spends t) = length (d_ins t) -> (n < length (d_ins t))%nat ->
  (anyone = true -> length (d_ins t) = 1%nat) -> (ty = Single -> S n = length (d_ins t)) ->
  dlib_preimage h ty anyone n code t = dpreimage h ty anyone n code t.
Proof.
  clear h32. intros W L A S. unfold dlib_preimage, dpreimage. rewrite W. f_equal.
  assert (dlib_tx ty n t = dsigned_tx ty anyone n t) as ->.
  { unfold dlib_tx, dsigned_tx, with_ins_outs. cbn [d_ins]. f_equal.
    - destruct anyone; [|reflexivity]. specialize (A eq_refl). destruct (d_ins t) as [|i [|j l]]; try discriminate A. cbn in L.
      replace n with 0%nat by lia. reflexivity.
    - destruct ty; [reflexivity|]. rewrite <- (S eq_refl), Nat.sub_diag. cbn [repeat]. rewrite app_nil_r. reflexivity. }
  f_equal. unfold dsigned_scripts. destruct anyone; [|reflexivity]. rewrite (A eq_refl). rewrite (A eq_refl) in L. replace n with 0%nat by lia. reflexivity.
Qed.

(* everywhere else they differ *)
Lemma dwrong ty anyone n code t : dtransaction_ok t -> (n < length (d_ins t))%nat -> (ty = Single -> n < length (d_outs t))%nat ->
  (anyone = true /\ (1 < length (d_ins t))%nat) \/ (ty = Single /\ S n <> length (d_ins t)) ->
  h (dlib_preimage h ty anyone n code t) = h (dpreimage h ty anyone n code t) ->
  collision h (dmessages h ty anyone n code t ++ dspec_messages h ty anyone n code t).
Proof.
  intros O L Lo W E. unfold dlib_preimage, dpreimage in E.
  pose proof (three_parts _ _ _ _ _ _ E (type_32 ty anyone) (type_32 ty anyone) (dmessages h ty anyone n code t ++ dspec_messages h ty anyone n code t)
    (incl_appl _ (incl_refl _)) (incl_appr _ (incl_refl _))) as E'. clear E. rename E' into E.
  - destruct E as [|[_ [Ep _]]]; [assumption|exfalso]. apply dprefix_inj in Ep; [|apply dlib_ok; assumption|apply dsigned_ok; assumption].
    destruct Ep as [_ [Ei [Eo _]]]. destruct W as [[-> W]|[-> W]].
    + apply (f_equal (@length _)) in Ei. unfold dlib_tx, with_ins_outs in Ei. cbn [d_ins] in Ei. rewrite dsigned_ins_len in Ei by exact L.
      unfold dsigned_tx, with_ins_outs in Ei. cbn [d_ins] in Ei. rewrite firstn_length in Ei. lia.
    + apply (f_equal (@length _)) in Eo. unfold dlib_tx, dsigned_tx, with_ins_outs in Eo. cbn [d_outs] in Eo.
      specialize (Lo eq_refl). rewrite !app_length, !repeat_length in Eo. destruct (parts_len (d_outs t) n Lo) as [_ [X _]]. rewrite X in Eo. lia.
Qed.
End Binds.

(** * objects *)

Section Net.
Context (H : hashes) (name : str) (net : network) (En : get_network name = Ok net) (In_ : In name decred_names).
Let D : decred_only net = Ok tt := decred_only_Ok name net En In_.

Lemma decred_readable n : readable net n.
Proof.
  apply (readable_spec name net n En). left. intros I.
  assert (forallb (fun s => negb (str_mem s upgraded_zcash)) decred_names = true) as F by (vm_compute; reflexivity).
  rewrite forallb_forall in F. specialize (F _ In_). apply str_mem_In in I. rewrite I in F. discriminate.
Qed.

(* every well-formed transaction is some object's *)
Definition mk_dtxin (i : dinput) : dtxin :=
  {| dti_outpoint := {| dop_tx_id := di_txid i; dop_index := di_index i; dop_tree := di_tree i; dop_bytes := di_txid i ++ di_index i ++ di_tree i |};
     dti_sequence := di_sequence i; dti_bytes := (di_txid i ++ di_index i ++ di_tree i) ++ di_sequence i |}.
Definition mk_dtxout (o : doutput) : dtxout :=
  {| dto_value := do_value o; dto_version := do_version o; dto_output_script_len := zlen (do_script o); dto_output_script := do_script o;
     dto_bytes := do_value o ++ do_version o ++ compactsize (zlen (do_script o)) ++ do_script o |}.
Definition mk_dwitness (s : dspend) : dwitness := dwitness_of (ds_value s) (ds_height s) (ds_index s) (ds_script s) [].
Lemma mk_dtxin_ok i : dinput_ok i -> dtxin_obj net (mk_dtxin i) /\ the_dinput (mk_dtxin i) = i.
Proof.
  intros [A [B [C E]]]. norm_spec. split; [|destruct i; reflexivity]. apply (dtxin_obj_iff net D). split; [|split; [exact E|reflexivity]].
  apply (doutpoint_obj_iff net D). auto.
Qed.
Lemma mk_dtxout_ok o : doutput_ok o -> dtxout_obj net (mk_dtxout o) /\ the_doutput (mk_dtxout o) = o.
Proof. intros [A [B C]]. norm_spec. split; [|destruct o; reflexivity]. apply (dtxout_obj_iff net D). auto. Qed.
Lemma mk_dwitness_ok s : dspend_ok s -> dwitness_obj net (mk_dwitness s) /\ the_dspend (mk_dwitness s) = s.
Proof.
  intros [A [B [C E]]]. norm_spec. unfold mk_dwitness. split.
  - apply (dwitness_obj_iff net D). cbn [dw_value dw_height dw_index dw_script_sig dw_stack_script dw_redeem_script dwitness_of]. rewrite app_nil_r. auto.
  - destruct s as [a b c e]. unfold the_dspend. cbn [dw_value dw_height dw_index dw_script_sig dwitness_of ds_value ds_height ds_index ds_script]. rewrite app_nil_r. reflexivity.
Qed.
Lemma mk_list {A B} (mk : A -> B) (the : B -> A) (ok : A -> Prop) (obj : B -> Prop) l : (forall a, ok a -> obj (mk a) /\ the (mk a) = a) -> Forall ok l ->
  Forall obj (map mk l) /\ map the (map mk l) = l.
Proof.
  intros M F. induction F as [|a l X F IH]; [split; [constructor|reflexivity]|]. destruct IH as [I1 I2]. destruct (M a X) as [M1 M2].
  cbn [map]. rewrite M2, I2. split; [constructor; assumption|reflexivity].
Qed.

Lemma top_rule v ins outs lt ex ws : Forall (dtxin_obj net) ins -> Forall (dtxout_obj net) outs -> Forall (dwitness_obj net) ws ->
  let d := {| d_version := v; d_ins := map the_dinput ins; d_outs := map the_doutput outs; d_lock := lt; d_expiry := ex; d_spends := map the_dspend ws |} in
  (dtransaction_ok d /\ exists t, DecredTx H net v ins outs lt ex ws = Ok t /\ dtx_obj H net t /\ the_dtx t = d) \/
  (~ dtransaction_ok d /\ DecredTx H net v ins outs lt ex ws = Err ValueError).
Proof.
  intros Fi Fo Fw d. rewrite (DecredTx_spec H net D).
  destruct (dbody_wire net D v ins outs lt ex ws Fi Fo Fw) as [B [_ [Gi [Go Gw]]]]. fold d in B, Gi, Go, Gw.
  destruct (dtx_args_ok v ins outs lt ex ws) eqn:A.
  - left. assert (dtx_obj H net (dtx_of H v ins outs lt ex ws)) as O by (apply (dobj_of H net D); assumption).
    split; [exact (proj2 (proj2 (proj2 (dtx_wire H net D _ O))))|]. exists (dtx_of H v ins outs lt ex ws). auto.
  - right. split; [|reflexivity]. intros [V [L [E [I [O [_ [_ [_ S]]]]]]]]. norm_count. norm_spec. unfold d in V, L, E, I, O. cbn [d_version d_lock d_expiry d_ins d_outs] in *.
    rewrite zlen_map in I. rewrite zlen_map in O. rewrite (dargs_fits net D) in A by assumption. fold d in A. unfold fits in A. norm_spec. apply Z.leb_gt in A. lia.
Qed.
Lemma top_exists d : dtransaction_ok d -> exists t, dtx_obj H net t /\ the_dtx t = d.
Proof.
  intros O. pose proof O as O'. destruct O' as [_ [_ [_ [_ [_ [Fi [Fo [Fs _]]]]]]]].
  destruct (mk_list mk_dtxin the_dinput _ _ _ mk_dtxin_ok Fi) as [Gi Ei]. destruct (mk_list mk_dtxout the_doutput _ _ _ mk_dtxout_ok Fo) as [Go Eo].
  destruct (mk_list mk_dwitness the_dspend _ _ _ mk_dwitness_ok Fs) as [Gs Es].
  destruct (top_rule (d_version d) _ _ (d_lock d) (d_expiry d) _ Gi Go Gs) as [[_ [t [_ [P Q]]]]|[N _]].
  - exists t. split; [exact P|]. rewrite Q, Ei, Eo, Es. destruct d; reflexivity.
  - elim N. rewrite Ei, Eo, Es. destruct d; exact O.
Qed.

Lemma top_witness t : dtx_obj H net t -> decred_prefix t = Ok (dprefix_wire (the_dtx t)) /\ decred_witness t = Ok (dwitness_wire (the_dtx t)) /\
  decred_witness_signing t = Ok (dsigning_wire (d_version (the_dtx t)) (map ds_script (d_spends (the_dtx t)))).
Proof.
  intros O. pose proof O as O'. apply (dtx_obj_iff H net D) in O'. destruct O' as [Fi [Fo [Fw [A _]]]].
  destruct (dbody_wire net D (dtx_version t) _ _ (dtx_lock_time t) (dtx_expiry t) _ Fi Fo Fw) as [_ [P _]].
  unfold dtx_args_ok in A. rewrite !andb_true_iff in A. split; [|split].
  - unfold decred_prefix, decred_prefix_of. rewrite !VarInt_len by apply zlen_nonneg.
    destruct (Z.ltb_spec (zlen (dtx_tx_ins t)) (2 ^ 64)); [|lia]. destruct (Z.ltb_spec (zlen (dtx_tx_outs t)) (2 ^ 64)); [|lia]. cbn [bind vi_bytes].
    f_equal. exact P.
  - unfold decred_witness. rewrite !VarInt_len by apply zlen_nonneg. destruct (Z.ltb_spec (zlen (dtx_tx_witnesses t)) (2 ^ 64)); [|lia]. cbn [bind vi_bytes].
    destruct (map_wire _ dw_bytes the_dspend dspend_wire dspend_ok (dtx_tx_witnesses t) (dwitness_wire' net D) Fw) as [W _]. rewrite W.
    unfold dwitness_wire, vector_wire, the_dtx. cbn [d_version d_spends]. norm_count. rewrite zlen_map, slice_to_firstn by lia. reflexivity.
  - rewrite (dsigning_spec H net D) by exact O. unfold the_dtx. cbn [d_version d_spends]. rewrite map_map. reflexivity.
Qed.

Lemma top_id t t' : hashes_ok H -> dtx_obj H net t -> dtx_obj H net t' -> dtx_tx_id t = dtx_tx_id t' ->
  collision (blake256 H) [dprefix_wire (the_dtx t); dprefix_wire (the_dtx t')] \/
  (firstn 2 (d_version (the_dtx t)) = firstn 2 (d_version (the_dtx t')) /\ d_ins (the_dtx t) = d_ins (the_dtx t') /\ d_outs (the_dtx t) = d_outs (the_dtx t') /\
   d_lock (the_dtx t) = d_lock (the_dtx t') /\ d_expiry (the_dtx t) = d_expiry (the_dtx t')).
Proof.
  intros _ O O' E. destruct (dtx_wire H net D t O) as [_ [_ [I K]]]. destruct (dtx_wire H net D t' O') as [_ [_ [I' K']]].
  rewrite I, I' in E. apply (f_equal (@rev _)) in E. rewrite !rev_involutive in E.
  apply (same_or_collide _ [dprefix_wire (the_dtx t); dprefix_wire (the_dtx t')]) in E; [|left; reflexivity|right; left; reflexivity].
  destruct E as [E|]; [|auto]. right. apply dprefix_inj in E; [exact E|apply dtx_prefix_ok, K|apply dtx_prefix_ok, K'].
Qed.
Lemma top_id_ignores t t' : dtx_obj H net t -> dtx_obj H net t' ->
  firstn 2 (d_version (the_dtx t)) = firstn 2 (d_version (the_dtx t')) -> d_ins (the_dtx t) = d_ins (the_dtx t') -> d_outs (the_dtx t) = d_outs (the_dtx t') ->
  d_lock (the_dtx t) = d_lock (the_dtx t') -> d_expiry (the_dtx t) = d_expiry (the_dtx t') -> dtx_tx_id t = dtx_tx_id t'.
Proof.
  intros O O' V I U L X. destruct (dtx_wire H net D t O) as [_ [_ [-> _]]]. destruct (dtx_wire H net D t' O') as [_ [_ [-> _]]].
  unfold dprefix_wire, dprefix_body. rewrite V, I, U, L, X. reflexivity.
Qed.

Lemma set_index_err {A} (l : list A) i a : zlen l <= i -> set_index l i a = Err IndexError.
Proof.
  intros Hi. pose proof (zlen_nonneg l). unfold set_index. destruct (i <? 0) eqn:E; [lia|].
  destruct (Z.leb_spec (zlen l) i); [|lia]. rewrite orb_true_r. reflexivity.
Qed.
Lemma nth_has {A} (l : list A) n : (n < length l)%nat -> exists x, nth_error l n = Some x.
Proof. intros L. destruct (nth_error l n) eqn:E; [eauto|]. apply nth_error_None in E. lia. Qed.
Lemma the_dlen t : length (d_ins (the_dtx t)) = length (dtx_tx_ins t) /\ length (d_outs (the_dtx t)) = length (dtx_tx_outs t) /\
  length (d_spends (the_dtx t)) = length (dtx_tx_witnesses t).
Proof. unfold the_dtx. cbn [d_ins d_outs d_spends]. rewrite !map_length. auto. Qed.

Lemma dlib_all n t : dlib_tx All n t = t.
Proof.
  unfold dlib_tx, dsigned_tx, with_ins_outs. cbn [d_ins]. rewrite !(map_idf (dother_input All)) by reflexivity. rewrite split_parts. destruct t; reflexivity.
Qed.

Definition script_code (script : option bytes) : bytes := match script with Some s => s | None => [] end.
Lemma top_digest t n script ty anyone : dtx_obj H net t ->
  ddigest H ty net t (Z.of_nat n) script anyone =
  let d := the_dtx t in let code := script_code script in
  if (length (d_spends d) <=? n)%nat then Err IndexError
  else if negb (fits (dsigning_copy n code d)) then Err ValueError
  else match ty with
       | All => Ok (blake256 H (dlib_preimage (blake256 H) All anyone n code d))
       | Single => if (length (d_outs d) <=? n)%nat || (length (d_ins d) <=? n)%nat then Err NotImplementedError
                   else if negb (fits (dlib_tx Single n (dsigning_copy n code d))) then Err ValueError
                   else Ok (blake256 H (dlib_preimage (blake256 H) Single anyone n code d))
       end.
Proof.
  intros O. destruct (the_dlen t) as [L1 [L2 L3]]. cbn zeta. rewrite L3, L1, L2.
  destruct (Nat.leb_spec (length (dtx_tx_witnesses t)) n) as [L|L].
  - destruct ty; unfold ddigest, decred_sighash_all, decred_sighash_single; rewrite (dprep_index_err H net D) by assumption; reflexivity.
  - destruct (nth_has _ _ L) as [w Ew]. unfold ddigest. destruct ty.
    + rewrite (dall_spec H net D t n w script anyone O Ew). unfold script_code. destruct (fits _); reflexivity.
    + destruct (Nat.leb_spec (length (dtx_tx_outs t)) n) as [Lo|Lo]; [|destruct (Nat.leb_spec (length (dtx_tx_ins t)) n) as [Li|Li]].
      * unfold decred_sighash_single. rewrite (dprep_spec H net D t n w script O Ew). unfold script_code. destruct (fits _); [|reflexivity]. cbn [bind negb orb].
        unfold dcopy at 1 2. cbn [dtx_tx_ins dtx_tx_outs dtx_of].
        rewrite (mapM_Ok_map _ (fun _ => dnull)) by (intros a _; apply (dnull_Ok net D)). cbn [bind].
        rewrite index_err by (unfold zlen; lia). reflexivity.
      * unfold decred_sighash_single. rewrite (dprep_spec H net D t n w script O Ew). unfold script_code. destruct (fits _); [|reflexivity]. cbn [bind negb orb].
        unfold dcopy at 1 2. cbn [dtx_tx_ins dtx_tx_outs dtx_of].
        rewrite (mapM_Ok_map _ (fun _ => dnull)) by (intros a _; apply (dnull_Ok net D)). cbn [bind].
        destruct (nth_has _ _ Lo) as [o Eo]. rewrite (index_of_nat _ n o Eo). cbn [bind].
        rewrite set_index_err by (rewrite zlen_map; unfold zlen; lia). reflexivity.
      * destruct (nth_has _ _ Lo) as [o Eo]. destruct (nth_has _ _ Li) as [i Ei].
        rewrite (dsingle_spec H net D t n w i o script anyone O Ew Ei Eo). unfold script_code.
        destruct (fits (dsigning_copy n _ _)); [|reflexivity]. cbn [andb negb orb]. destruct (fits _); reflexivity.
Qed.

Lemma digest_cases t n script ty anyone d : dtx_obj H net t -> ddigest H ty net t (Z.of_nat n) script anyone = Ok d ->
  d = blake256 H (dlib_preimage (blake256 H) ty anyone n (script_code script) (the_dtx t)) /\
  (n < length (d_spends (the_dtx t)))%nat /\ (ty = Single -> n < length (d_ins (the_dtx t)) /\ n < length (d_outs (the_dtx t)))%nat /\
  len (script_code script) < 2 ^ 64.
Proof.
  intros O E. rewrite top_digest in E by exact O. cbn zeta in E.
  destruct (Nat.leb_spec (length (d_spends (the_dtx t))) n) as [L|L]; [discriminate|].
  destruct (fits (dsigning_copy n (script_code script) (the_dtx t))) eqn:F; [|discriminate]. cbn [negb] in E.
  destruct (nth_has _ _ L) as [w Ew]. pose proof (fits_script _ _ _ _ Ew F) as C. destruct ty.
  - apply Ok_inj in E. repeat split; auto; discriminate.
  - destruct (Nat.leb_spec (length (d_outs (the_dtx t))) n) as [Lo|Lo]; [discriminate|].
    destruct (Nat.leb_spec (length (d_ins (the_dtx t))) n) as [Li|Li]; [discriminate|]. cbn [orb] in E.
    destruct (fits (dlib_tx _ _ _)); [|discriminate]. apply Ok_inj in E. auto.
Qed.

Lemma top_agree t n script ty anyone d : dtx_obj H net t -> length (d_spends (the_dtx t)) = length (d_ins (the_dtx t)) ->
  (anyone = true -> length (d_ins (the_dtx t)) = 1%nat) -> (ty = Single -> S n = length (d_ins (the_dtx t))) ->
  ddigest H ty net t (Z.of_nat n) script anyone = Ok d -> d = blake256 H (dpreimage (blake256 H) ty anyone n (script_code script) (the_dtx t)).
Proof.
  intros O W A S E. apply digest_cases in E; [|exact O]. destruct E as [-> [L [K _]]]. f_equal. apply dagree; [exact W|lia|exact A|exact S].
Qed.
Lemma blake_32 : hashes_ok H -> forall m, zlen (blake256 H m) = 32.
Proof. intros [_ [_ [K _]]] m. apply K. Qed.
Lemma top_wrong t n script ty anyone : hashes_ok H -> dtx_obj H net t ->
  (n < length (d_ins (the_dtx t)))%nat ->
  (anyone = true /\ (1 < length (d_ins (the_dtx t)))%nat) \/ (ty = Single /\ S n <> length (d_ins (the_dtx t))) ->
  ddigest H ty net t (Z.of_nat n) script anyone = Ok (blake256 H (dpreimage (blake256 H) ty anyone n (script_code script) (the_dtx t))) ->
  collision (blake256 H) (dmessages (blake256 H) ty anyone n (script_code script) (the_dtx t) ++ dspec_messages (blake256 H) ty anyone n (script_code script) (the_dtx t)).
Proof.
  intros HH O L W E. apply digest_cases in E; [|exact O]. destruct E as [E [_ [K _]]].
  apply dwrong; auto.
  - apply blake_32, HH.
  - apply (dtx_wire H net D t O).
  - intros S. apply K, S.
Qed.
Lemma top_binds t t' n n' script script' ty ty' anyone anyone' d : hashes_ok H -> dtx_obj H net t -> dtx_obj H net t' ->
  (n < length (d_ins (the_dtx t)))%nat -> (n' < length (d_ins (the_dtx t')))%nat ->
  ddigest H ty net t (Z.of_nat n) script anyone = Ok d -> ddigest H ty' net t' (Z.of_nat n') script' anyone' = Ok d ->
  collision (blake256 H) (dmessages (blake256 H) ty anyone n (script_code script) (the_dtx t) ++ dmessages (blake256 H) ty' anyone' n' (script_code script') (the_dtx t')) \/
  (ty = ty' /\ anyone = anyone' /\ dcovered_same ty n (the_dtx t) n' (the_dtx t') /\ script_code script = script_code script' /\
   (script_code script <> [] -> n = n' /\ nth_error (d_ins (the_dtx t)) n = nth_error (d_ins (the_dtx t')) n')).
Proof.
  intros HH O O' L L' E E'. apply digest_cases in E; [|exact O]. apply digest_cases in E'; [|exact O'].
  destruct E as [E [A [B C]]], E' as [E' [A' [B' C']]]. apply dbinds; auto.
  - apply blake_32, HH.
  - apply (dtx_wire H net D t O).
  - apply (dtx_wire H net D t' O').
  - intros S. apply B, S.
  - intros S. apply B', S.
  - congruence.
Qed.
Lemma top_ignores t t' n script ty anyone d d' : dtx_obj H net t -> dtx_obj H net t' -> (n < length (d_ins (the_dtx t)))%nat ->
  dcovered_same ty n (the_dtx t) n (the_dtx t') -> nth_error (d_ins (the_dtx t)) n = nth_error (d_ins (the_dtx t')) n ->
  ddigest H ty net t (Z.of_nat n) script anyone = Ok d -> ddigest H ty net t' (Z.of_nat n) script anyone = Ok d' -> d = d'.
Proof.
  intros O O' L C N E E'. apply digest_cases in E; [|exact O]. apply digest_cases in E'; [|exact O'].
  destruct E as [-> _], E' as [-> _]. f_equal. apply dignores; assumption.
Qed.

(** * parsing parts *)

Lemma top_parse_outpoint o rest : doutpoint_obj net o -> DecredOutpoint_from_bytes net (dop_bytes o ++ rest) = Ok o.
Proof. apply (DecredOutpoint_parse net D). Qed.
Lemma top_parse_in i rest : dtxin_obj net i -> DecredTxIn_from_bytes net (dinput_wire (the_dinput i) ++ rest) = Ok i.
Proof. intros O. destruct (dtxin_wire net D i O) as [<- _]. apply (DecredTxIn_parse net D), O. Qed.
Lemma top_parse_out o rest : dtxout_obj net o -> DecredTxOut_from_bytes net (doutput_wire (the_doutput o) ++ rest) =
  if len (do_script (the_doutput o)) <? 252 then Ok o else Err NotImplementedError.
Proof. intros O. destruct (dtxout_wire net D o O) as [<- _]. apply (DecredTxOut_parse net D); [apply decred_readable|exact O]. Qed.
Lemma top_parse_short b : zlen b < 41 -> DecredTxIn_from_bytes net b = Err ValueError.
Proof.
  intros L. unfold DecredTxIn_from_bytes. destruct (Z.ltb_spec (zlen b) 37).
  - rewrite (DecredOutpoint_short net D); [reflexivity|]. rewrite slice_to_firstn by lia. unfold zlen in *. rewrite firstn_length. lia.
  - unfold DecredOutpoint_from_bytes. rewrite (DecredOutpoint_spec net D). destruct (_ && _ && _); [|reflexivity]. cbn [bind].
    rewrite (DecredTxIn_spec net D). destruct (Z.eqb_spec (zlen (slice b 37 41)) 4) as [X|X]; [|rewrite andb_false_r; reflexivity].
    rewrite slice_firstn in X by lia. unfold zlen in *. rewrite firstn_length, skipn_length in X. lia.
Qed.
End Net.

Lemma top_elsewhere H name net : get_network name = Ok net -> ~ In name decred_names ->
  (forall a b c, DecredOutpoint net a b c = Err ValueError) /\ (forall o q, DecredTxIn net o q = Err ValueError) /\
  (forall v w s, DecredTxOut net v w s = Err ValueError) /\ (forall v h i s r, DecredInputWitness net v h i s r = Err ValueError) /\
  (forall v i o l e w, DecredTx H net v i o l e w = Err ValueError).
Proof.
  intros En N. pose proof (decred_only_Err name net En N) as D.
  repeat split; intros; unfold DecredOutpoint, DecredTxIn, DecredTxOut, DecredInputWitness, DecredTx; rewrite D; reflexivity.
Qed.
