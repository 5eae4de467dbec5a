(* The sizes of transactions *)
From Coq Require Import ZifyBool ZifyNat String Lia.
From Verif Require Import Py LBase MNet MUtils MShared MScript MTx MDecred MZcash SNum SNet SHash SScript STx SSig SDecred SZcash SSize
  LNet LUtils LVarint LTx LTxWire LStandard LDecred LDecredTop LZcash LZcashTx LSapling LSprout LZcashTop LZBind.
Open Scope list_scope.
Open Scope Z_scope.
Ltac Zify.zify_post_hook ::= idtac.

Lemma count_size_compact n : zlen (compactsize n) = count_size n.
Proof. apply zlen_compactsize. Qed.
Lemma count_size_pos n : 1 <= count_size n.
Proof. unfold count_size. repeat destruct (_ <? _); lia. Qed.
Lemma string_size_wire s : zlen (string_wire s) = string_size (len s).
Proof. unfold string_wire, string_size. rewrite zlen_app, count_size_compact. reflexivity. Qed.
Lemma concat_sum {A} (P : A -> Prop) (w : A -> bytes) f l : (forall x, P x -> zlen (w x) = f x) -> Forall P l ->
  zlen (concat (map w l)) = sum f l.
Proof.
  intros E. induction 1 as [|x l X F IH]; [reflexivity|]. cbn [map concat sum fold_right]. rewrite zlen_app, (E x X), IH. reflexivity.
Qed.
Lemma vector_size_wire {A} (P : A -> Prop) (w : A -> bytes) f l : (forall x, P x -> zlen (w x) = f x) -> Forall P l ->
  zlen (vector_wire w l) = vector_size f l.
Proof. intros E F. unfold vector_wire, vector_size. rewrite zlen_app, count_size_compact, (concat_sum P w f l E F). reflexivity. Qed.
Lemma sum_least {A} (f : A -> Z) m l : (forall x, m <= f x) -> m * count l <= sum f l.
Proof.
  intros F. unfold count, sum. induction l as [|x l IH]; [cbn; lia|]. cbn [length fold_right]. specialize (F x). lia.
Qed.
Lemma vector_least {A} (f : A -> Z) m l : (forall x, m <= f x) -> 1 + m * count l <= vector_size f l.
Proof. intros F. unfold vector_size. pose proof (sum_least f m l F). pose proof (count_size_pos (count l)). lia. Qed.
Lemma string_size_least n : 0 <= n -> 1 <= string_size n.
Proof. unfold string_size. pose proof (count_size_pos n). lia. Qed.
Lemma input_least i : 41 <= input_size i.
Proof. unfold input_size. pose proof (string_size_least (len (in_script i))) as Q. revert Q. norm_spec. pose proof (zlen_nonneg (in_script i)). lia. Qed.
Lemma output_least o : 9 <= output_size o.
Proof. unfold output_size. pose proof (string_size_least (len (out_script o))) as Q. revert Q. norm_spec. pose proof (zlen_nonneg (out_script o)). lia. Qed.

Lemma input_size_wire i : input_ok i -> zlen (input_wire i) = input_size i.
Proof.
  intros [A [B [C _]]]. revert A B C. unfold input_wire, outpoint_wire, input_size. norm_spec. rewrite !zlen_app, string_size_wire. norm_spec. lia.
Qed.
Lemma output_size_wire o : output_ok o -> zlen (output_wire o) = output_size o.
Proof. intros [A _]. revert A. unfold output_wire, output_size. norm_spec. rewrite !zlen_app, string_size_wire. norm_spec. lia. Qed.
Lemma stack_size_wire st : zlen (stack_wire st) = stack_size st.
Proof. apply (vector_size_wire (fun _ => True)); [intros s _; apply string_size_wire|apply Forall_forall; auto]. Qed.

Lemma total_size_wire t : transaction_ok t -> zlen (wire_tx t) = total_size t.
Proof.
  intros [A [B [_ [_ [Fi [Fo _]]]]]]. revert A B. unfold wire_tx, total_size, base_size. norm_spec. intros A B. rewrite !zlen_app.
  rewrite (vector_size_wire _ _ _ _ input_size_wire Fi), (vector_size_wire _ _ _ _ output_size_wire Fo).
  destruct (t_witness t) as [ws|]; [|repeat change (@zlen Z []) with 0; lia].
  rewrite (concat_sum (fun _ => True) stack_wire stack_size ws); [|intros; apply stack_size_wire|apply Forall_forall; auto].
  change (zlen marker_and_flag) with 2. lia.
Qed.
Lemma stripped_ok t : transaction_ok t -> transaction_ok (stripped t).
Proof. unfold transaction_ok. cbn [stripped t_version t_ins t_outs t_witness t_lock]. tauto. Qed.

Lemma tx_size_lemma H name net t : get_network name = Ok net -> tx_obj H net t ->
  len (tx_bytes t) = total_size (the_tx t) /\
  exists b, no_witness t = Ok b /\ len b = base_size (the_tx t).
Proof.
  intros En O. destruct (tx_wire H name net t En O) as [W T]. norm_spec. split.
  - rewrite W. apply total_size_wire, T.
  - destruct (no_witness_wire H name net En t O) as [N _]. exists (wire_tx (stripped (the_tx t))). split; [exact N|].
    norm_spec. rewrite (total_size_wire _ (stripped_ok _ T)). unfold total_size, base_size. cbn [stripped t_ins t_outs t_witness]. lia.
Qed.
Lemma sum_nonneg {A} (f : A -> Z) l : (forall x, 0 <= f x) -> 0 <= sum f l.
Proof. intros F. pose proof (sum_least f 0 l F). lia. Qed.
Lemma stack_nonneg st : 1 <= stack_size st.
Proof.
  unfold stack_size. pose proof (vector_least (fun s => string_size (len s)) 0 st) as Q.
  assert (forall s : bytes, 0 <= string_size (len s)) as F. { intros s. pose proof (string_size_least (len s)) as R. revert R. norm_spec. pose proof (zlen_nonneg s). lia. }
  specialize (Q F). lia.
Qed.
Lemma tx_least_lemma H name net t : get_network name = Ok net -> tx_obj H net t ->
  10 + 41 * count (tx_tx_ins t) + 9 * count (tx_tx_outs t) <= base_size (the_tx t) <= total_size (the_tx t) /\
  60 <= base_size (the_tx t).
Proof.
  intros En O. destruct (tx_wire H name net t En O) as [_ [_ [_ [Ni [No _]]]]]. unfold total_size, base_size.
  pose proof (vector_least input_size 41 (t_ins (the_tx t)) input_least) as A.
  pose proof (vector_least output_size 9 (t_outs (the_tx t)) output_least) as B.
  assert (0 <= match t_witness (the_tx t) with Some ws => 2 + sum stack_size ws | None => 0 end) as C.
  { destruct (t_witness (the_tx t)) as [ws|]; [|lia]. pose proof (sum_nonneg stack_size ws) as Q.
    assert (forall x, 0 <= stack_size x) as F by (intros x; pose proof (stack_nonneg x); lia). specialize (Q F). lia. }
  assert (count (t_ins (the_tx t)) = count (tx_tx_ins t)) as Ei by (cbn [the_tx t_ins]; unfold count; rewrite map_length; reflexivity).
  assert (count (t_outs (the_tx t)) = count (tx_tx_outs t)) as Eo by (cbn [the_tx t_outs]; unfold count; rewrite map_length; reflexivity).
  rewrite Ei in *. rewrite Eo in *. lia.
Qed.

(** * Decred *)
Lemma decred_size_lemma H name net t : get_network name = Ok net -> In name decred_names -> dtx_obj H net t ->
  len (dtx_bytes t) = decred_size (the_dtx t) /\ decred_size (the_dtx t) <= 100000.
Proof.
  intros En I O. destruct (dtx_wire H net (decred_only_Ok name net En I) t O) as [B [_ [_ [V [L [X [_ [_ [Fi [Fo [Fs M]]]]]]]]]]].
  assert (forall s, dspend_ok s -> zlen (dspend_wire s) = 16 + string_size (len (ds_script s))) as Es.
  { intros s [P [Q [R _]]]. revert P Q R. unfold dspend_wire. norm_spec. rewrite !zlen_app, string_size_wire. norm_spec. lia. }
  assert (forall o, doutput_ok o -> zlen (doutput_wire o) = 10 + string_size (len (do_script o))) as Eo.
  { intros s [P [Q _]]. revert P Q. unfold doutput_wire. norm_spec. rewrite !zlen_app, string_size_wire. norm_spec. lia. }
  assert (forall i, dinput_ok i -> zlen (dinput_wire i) = 41) as Ei.
  { intros s [P [Q [R T]]]. revert P Q R T. unfold dinput_wire. norm_spec. rewrite !zlen_app. lia. }
  pose proof (vector_size_wire _ _ _ _ Es Fs) as Ls. pose proof (vector_size_wire _ _ _ _ Eo Fo) as Lo. pose proof (vector_size_wire _ _ _ _ Ei Fi) as Li.
  assert (zlen (dwire (the_dtx t)) = decred_size (the_dtx t)) as E.
  { unfold decred_size. rewrite <- Ls, <- Lo, <- Li. revert V L X. unfold dwire, dprefix_body. norm_spec. rewrite !zlen_app. lia. }
  norm_spec. rewrite B. split; [exact E|]. revert M. norm_spec. lia.
Qed.

(** * Zcash *)
Lemma transparent_size_wire ins outs : Forall txin_obj ins -> Forall txout_obj outs ->
  zlen (inputs_wire ins) + zlen (outputs_wire outs) = transparent_size ins outs.
Proof.
  intros Fi Fo. unfold inputs_wire, outputs_wire, transparent_size.
  rewrite (vector_size_wire input_ok input_wire input_size (map the_input ins)), (vector_size_wire output_ok output_wire output_size (map the_output outs)); [reflexivity|..].
  - apply output_size_wire.
  - apply Forall_map. eapply Forall_impl; [|exact Fo]. intros o A. apply txout_wire, A.
  - apply input_size_wire.
  - apply Forall_map. eapply Forall_impl; [|exact Fi]. intros i A. apply txin_wire, A.
Qed.
Lemma spend_len net s : spend_obj net s -> zlen (spend_wire s) = 384.
Proof. intros O. apply spend_obj_iff in O. destruct O as [_ [W _]]. apply (fields_len _ W). Qed.
Lemma width_len x w : has_width x w -> zlen (opt x) = w.
Proof. intros [b [-> L]]. exact L. Qed.
Lemma not_not_eq (a b : Z) : ~ a <> b -> a = b.
Proof. lia. Qed.

Lemma overwinter_size_lemma H name net t : get_network name = Ok net -> overwinter_obj H net t ->
  len (ow_bytes t) = overwinter_size t /\ overwinter_size t <= 100000.
Proof.
  intros En O. pose proof (overwinter_bytes H net t O) as B. destruct O as [Fi [Fo [Fj E]]].
  destruct (overwinter_ctor H name net En _ _ (ow_lock_time t) (ow_expiry_height t) _ (ow_joinsplit_pubkey t) (ow_joinsplit_sig t) Fi Fo Fj) as [Y N].
  assert (overwinter_rules name (ow_tx_ins t) (ow_tx_outs t) (ow_lock_time t) (ow_expiry_height t) (ow_tx_joinsplits t) (ow_joinsplit_pubkey t) (ow_joinsplit_sig t) ->
    len (ow_bytes t) = overwinter_size t /\ overwinter_size t <= 100000) as P.
  { intros R. destruct (Y R) as [t' [E' [_ [_ [_ [_ [_ [_ [K S]]]]]]]]]. assert (t' = t) as -> by congruence.
    destruct R as [_ [L [X [_ [_ [W [_ M]]]]]]]. rewrite <- K, <- S in M. change (len (overwinter_wire t) <= 100000) in M. rewrite <- B in M.
    enough (len (ow_bytes t) = overwinter_size t) as Q by (split; [exact Q|congruence]).
    rewrite B. revert L X. unfold overwinter_wire, overwinter_layout, overwinter_size, joinsplits_wire, joinsplits_size. norm_spec. intros L X.
    rewrite !zlen_app. change (zlen overwinter_header) with 8. pose proof (transparent_size_wire _ _ Fi Fo).
    rewrite (vector_size_wire (sprout_joinsplit_obj net) sprout_joinsplit_wire (fun _ => 1802)); [|intros; eapply sprout_js_len; eassumption|exact Fj].
    destruct (ow_tx_joinsplits t) as [|j js] eqn:Ej.
    - cbn [needed] in K, S. rewrite K, S. cbn [opt]. repeat change (@zlen Z []) with 0. lia.
    - destruct W as [W1 W2]; [discriminate|]. rewrite (width_len _ _ W1), (width_len _ _ W2). lia. }
  assert (~ ~ (len (ow_bytes t) = overwinter_size t /\ overwinter_size t <= 100000)) as D; [|lia].
  intros Q. rewrite (N (fun R => Q (P R))) in E. discriminate.
Qed.

Lemma sapling_size_lemma H name net t : get_network name = Ok net -> sapling_obj H net t ->
  len (sa_bytes t) = sapling_size t /\ sapling_size t <= 100000.
Proof.
  intros En O. pose proof (sapling_bytes H net t O) as B. destruct O as [Fi [Fo [Fs [Fu [Fj E]]]]].
  destruct (sapling_ctor H name net En _ _ (sa_lock_time t) (sa_expiry_height t) (sa_value_balance t) _ _ _ (sa_joinsplit_pubkey t) (sa_joinsplit_sig t) (sa_binding_sig t) Fi Fo Fs Fu Fj) as [Y N].
  assert (sapling_rules name (sa_tx_ins t) (sa_tx_outs t) (sa_lock_time t) (sa_expiry_height t) (sa_value_balance t) (sa_tx_shielded_spends t)
      (sa_tx_shielded_outputs t) (sa_tx_joinsplits t) (sa_joinsplit_pubkey t) (sa_joinsplit_sig t) (sa_binding_sig t) ->
    len (sa_bytes t) = sapling_size t /\ sapling_size t <= 100000) as P.
  { intros R. destruct (Y R) as [t' [E' [_ [_ [_ [_ [_ [_ [_ [_ [_ [K [S Bs]]]]]]]]]]]]]. assert (t' = t) as -> by congruence.
    destruct R as [_ [L [X [V [_ [_ [Wb [_ [_ [W [_ M]]]]]]]]]]]. rewrite <- K, <- S, <- Bs in M. change (len (sapling_wire t) <= 100000) in M. rewrite <- B in M.
    enough (len (sa_bytes t) = sapling_size t) as Q by (split; [exact Q|congruence]).
    rewrite B. revert L X V. unfold sapling_wire, sapling_layout, sapling_size, joinsplits_wire, joinsplits_size. norm_spec. intros L X V.
    rewrite !zlen_app. change (zlen sapling_header) with 8. pose proof (transparent_size_wire _ _ Fi Fo).
    rewrite (vector_size_wire (spend_obj net) spend_wire (fun _ => 384)); [|intros; eapply spend_len; eassumption|exact Fs].
    rewrite (vector_size_wire (shielded_output_obj net) shielded_output_wire (fun _ => 948)); [|intros; eapply shielded_out_len; eassumption|exact Fu].
    rewrite (vector_size_wire (sapling_joinsplit_obj net) sapling_joinsplit_wire (fun _ => 1698)); [|intros; eapply sapling_js_len; eassumption|exact Fj].
    assert (zlen (opt (sa_binding_sig t)) = match sa_tx_shielded_spends t, sa_tx_shielded_outputs t with [], [] => 0 | _, _ => 64 end) as ->.
    { destruct (sa_tx_shielded_spends t), (sa_tx_shielded_outputs t); [rewrite Bs; reflexivity|..]; apply width_len, Wb; intros [U U']; discriminate. }
    destruct (sa_tx_joinsplits t) as [|j js] eqn:Ej.
    - cbn [needed] in K, S. rewrite K, S. cbn [opt]. repeat change (@zlen Z []) with 0. lia.
    - destruct W as [W1 W2]; [discriminate|]. rewrite (width_len _ _ W1), (width_len _ _ W2). lia. }
  assert (~ ~ (len (sa_bytes t) = sapling_size t /\ sapling_size t <= 100000)) as D; [|lia].
  intros Q. destruct (N (fun R => Q (P R))) as [X|[X _]]; congruence.
Qed.

Lemma sprout_size_lemma H name net t : get_network name = Ok net -> sprout_obj H net t ->
  len (sp_bytes t) = sprout_size t /\ sprout_size t <= 100000.
Proof.
  intros En O. pose proof (sprout_bytes H net t O) as B. pose proof (sprout_version H net t O) as V. destruct (proj1 (sprout_obj_iff H net t) O) as [js [Bv [Fi [Fo [J [Fj _]]]]]].
  assert (SproutTx H net (Some (sp_version t)) (sp_tx_ins t) (sp_tx_outs t) (sp_lock_time t) (Some js) (sp_joinsplit_pubkey t) (sp_joinsplit_sig t) = Ok t) as E.
  { destruct O as [_ [_ [_ E]]]. rewrite J in E. apply E. }
  destruct (sprout_ctor H name net En (sp_version t) _ _ (sp_lock_time t) js (sp_joinsplit_pubkey t) (sp_joinsplit_sig t) Bv Fi Fo Fj) as [_ N].
  assert (sprout_rules name (sp_version t) (sp_tx_ins t) (sp_tx_outs t) (sp_lock_time t) js (sp_joinsplit_pubkey t) (sp_joinsplit_sig t) ->
    len (sp_bytes t) = sprout_size t /\ sprout_size t <= 100000) as P.
  { intros [_ [L [W M]]]. assert (len (sprout_wire t) <= 100000) as M' by (unfold sprout_wire; rewrite J; exact M). rewrite <- B in M'.
    enough (len (sp_bytes t) = sprout_size t) as Q by (split; [exact Q|congruence]).
    rewrite B. revert L. unfold sprout_wire, sprout_layout, sprout_size, joinsplits_wire. rewrite J. cbn [opts]. norm_spec. intros L.
    rewrite !zlen_app. pose proof (transparent_size_wire _ _ Fi Fo).
    destruct W as [[-> _]|[-> [_ [W _]]]].
    - change (from_le (le_bytes 4 1) =? 1) with true. cbn iota. repeat change (@zlen Z []) with 0. change (zlen (le_bytes 4 1)) with 4. lia.
    - change (from_le (le_bytes 4 2) =? 1) with false. cbn iota. rewrite !zlen_app.
      rewrite (vector_size_wire (sprout_joinsplit_obj net) sprout_joinsplit_wire (fun _ => 1802)); [|intros; eapply sprout_js_len; eassumption|exact Fj].
      rewrite (width_len _ _ W). change (zlen (le_bytes 4 2)) with 4. lia. }
  assert (~ ~ (len (sp_bytes t) = sprout_size t /\ sprout_size t <= 100000)) as D; [|lia].
  intros Q. destruct (N (fun R => Q (P R))) as [X|[X _]]; pose proof (eq_trans (eq_sym E) X) as Y; discriminate Y.
Qed.

(** * What fits *)
Lemma transparent_least ins outs : 2 + 41 * count ins + 9 * count outs <= transparent_size ins outs.
Proof.
  unfold transparent_size. pose proof (vector_least input_size 41 (map the_input ins) input_least) as A.
  pose proof (vector_least output_size 9 (map the_output outs) output_least) as B. unfold count in *. rewrite map_length in A, B. lia.
Qed.
Lemma const_vector {A} m (l : list A) : 0 <= m -> 1 + m * count l <= vector_size (fun _ => m) l.
Proof. intros M. apply vector_least. intros; lia. Qed.
Lemma sapling_fits_lemma H name net t : get_network name = Ok net -> sapling_obj H net t ->
  41 * count (sa_tx_ins t) + 9 * count (sa_tx_outs t) + 384 * count (sa_tx_shielded_spends t) +
  948 * count (sa_tx_shielded_outputs t) + 1698 * count (sa_tx_joinsplits t) <= 99971.
Proof.
  intros En O. destruct (sapling_size_lemma H name net t En O) as [_ M]. unfold sapling_size, joinsplits_size in M.
  pose proof (transparent_least (sa_tx_ins t) (sa_tx_outs t)). pose proof (const_vector 384 (sa_tx_shielded_spends t)).
  pose proof (const_vector 948 (sa_tx_shielded_outputs t)). pose proof (const_vector 1698 (sa_tx_joinsplits t)).
  assert (0 <= match sa_tx_joinsplits t with [] => 0 | _ => 96 end) by (destruct (sa_tx_joinsplits t); lia).
  assert (0 <= match sa_tx_shielded_spends t, sa_tx_shielded_outputs t with [], [] => 0 | _, _ => 64 end) by (destruct (sa_tx_shielded_spends t), (sa_tx_shielded_outputs t); lia).
  lia.
Qed.
Lemma decred_fits_lemma H name net t : get_network name = Ok net -> In name decred_names -> dtx_obj H net t ->
  41 * count (dtx_tx_ins t) + 11 * count (dtx_tx_outs t) + 17 * count (dtx_tx_witnesses t) <= 99985.
Proof.
  intros En I O. destruct (decred_size_lemma H name net t En I O) as [_ M]. unfold decred_size in M.
  pose proof (const_vector 41 (d_ins (the_dtx t))) as A.
  pose proof (vector_least (fun o => 10 + string_size (len (do_script o))) 11 (d_outs (the_dtx t))) as B.
  pose proof (vector_least (fun s => 16 + string_size (len (ds_script s))) 17 (d_spends (the_dtx t))) as C.
  assert (forall s : bytes, 1 <= string_size (len s)) as F. { intros s. pose proof (string_size_least (len s)) as R. revert R. norm_spec. pose proof (zlen_nonneg s). lia. }
  assert (forall x, 11 <= 10 + string_size (len (do_script x))) as F1 by (intros x; pose proof (F (do_script x)); lia).
  assert (forall x, 17 <= 16 + string_size (len (ds_script x))) as F2 by (intros x; pose proof (F (ds_script x)); lia).
  specialize (B F1). specialize (C F2). cbn [the_dtx d_ins d_outs d_spends] in *. unfold count in *. rewrite !map_length in *. lia.
Qed.
