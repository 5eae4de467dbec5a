(* Lemmas: objects that compare equal *)
From Coq Require Import String.
From Verif Require Import Py LBase MNet MUtils MShared MScript MTx MDecred MZcash SNum SNet SHash SScript STx SSig SDecred SZcash SDigest SZDigest SDDigest SSame
  LNet LUtils LVarint LTx LTxParse LTxWire LDecred LDecredTop LZcash LZcashTx LZTrunc LZBind LSapling LSprout LZcashTop LZBind2 LDigest LZDigest LDDigest.
Open Scope list_scope.
Open Scope Z_scope.
Ltac Zify.zify_post_hook ::= idtac.

Lemma equal_iff a b : equal a b <-> a = b.
Proof.
  unfold equal, with_bytes, py_eq, bd_eq, bd_ne. cbn [bd_bytes bind]. destruct (leqb_spec a b) as [E|E]; cbn [negb]; split; intros X; congruence.
Qed.

(** * codes that are never empty: a list of them is determined without its length when as much follows *)
Lemma pfx_all {A} (ok : A -> Prop) w : pfx ok w -> (forall a, 1 <= zlen (w a)) -> forall l m r s, zlen r = zlen s -> Forall ok l -> Forall ok m ->
  concat (map w l) ++ r = concat (map w m) ++ s -> l = m /\ r = s.
Proof.
  intros P N. induction l as [|a l IH]; intros [|b m] r s L F G E.
  - auto.
  - exfalso. apply (f_equal zlen) in E. cbn [map concat] in E. rewrite !zlen_app in E. change (zlen (concat (map w []))) with 0 in E.
    pose proof (N b). pose proof (zlen_nonneg (concat (map w m))). change (@zlen Z []) with 0 in E. lia.
  - exfalso. apply (f_equal zlen) in E. cbn [map concat] in E. rewrite !zlen_app in E.
    pose proof (N a). pose proof (zlen_nonneg (concat (map w l))). change (@zlen Z []) with 0 in E. lia.
  - cbn [map concat] in E. rewrite <- !app_assoc in E. inversion F; subst. inversion G; subst.
    apply P in E; try assumption. destruct E as [-> E]. apply IH in E; try assumption. destruct E as [-> ->]. auto.
Qed.
Lemma stack_wire_pos st : 1 <= zlen (stack_wire st).
Proof.
  unfold stack_wire, vector_wire. rewrite zlen_app. pose proof (zlen_compactsize_pos (count st)). pose proof (zlen_nonneg (concat (map string_wire st))). lia.
Qed.
(* whatever the number of witnesses is *)
Lemma wire_tx_same a b : transaction_ok a -> transaction_ok b -> wire_tx a = wire_tx b -> a = b.
Proof.
  intros [A1 [A2 [A3 [A4 [A5 [A6 A7]]]]]] [B1 [B2 [B3 [B4 [B5 [B6 B7]]]]]] E. norm_count. norm_spec.
  unfold wire_tx in E. apply app_inj_zlen in E; [|lia]. destruct E as [E1 E].
  destruct a as [v1 i1 o1 w1 l1], b as [v2 i2 o2 w2 l2]. cbn [t_version t_ins t_outs t_witness t_lock] in *. norm_count.
  destruct (vector_head input_wire i1 (proj1 A3)) as [x1 [y1 [H1 N1]]].
  destruct (vector_head input_wire i2 (proj1 B3)) as [x2 [y2 [H2 N2]]].
  destruct w1 as [w1|], w2 as [w2|].
  - apply app_inv_head in E. apply (pfx_vector _ _ pfx_input) in E; [|split; [lia|assumption]|split; [lia|assumption]]. destruct E as [-> E].
    apply (pfx_vector _ _ pfx_output) in E; [|split; [lia|assumption]|split; [lia|assumption]]. destruct E as [-> E].
    apply (pfx_all _ _ pfx_stack stack_wire_pos) in E; try assumption; [|lia]. destruct E as [-> ->]. subst. auto.
  - exfalso. rewrite H2 in E. cbn in E. injection E. lia.
  - exfalso. rewrite H1 in E. cbn in E. injection E. lia.
  - cbn [app] in E. apply (pfx_vector _ _ pfx_input) in E; [|split; [lia|assumption]|split; [lia|assumption]]. destruct E as [-> E].
    apply (pfx_vector _ _ pfx_output) in E; [|split; [lia|assumption]|split; [lia|assumption]]. destruct E as [-> E].
    cbn [app] in E. subst. auto.
Qed.

(** * parts *)
Lemma map_inj_on {A B} (f : A -> B) (P : A -> Prop) : (forall a b, P a -> P b -> f a = f b -> a = b) ->
  forall l m, Forall P l -> Forall P m -> map f l = map f m -> l = m.
Proof.
  intros I. induction l as [|a l IH]; intros [|b m] F G E; try discriminate E; [reflexivity|].
  inversion F; inversion G; subst. cbn [map] in E. injection E as E1 E2. f_equal; [apply I|apply IH]; assumption.
Qed.
Lemma outpoint_same o o' : outpoint_obj o -> outpoint_obj o' -> op_bytes o = op_bytes o' -> o = o'.
Proof.
  intros O O' E. apply outpoint_obj_iff in O. apply outpoint_obj_iff in O'. destruct O as [A [B C]], O' as [A' [B' C']].
  rewrite C, C' in E. apply app_inj_zlen in E; [|congruence]. destruct E. destruct o, o'. cbn in *. congruence.
Qed.
Lemma txin_same i i' : txin_obj i -> txin_obj i' -> (ti_bytes i = ti_bytes i' <-> the_input i = the_input i').
Proof.
  intros O O'. destruct (txin_wire i O) as [-> K]. destruct (txin_wire i' O') as [-> K']. split; [|intros ->; reflexivity].
  intros E. apply (pfx_input _ _ [] [] K K'). rewrite E. reflexivity.
Qed.
Lemma the_output_same o o' : txout_obj o -> txout_obj o' -> the_output o = the_output o' -> o = o'.
Proof.
  intros O O' E. apply txout_obj_iff in O. apply txout_obj_iff in O'. destruct O as [_ [_ C]], O' as [_ [_ C']].
  destruct o, o'. unfold the_output in E. cbn in *. injection E as -> ->. congruence.
Qed.
Lemma txout_same o o' : txout_obj o -> txout_obj o' -> to_bytes_ o = to_bytes_ o' -> o = o'.
Proof.
  intros O O' E. destruct (txout_wire o O) as [W K]. destruct (txout_wire o' O') as [W' K']. rewrite W, W' in E. apply the_output_same; try assumption.
  apply (pfx_output _ _ [] [] K K'). rewrite E. reflexivity.
Qed.
Lemma witem_item w w' : witem_obj w -> witem_obj w' -> wi_item w = wi_item w' -> w = w'.
Proof. intros O O' E. apply witem_obj_iff in O. apply witem_obj_iff in O'. destruct O as [_ C], O' as [_ C']. destruct w, w'. cbn in *. congruence. Qed.
Lemma witem_same w w' : witem_obj w -> witem_obj w' -> wi_bytes w = wi_bytes w' -> w = w'.
Proof.
  intros O O' E. apply witem_item; try assumption. apply witem_obj_iff in O. apply witem_obj_iff in O'. destruct O as [K C], O' as [K' C'].
  apply (pfx_string _ _ [] [] K K'). change (string_wire (wi_item w)) with (compactsize (zlen (wi_item w)) ++ wi_item w).
  change (string_wire (wi_item w')) with (compactsize (zlen (wi_item w')) ++ wi_item w'). rewrite <- C, <- C', E. reflexivity.
Qed.
Lemma the_stack_same w w' : witness_obj w -> witness_obj w' -> the_stack w = the_stack w' -> w = w'.
Proof.
  intros O O' E. apply witness_obj_iff in O. apply witness_obj_iff in O'. destruct O as [F [_ C]], O' as [F' [_ C']].
  apply (map_inj_on _ _ witem_item _ _ F F') in E. destruct w, w'. cbn in *. congruence.
Qed.
Lemma witness_same w w' : witness_obj w -> witness_obj w' -> wit_bytes w = wit_bytes w' -> w = w'.
Proof.
  intros O O' E. apply the_stack_same; try assumption. destruct (witness_wire w O) as [W K]. destruct (witness_wire w' O') as [W' K'].
  rewrite W, W' in E. apply (pfx_stack _ _ [] [] K K'). rewrite E. reflexivity.
Qed.

(** * Tx *)
Section Tx.
Context (H : hashes) (name : str) (net : network) (En : get_network name = Ok net).
Lemma tx_same t u : tx_obj H net t -> tx_obj H net u -> (tx_bytes t = tx_bytes u <-> the_tx t = the_tx u).
Proof.
  intros O P. destruct (tx_wire H name net t En O) as [-> K]. destruct (tx_wire H name net u En P) as [-> K'].
  split; [apply wire_tx_same; assumption|intros ->; reflexivity].
Qed.
Lemma tx_flag_value t f : tx_obj H net t -> tx_flag t = Some f -> f = SEGWIT_TX_FLAG net.
Proof.
  intros O E. apply tx_obj_iff in O. destruct O as [_ [_ [_ [A _]]]]. unfold tx_args_ok in A. rewrite !andb_true_iff in A.
  destruct A as [[[[[[[_ _] A] _] _] _] _] _]. rewrite E in A. apply leqb_eq in A. exact A.
Qed.
Lemma tx_no_flag t : tx_obj H net t -> tx_flag t = None -> the_witnesses t = [].
Proof.
  intros O E. apply tx_obj_iff in O. destruct O as [_ [_ [_ [A _]]]]. unfold tx_args_ok in A. rewrite !andb_true_iff in A.
  destruct A as [[[[[[[_ _] _] A] _] _] _] _]. rewrite E in A. unfold the_witnesses. destruct (tx_tx_witnesses t) as [ws|]; [|reflexivity].
  unfold wits_ok in A. cbn [andb] in A. rewrite orb_false_r in A. apply Z.eqb_eq, zlen_0 in A. exact A.
Qed.
Lemma witnesses_objs t : tx_obj H net t -> Forall witness_obj (the_witnesses t).
Proof. intros [_ [_ [F _]]]. unfold the_witnesses. destruct (tx_tx_witnesses t); [exact F|constructor]. Qed.
Lemma same_tx_iff t u : tx_obj H net t -> tx_obj H net u -> (tx_bytes t = tx_bytes u <-> same_tx t u).
Proof.
  intros O P. split; [|intros S; apply S]. intros E. pose proof E as X. apply (tx_same t u O P) in X.
  destruct (tx_ids H name net t En O) as [I1 [I2 [I3 I4]]]. destruct (tx_ids H name net u En P) as [J1 [J2 [J3 J4]]].
  assert (tx_flag t = tx_flag u) as Ef.
  { apply (f_equal t_witness) in X. cbn [the_tx t_witness] in X. destruct (tx_flag t) as [f|] eqn:Ft, (tx_flag u) as [g|] eqn:Fu; try discriminate X; [|reflexivity].
    rewrite (tx_flag_value t f O Ft), (tx_flag_value u g P Fu). reflexivity. }
  unfold same_tx. rewrite I1, I2, I3, I4, J1, J2, J3, J4, Ef, X. split; [exact E|].
  split; [exact (f_equal t_version X)|]. split; [reflexivity|]. split; [exact (f_equal t_ins X)|]. split.
  { pose proof (f_equal t_outs X) as Eo. cbn [the_tx t_outs] in Eo. apply (map_inj_on _ _ the_output_same); [apply O|apply P|exact Eo]. }
  split.
  { destruct (tx_flag u) as [g|] eqn:Fu.
    - pose proof (f_equal t_witness X) as Ew. cbn [the_tx t_witness] in Ew. rewrite Ef, Fu in Ew. injection Ew as Ew.
      apply (map_inj_on _ _ the_stack_same); [apply (witnesses_objs t O)|apply (witnesses_objs u P)|exact Ew].
    - rewrite (tx_no_flag t O Ef), (tx_no_flag u P Fu). reflexivity. }
  split; [exact (f_equal t_lock X)|auto].
Qed.
(* an empty list of witnesses instead of none *)
Lemma empty_witnesses t : tx_obj H net t -> the_witnesses t = [] ->
  exists u, Tx H net (tx_version t) (tx_flag t) (tx_tx_ins t) (tx_tx_outs t) (Some []) (tx_lock_time t) = Ok u /\ tx_obj H net u /\ tx_bytes u = tx_bytes t /\ tx_tx_witnesses u = Some [].
Proof.
  intros O W. apply tx_obj_iff in O. destruct O as [Fi [Fo [_ [A E]]]].
  assert (tx_args_ok net (tx_version t) (tx_flag t) (tx_tx_ins t) (tx_tx_outs t) (Some []) (tx_lock_time t) = true) as A'.
  { unfold tx_args_ok in *. rewrite !andb_true_iff in *. destruct A as [[[[[[[A1 A2] A3] A4] A5] A6] A7] A8]. repeat split; try assumption. }
  exists (tx_of H net (tx_version t) (tx_flag t) (tx_tx_ins t) (tx_tx_outs t) (Some []) (tx_lock_time t)).
  assert (Tx H net (tx_version t) (tx_flag t) (tx_tx_ins t) (tx_tx_outs t) (Some []) (tx_lock_time t) =
          Ok (tx_of H net (tx_version t) (tx_flag t) (tx_tx_ins t) (tx_tx_outs t) (Some []) (tx_lock_time t))) as T by (apply Tx_Ok; auto).
  split; [exact T|]. split; [split; [exact Fi|split; [exact Fo|split; [constructor|exact T]]]|]. split; [|reflexivity].
  rewrite E. cbn [tx_of tx_bytes tx_version tx_flag tx_tx_ins tx_tx_outs tx_lock_time]. unfold the_witnesses in W. destruct (tx_tx_witnesses t) as [ws|]; [subst ws; reflexivity|].
  reflexivity.
Qed.
Lemma plain_decided (t : tx) : exists segwit : bool, (segwit = false <-> plain t).
Proof.
  unfold plain. destruct (tx_flag t); [exists true; split; [discriminate|intros [X _]; discriminate X]|].
  destruct (tx_tx_witnesses t); [exists true; split; [discriminate|intros [_ X]; discriminate X]|exists false; tauto].
Qed.
Lemma equal_digest t u ty i script value anyone : tx_obj H net t -> tx_obj H net u -> tx_bytes t = tx_bytes u -> (plain t <-> plain u) \/ fork_of name <> None -> all_bytes script ->
  digest H ty net t i script value anyone = digest H ty net u i script value anyone.
Proof.
  intros O P E S B. apply (tx_same t u O P) in E.
  destruct (plain_decided t) as [segwit Sg]. destruct S as [S|S].
  - rewrite (digest_total H name net segwit ty t), (digest_total H name net segwit ty u) by tauto. rewrite E. reflexivity.
  - destruct (plain_decided u) as [segwit' Sg']. rewrite (digest_total H name net segwit ty t), (digest_total H name net segwit' ty u) by tauto. rewrite E.
    unfold exact_digest. destruct (fork_of name); [reflexivity|congruence].
Qed.
End Tx.

(** * Decred *)
Section Decred.
Context (H : hashes) (net : network) (D : decred_only net = Ok tt).
Lemma doutpoint_same o o' : doutpoint_obj net o -> doutpoint_obj net o' -> dop_bytes o = dop_bytes o' -> o = o'.
Proof.
  intros O O' E. apply (doutpoint_obj_iff net D) in O. apply (doutpoint_obj_iff net D) in O'. destruct O as [A [B [C F]]], O' as [A' [B' [C' F']]].
  rewrite F, F' in E. apply app_inj_zlen in E; [|congruence]. destruct E as [E1 E]. apply app_inj_zlen in E; [|congruence]. destruct E as [E2 E3].
  destruct o, o'. cbn in *. congruence.
Qed.
Lemma dtxin_same i i' : dtxin_obj net i -> dtxin_obj net i' -> dti_bytes i = dti_bytes i' -> i = i'.
Proof.
  intros O O' E. apply (dti_inj net D); try assumption. destruct (dtxin_wire net D i O) as [W K]. destruct (dtxin_wire net D i' O') as [W' K'].
  rewrite W, W' in E. apply (pfx_dinput _ _ [] [] K K'). rewrite E. reflexivity.
Qed.
Lemma the_doutput_same o o' : dtxout_obj net o -> dtxout_obj net o' -> the_doutput o = the_doutput o' -> o = o'.
Proof.
  intros O O' E. apply (dtxout_obj_iff net D) in O. apply (dtxout_obj_iff net D) in O'. destruct O as [_ [_ [_ [L C]]]], O' as [_ [_ [_ [L' C']]]].
  destruct o, o'. unfold the_doutput in E. cbn in *. injection E as -> -> ->. congruence.
Qed.
Lemma dtxout_same o o' : dtxout_obj net o -> dtxout_obj net o' -> dto_bytes o = dto_bytes o' -> o = o'.
Proof.
  intros O O' E. apply the_doutput_same; try assumption. destruct (dtxout_wire net D o O) as [W K]. destruct (dtxout_wire net D o' O') as [W' K'].
  rewrite W, W' in E. apply (pfx_doutput _ _ [] [] K K'). rewrite E. reflexivity.
Qed.
Lemma dwitness_same w w' : dwitness_obj net w -> dwitness_obj net w' -> (dw_bytes w = dw_bytes w' <-> the_dspend w = the_dspend w').
Proof.
  intros O O'. destruct (dwitness_wire' net D w O) as [-> K]. destruct (dwitness_wire' net D w' O') as [-> K']. split; [|intros ->; reflexivity].
  intros E. apply (pfx_dspend _ _ [] [] K K'). rewrite E. reflexivity.
Qed.
Lemma dtx_same t u : dtx_obj H net t -> dtx_obj H net u -> (dtx_bytes t = dtx_bytes u <-> same_decred t u).
Proof.
  intros O P. split; [|intros S; apply S]. intros E.
  destruct (dtx_wire H net D t O) as [W [I [J K]]]. destruct (dtx_wire H net D u P) as [W' [I' [J' K']]].
  assert (the_dtx t = the_dtx u) as X by (apply dwire_inj; [exact K|exact K'|congruence]).
  unfold same_decred. rewrite I, J, I', J', X. split; [exact E|]. split; [exact (f_equal d_version X)|].
  split; [pose proof (f_equal d_ins X) as Y; cbn in Y; apply (map_inj_on _ _ (dti_inj net D)); [apply O|apply P|exact Y]|].
  split; [pose proof (f_equal d_outs X) as Y; cbn in Y; apply (map_inj_on _ _ the_doutput_same); [apply O|apply P|exact Y]|].
  split; [exact (f_equal d_lock X)|]. split; [exact (f_equal d_expiry X)|]. split; [exact (f_equal d_spends X)|auto].
Qed.
Lemma dequal_digest t u ty i script anyone : dtx_obj H net t -> dtx_obj H net u -> dtx_bytes t = dtx_bytes u ->
  ddigest H ty net t i script anyone = ddigest H ty net u i script anyone.
Proof.
  intros O P E. rewrite !ddigest_total by assumption.
  destruct (dtx_wire H net D t O) as [W [_ [_ K]]]. destruct (dtx_wire H net D u P) as [W' [_ [_ K']]].
  assert (the_dtx t = the_dtx u) as -> by (apply dwire_inj; [exact K|exact K'|congruence]). reflexivity.
Qed.
End Decred.

(** * Zcash *)
Lemma pfx_fixed {A} (ok : A -> Prop) (w : A -> bytes) k : (forall a, ok a -> zlen (w a) = k) -> (forall a b, ok a -> ok b -> w a = w b -> a = b) -> pfx ok w.
Proof. intros L I a b r s A1 B1 E. apply app_inj_zlen in E; [|rewrite !L by assumption; reflexivity]. destruct E as [E1 E2]. auto. Qed.
Lemma spend_inj net net' s s' : spend_obj net s -> spend_obj net' s' -> spend_wire s = spend_wire s' -> s = s'.
Proof.
  intros O O' E. apply spend_obj_iff in O. apply spend_obj_iff in O'. destruct O as [P [W B]], O' as [P' [W' B']].
  pose proof (layout_inj _ _ W W' eq_refl E) as X. rewrite E in B. rewrite <- B' in B. clear W W' E B'. unfold spend_fields, spend_body_fields in X.
  cbn [map fst app] in X. injection X; clear X; intros. assert (ss_zkproof s = ss_zkproof s') as Z by (eapply sapling_proof_inj; eassumption).
  destruct s as [x0 x1 x2 x3 x4 x5 x6], s' as [y0 y1 y2 y3 y4 y5 y6]. cbn [ss_cv ss_anchor ss_nullifier ss_rk ss_zkproof ss_spend_auth_sig ss_bytes] in *. congruence.
Qed.
Lemma pfx_js net : pfx (sprout_joinsplit_obj net) sprout_joinsplit_wire.
Proof. apply (pfx_fixed _ _ 1802); [apply sprout_js_len|intros a b; apply sprout_joinsplit_inj]. Qed.
Lemma pfx_sjs net : pfx (sapling_joinsplit_obj net) sapling_joinsplit_wire.
Proof. apply (pfx_fixed _ _ 1698); [apply sapling_js_len|intros a b; apply sapling_joinsplit_inj]. Qed.
Lemma pfx_spend net : pfx (spend_obj net) spend_wire.
Proof.
  apply (pfx_fixed _ _ 384); [|intros a b; apply spend_inj]. intros a O. apply spend_obj_iff in O. destruct O as [_ [W _]]. apply (fields_len _ W).
Qed.
Lemma pfx_shielded net : pfx (shielded_output_obj net) shielded_output_wire.
Proof. apply (pfx_fixed _ _ 948); [apply shielded_out_len|intros a b; apply shielded_output_inj]. Qed.

Lemma transparent_same ins outs ins' outs' r s : Forall txin_obj ins -> Forall txout_obj outs -> Forall txin_obj ins' -> Forall txout_obj outs' ->
  zlen ins < 2 ^ 64 -> zlen outs < 2 ^ 64 -> zlen ins' < 2 ^ 64 -> zlen outs' < 2 ^ 64 ->
  inputs_wire ins ++ outputs_wire outs ++ r = inputs_wire ins' ++ outputs_wire outs' ++ s ->
  map the_input ins = map the_input ins' /\ outs = outs' /\ r = s.
Proof.
  intros Fi Fo Fi' Fo' L1 L2 L3 L4 E. unfold inputs_wire, outputs_wire in E.
  assert (forall l, Forall txin_obj l -> Forall input_ok (map the_input l)) as Ki
    by (intros l F; apply Forall_map; eapply Forall_impl; [|exact F]; intros a O; apply (txin_wire a O)).
  apply (pfx_vector _ _ pfx_input) in E; [|split; [rewrite zlen_map; assumption|apply Ki; assumption]|split; [rewrite zlen_map; assumption|apply Ki; assumption]].
  destruct E as [E1 E].
  apply (pfx_vector _ _ pfx_output) in E; [|split; [rewrite zlen_map; assumption|apply the_outputs_ok; assumption]|split; [rewrite zlen_map; assumption|apply the_outputs_ok; assumption]].
  destruct E as [E2 E]. split; [exact E1|]. split; [|exact E]. apply (map_inj_on _ _ the_output_same); assumption.
Qed.
Lemma few ins outs n : Forall txin_obj ins -> Forall txout_obj outs -> zlen (inputs_wire ins) + zlen (outputs_wire outs) <= n -> n <= 100000 ->
  zlen ins < 2 ^ 64 /\ zlen outs < 2 ^ 64.
Proof.
  intros Fi Fo L N. pose proof (transparent_ge _ _ Fi Fo) as G. rewrite (transparent_wire _ _ Fi Fo), zlen_app in G.
  pose proof (zlen_nonneg ins). pose proof (zlen_nonneg outs). assert (100000 < 2 ^ 64) by reflexivity. lia.
Qed.

Section Zcash.
Context (H : hashes) (name : str) (net : network) (En : get_network name = Ok net).
Lemma ow_counts t : overwinter_obj H net t ->
  zlen (ow_tx_ins t) < 2 ^ 64 /\ zlen (ow_tx_outs t) < 2 ^ 64 /\ zlen (ow_lock_time t) = 4 /\ zlen (ow_expiry_height t) = 4 /\ zlen (ow_tx_joinsplits t) < 2 ^ 64.
Proof.
  intros O. apply overwinter_obj_iff in O. destruct O as [Fi [Fo [Fj [A _]]]]. apply (ow_rules_iff name net En _ _ _ _ _ _ _ Fi Fo Fj) in A.
  destruct A as [_ [L [X [_ [J [_ [_ S]]]]]]]. norm_spec. norm_count. unfold overwinter_layout in S. rewrite !zlen_app in S. nonneg_in S.
  assert (5 < 2 ^ 64) by reflexivity.
  match type of S with ?a <= _ => destruct (few _ _ a Fi Fo) end; try lia.
Qed.
Lemma sa_counts t : sapling_obj H net t ->
  zlen (sa_tx_ins t) < 2 ^ 64 /\ zlen (sa_tx_outs t) < 2 ^ 64 /\ zlen (sa_lock_time t) = 4 /\ zlen (sa_expiry_height t) = 4 /\ zlen (sa_value_balance t) = 8 /\
  zlen (sa_tx_joinsplits t) < 2 ^ 64.
Proof.
  intros O. apply sapling_obj_iff in O. destruct O as [Fi [Fo [Fs [Fu [Fj [A _]]]]]]. apply (sa_rules_iff name net En _ _ _ _ _ _ _ _ _ _ _ Fi Fo Fs Fu Fj) in A.
  destruct A as [_ [L [X [B [_ [_ [_ [_ [J [_ [_ S]]]]]]]]]]]. norm_spec. norm_count. unfold sapling_layout in S. rewrite !zlen_app in S. nonneg_in S.
  assert (5 < 2 ^ 64) by reflexivity.
  match type of S with ?a <= _ => destruct (few _ _ a Fi Fo) end; try lia.
Qed.

Lemma overwinter_same t u : overwinter_obj H net t -> overwinter_obj H net u -> (ow_bytes u = ow_bytes t <-> same_overwinter t u).
Proof.
  intros O P. split; [|intros S; apply S]. intros E. pose proof E as E0.
  destruct (overwinter_format H name net En t O) as [W [_ [I [K1 K2]]]]. destruct (overwinter_format H name net En u P) as [W' [_ [I' [K1' K2']]]].
  destruct (ow_counts t O) as [C1 [C2 [C3 [C4 C5]]]]. destruct (ow_counts u P) as [C1' [C2' [C3' [C4' C5']]]].
  destruct (overwinter_keys H net t O) as [Y0 Y1]. destruct (overwinter_keys H net u P) as [Y0' Y1'].
  assert (overwinter_wire u = overwinter_wire t) as Ew by congruence.
  rewrite W, W' in E. unfold overwinter_wire, overwinter_layout, joinsplits_wire in E. apply app_inv_head in E.
  apply overwinter_obj_iff in O. destruct O as [Fi [Fo [Fj _]]]. apply overwinter_obj_iff in P. destruct P as [Fi' [Fo' [Fj' _]]].
  apply transparent_same in E; try assumption. destruct E as [E1 [E2 E]].
  apply app_inj_zlen in E; [|congruence]. destruct E as [E3 E]. apply app_inj_zlen in E; [|congruence]. destruct E as [E4 E].
  apply (pfx_vector _ _ (pfx_js net)) in E; [|split; assumption|split; assumption]. destruct E as [E5 E].
  assert (ow_joinsplit_pubkey u = ow_joinsplit_pubkey t /\ ow_joinsplit_sig u = ow_joinsplit_sig t) as [E6 E7].
  { destruct (ow_tx_joinsplits t) as [|j js] eqn:J.
    - destruct (Y0 eq_refl) as [-> ->]. destruct (Y0' E5) as [-> ->]. auto.
    - destruct Y1 as [Q1 Q2]; [discriminate|]. destruct Y1' as [Q1' Q2']; [rewrite E5; discriminate|].
      apply app_inj_zlen in E; [|congruence]. destruct E as [E6 E7]. split; [apply key_some; assumption|].
      destruct (ow_joinsplit_sig u), (ow_joinsplit_sig t); cbn [opt] in *; change (@zlen Z []) with 0 in *; try lia; congruence. }
  unfold same_overwinter. rewrite I, I', K1, K1', K2, K2', Ew, E5, E6, E7. repeat (split; [first [assumption|reflexivity]|]). reflexivity.
Qed.
Lemma sapling_same t u : sapling_obj H net t -> sapling_obj H net u -> (sa_bytes u = sa_bytes t <-> same_sapling t u).
Proof.
  intros O P. split; [|intros S; apply S]. intros E. pose proof E as E0.
  destruct (sapling_format H name net En t O) as [W [_ [I [K1 K2]]]]. destruct (sapling_format H name net En u P) as [W' [_ [I' [K1' K2']]]].
  destruct (sa_counts t O) as [C1 [C2 [C3 [C4 [C5 C6]]]]]. destruct (sa_counts u P) as [C1' [C2' [C3' [C4' [C5' C6']]]]].
  destruct (sapling_sizes H net t O) as [S1 S2]. destruct (sapling_sizes H net u P) as [S1' S2'].
  assert (253 < 2 ^ 64) as B1 by reflexivity. assert (2 ^ 16 < 2 ^ 64) as B2 by reflexivity.
  destruct (sapling_keys H net t O) as [Y0 [Y1 [Y2 Y3]]]. destruct (sapling_keys H net u P) as [Y0' [Y1' [Y2' Y3']]].
  assert (sapling_wire u = sapling_wire t) as Ew by congruence.
  rewrite W, W' in E. unfold sapling_wire, sapling_layout, joinsplits_wire in E. apply app_inv_head in E.
  apply sapling_obj_iff in O. destruct O as [Fi [Fo [Fs [Fu [Fj _]]]]]. apply sapling_obj_iff in P. destruct P as [Fi' [Fo' [Fs' [Fu' [Fj' _]]]]].
  apply transparent_same in E; try assumption. destruct E as [E1 [E2 E]].
  apply app_inj_zlen in E; [|congruence]. destruct E as [E3 E]. apply app_inj_zlen in E; [|congruence]. destruct E as [E4 E].
  apply app_inj_zlen in E; [|congruence]. destruct E as [E5 E].
  apply (pfx_vector _ _ (pfx_spend net)) in E; [|split; [lia|assumption]|split; [lia|assumption]]. destruct E as [E6 E].
  apply (pfx_vector _ _ (pfx_shielded net)) in E; [|split; [lia|assumption]|split; [lia|assumption]]. destruct E as [E7 E].
  rewrite <- !app_assoc in E.
  apply (pfx_vector _ _ (pfx_sjs net)) in E; [|split; assumption|split; assumption]. destruct E as [E8 E].
  assert (sa_joinsplit_pubkey u = sa_joinsplit_pubkey t /\ sa_joinsplit_sig u = sa_joinsplit_sig t /\ opt (sa_binding_sig u) = opt (sa_binding_sig t)) as [E9 [E10 E11]].
  { destruct (sa_tx_joinsplits t) as [|j js] eqn:J.
    - destruct (Y0 eq_refl) as [Q1 Q2]. destruct (Y0' E8) as [Q1' Q2']. rewrite Q1, Q2, Q1', Q2' in E |- *. auto.
    - destruct Y1 as [pk [sg [Q1 [Q2 [Q3 Q4]]]]]; [discriminate|]. destruct Y1' as [pk' [sg' [Q1' [Q2' [Q3' Q4']]]]]; [rewrite E8; discriminate|].
      rewrite Q1, Q2, Q1', Q2' in E |- *. cbn [opt] in E.
      apply app_inj_zlen in E; [|congruence]. destruct E as [-> E]. apply app_inj_zlen in E; [|congruence]. destruct E as [-> E]. auto. }
  assert (sa_binding_sig u = sa_binding_sig t) as E12.
  { assert (sa_tx_shielded_spends t = [] /\ sa_tx_shielded_outputs t = [] \/ ~ (sa_tx_shielded_spends t = [] /\ sa_tx_shielded_outputs t = [])) as [N|N]
      by (destruct (sa_tx_shielded_spends t), (sa_tx_shielded_outputs t); auto; right; intros [? ?]; discriminate).
    - rewrite (Y2 N). rewrite <- E6, <- E7 in N. rewrite (Y2' N). reflexivity.
    - destruct (Y3 N) as [bs [Q1 _]]. rewrite <- E6, <- E7 in N. destruct (Y3' N) as [bs' [Q1' _]]. rewrite Q1, Q1' in E11 |- *. cbn [opt] in E11. congruence. }
  unfold same_sapling. rewrite I, I', K1, K1', K2, K2', Ew, E8, E9, E10, E12. repeat (split; [first [assumption|reflexivity]|]). reflexivity.
Qed.
Lemma sprout_same t u : sprout_obj H net t -> sprout_obj H net u -> (sp_bytes u = sp_bytes t <-> same_sprout t u).
Proof.
  intros O P. split; [|intros S; apply S]. intros E. pose proof E as E0.
  destruct (sprout_format H name net En t O) as [W [_ [I [K1 K2]]]]. destruct (sprout_format H name net En u P) as [W' [_ [I' [K1' K2']]]].
  destruct (sprout_counts H name net t En O) as [C1 [C2 C3]]. destruct (sprout_counts H name net u En P) as [C1' [C2' C3']].
  pose proof (sprout_version H net t O) as V. pose proof (sprout_version H net u P) as V'.
  assert (sprout_wire u = sprout_wire t) as Ew by congruence.
  rewrite W, W' in E. unfold sprout_wire, sprout_layout, joinsplits_wire in E.
  apply sprout_obj_iff in O. destruct O as [js0 [_ [Fi [Fo [J [Fj _]]]]]]. apply sprout_obj_iff in P. destruct P as [js0' [_ [Fi' [Fo' [J' [Fj' _]]]]]].
  apply app_inj_zlen in E; [|destruct V as [[-> _]|[-> _]], V' as [[-> _]|[-> _]]; reflexivity]. destruct E as [E1 E].
  apply transparent_same in E; try assumption. destruct E as [E2 [E3 E]].
  apply app_inj_zlen in E; [|congruence]. destruct E as [E4 E]. rewrite E1 in E.
  assert (sp_tx_joinsplits u = sp_tx_joinsplits t /\ sp_joinsplit_pubkey u = sp_joinsplit_pubkey t /\ sp_joinsplit_sig u = sp_joinsplit_sig t) as [E5 [E6 E7]].
  { destruct V as [[V [V1 [V2 V3]]]|[V [js [pk [sg [V1 [V2 [V3 [V4 [V5 _]]]]]]]]]].
    - destruct V' as [[_ [V1' [V2' V3']]]|[V' _]]; [|exfalso; rewrite E1, V in V'; discriminate V'].
      rewrite V1, V2, V3, V1', V2', V3'. auto.
    - destruct V' as [[V' _]|[_ [js' [pk' [sg' [V1' [V2' [V3' [V4' [V5' _]]]]]]]]]]; [exfalso; rewrite E1, V in V'; discriminate V'|].
      rewrite V in E. change (le_value v2 =? 1) with false in E. cbn [negb] in E. rewrite J in V1. rewrite J' in V1'. injection V1 as ->. injection V1' as ->.
      rewrite J, J', V3, V5, V3', V5' in *. cbn [opts opt] in E. assert (5 < 2 ^ 64) by reflexivity.
      apply (pfx_vector _ _ (pfx_js net)) in E; [|split; [lia|assumption]|split; [lia|assumption]]. destruct E as [-> E].
      apply app_inj_zlen in E; [|congruence]. destruct E as [-> ->]. auto. }
  unfold same_sprout. rewrite I, I', K1, K1', K2, K2', Ew, E5, E6, E7. repeat (split; [first [assumption|reflexivity]|]). reflexivity.
Qed.

Lemma map_nil_iff (l m : list txin) : map the_input l = map the_input m -> (l = [] <-> m = []).
Proof. destruct l, m; cbn; intros E; try discriminate E; split; congruence. Qed.
Lemma overwinter_equal_digest t u ty value script i joinsplit anyone : overwinter_obj H net t -> overwinter_obj H net u -> ow_bytes u = ow_bytes t ->
  overwinter_sighash H net u ty value script i joinsplit anyone = overwinter_sighash H net t ty value script i joinsplit anyone.
Proof.
  intros O P E. apply (overwinter_same t u O P) in E. rewrite !overwinter_total by assumption.
  destruct E as [_ [_ [E1 [E2 [E3 [E4 [E5 [E6 _]]]]]]]]. unfold exact_zip143, zip_prevouts. rewrite E1, E2, E3, E4, E5, E6. reflexivity.
Qed.
Lemma sapling_equal_digest t u ty value script i joinsplit anyone : sapling_obj H net t -> sapling_obj H net u -> sa_bytes u = sa_bytes t ->
  sapling_sighash H net u ty value i joinsplit script anyone = sapling_sighash H net t ty value i joinsplit script anyone.
Proof.
  intros O P E. apply (sapling_same t u O P) in E. rewrite !sapling_total by assumption.
  destruct E as [_ [_ [E1 [E2 [E3 [E4 [E5 [E6 [E7 [E8 [E9 _]]]]]]]]]]]. unfold exact_zip243, zip_prevouts. rewrite E1, E2, E3, E4, E5, E6, E7, E8, E9. reflexivity.
Qed.
Lemma sprout_equal_digest t u ty i script anyone : sprout_obj H net t -> sprout_obj H net u -> sp_bytes u = sp_bytes t -> all_bytes script ->
  match ty with All => sprout_sighash_all H net u i script anyone | Single => sprout_sighash_single H net u i script anyone end =
  match ty with All => sprout_sighash_all H net t i script anyone | Single => sprout_sighash_single H net t i script anyone end.
Proof.
  intros O P E B. apply (sprout_same t u O P) in E. rewrite !(sprout_total H name net En ty) by assumption.
  destruct E as [_ [_ [E1 [E2 [E3 [E4 [E5 [E6 _]]]]]]]]. unfold exact_sprout.
  assert (length (sp_tx_ins u) = length (sp_tx_ins t)) as -> by (rewrite <- (map_length the_input (sp_tx_ins u)), E2; apply map_length).
  assert (forall n code, sprout_signed n code u = sprout_signed n code t) as X by (intros n code; unfold sprout_signed; rewrite E1, E2, E3, E4, E5, E6; reflexivity).
  rewrite (X 0%nat []). destruct ty; [|reflexivity]. destruct (sp_tx_ins u), (sp_tx_ins t); try discriminate E2; [reflexivity|].
  destruct (length_taken name script); [|reflexivity]. destruct (place _ i); [|reflexivity]. rewrite X. reflexivity.
Qed.
End Zcash.

(** * equal and different *)
Lemma txin_divided i a b : txin_obj i -> ti_script_sig i = a ++ b ->
  exists j, txin_obj j /\ ti_bytes j = ti_bytes i /\ ti_stack_script j = a /\ ti_redeem_script j = b.
Proof.
  intros O E. assert (txin_obj (txin_of (ti_outpoint i) a b (ti_sequence i))) as P.
  { apply txin_obj_iff in O. apply txin_obj_iff. cbn [txin_of ti_outpoint ti_sequence ti_script_sig ti_stack_script ti_redeem_script]. rewrite <- E.
    destruct O as [O1 [O2 [O3 _]]]. auto. }
  exists (txin_of (ti_outpoint i) a b (ti_sequence i)). split; [exact P|]. split; [|split; reflexivity].
  apply (txin_same _ _ P O). unfold the_input. cbn [txin_of ti_outpoint ti_sequence ti_script_sig]. rewrite <- E. reflexivity.
Qed.
Lemma dwitness_divided net w a b : decred_only net = Ok tt -> dwitness_obj net w -> dw_script_sig w = a ++ b ->
  exists x, dwitness_obj net x /\ dw_bytes x = dw_bytes w /\ dw_stack_script x = a /\ dw_redeem_script x = b.
Proof.
  intros D O E. assert (dwitness_obj net (dwitness_of (dw_value w) (dw_height w) (dw_index w) a b)) as P.
  { apply (dwitness_obj_iff net D) in O. apply (dwitness_obj_iff net D). unfold dwitness_of at 1 2 3 4.
    cbn [dw_value dw_height dw_index dw_script_sig]. rewrite <- E. destruct O as [O1 [O2 [O3 [O4 _]]]]. auto. }
  exists (dwitness_of (dw_value w) (dw_height w) (dw_index w) a b). split; [exact P|]. split; [|split; reflexivity].
  apply (dwitness_same net D _ _ P O). unfold the_dspend. cbn [dwitness_of dw_value dw_height dw_index dw_script_sig]. rewrite <- E. reflexivity.
Qed.
Lemma outpoint_as_item o r : outpoint_obj o -> op_tx_id o = 35 :: r -> exists w, witem_obj w /\ wi_bytes w = op_bytes o.
Proof.
  intros O E. apply outpoint_obj_iff in O. destruct O as [A [B C]]. rewrite E in A, C.
  exists {| wi_item := r ++ op_index o; wi_bytes := op_bytes o |}. split; [|reflexivity]. apply witem_obj_iff. cbn [wi_item wi_bytes].
  assert (zlen (r ++ op_index o) = 35) as L by (rewrite zlen_app; unfold zlen in *; cbn [length] in A; lia).
  rewrite L, C. split; reflexivity.
Qed.
Lemma twin_digest H name net t n : get_network name = Ok net -> fork_of name = None -> tx_obj H net t -> plain t -> (n < length (tx_tx_ins t))%nat ->
  exists u, tx_obj H net u /\ tx_bytes u = tx_bytes t /\
    forall script anyone, all_bytes script -> digest H All net u (Z.of_nat n) script None anyone = Err TypeError.
Proof.
  intros En Fk O [Pf Pw] L. destruct (empty_witnesses H net t O) as [u [_ [P [E W]]]]; [unfold the_witnesses; rewrite Pw; reflexivity|].
  exists u. split; [exact P|]. split; [exact E|]. intros script anyone B. rewrite (digest_total H name net true All u); [|exact En|exact P|split; [discriminate|intros [_ X]; congruence]|exact B].
  apply (tx_same H name net En u t P O) in E. rewrite E. unfold exact_digest. rewrite Fk. unfold at_index. cbn [the_tx t_ins]. rewrite map_length.
  unfold place. destruct (Z.ltb_spec (Z.of_nat n) 0); [lia|]. destruct (Z.leb_spec 0 (Z.of_nat n)); [|lia]. destruct (Z.ltb_spec (Z.of_nat n) (Z.of_nat (length (tx_tx_ins t)))); [|lia].
  cbn [andb]. rewrite Nat2Z.id. destruct (nth_error (map the_input (tx_tx_ins t)) n) eqn:X; [reflexivity|]. apply nth_error_None in X. rewrite map_length in X. lia.
Qed.

Lemma descriptions_same net :
  (forall p p', sprout_proof_obj net p -> sprout_proof_obj net p' -> (equal (zk_bytes p) (zk_bytes p') <-> p = p')) /\
  (forall p p', sapling_proof_obj net p -> sapling_proof_obj net p' -> (equal (szk_bytes p) (szk_bytes p') <-> p = p')) /\
  (forall j j', sprout_joinsplit_obj net j -> sprout_joinsplit_obj net j' -> (equal (js_bytes j) (js_bytes j') <-> j = j')) /\
  (forall j j', sapling_joinsplit_obj net j -> sapling_joinsplit_obj net j' -> (equal (js_bytes j) (js_bytes j') <-> j = j')) /\
  (forall s s', spend_obj net s -> spend_obj net s' -> (equal (ss_bytes s) (ss_bytes s') <-> s = s')) /\
  (forall o o', shielded_output_obj net o -> shielded_output_obj net o' -> (equal (so_bytes o) (so_bytes o') <-> o = o')).
Proof.
  repeat apply conj; intros a b A B; rewrite equal_iff; (split; [|intros ->; reflexivity]); intros E; revert E.
  - intros E. apply (sprout_proof_inj net net); try assumption. apply sprout_proof_obj_iff in A. apply sprout_proof_obj_iff in B. destruct A as [_ [_ <-]], B as [_ [_ <-]]. exact E.
  - intros E. apply (sapling_proof_inj net net); try assumption. apply sapling_proof_obj_iff in A. apply sapling_proof_obj_iff in B. destruct A as [_ [_ <-]], B as [_ [_ <-]]. exact E.
  - intros E. apply (sprout_joinsplit_inj net net); try assumption. apply sprout_joinsplit_obj_iff in A. apply sprout_joinsplit_obj_iff in B. destruct A as [_ [_ [_ <-]]], B as [_ [_ [_ <-]]]. exact E.
  - intros E. apply (sapling_joinsplit_inj net net); try assumption. apply sapling_joinsplit_obj_iff in A. apply sapling_joinsplit_obj_iff in B. destruct A as [_ [_ [_ <-]]], B as [_ [_ [_ <-]]]. exact E.
  - intros E. apply (spend_inj net net); try assumption. apply spend_obj_iff in A. apply spend_obj_iff in B. destruct A as [_ [_ <-]], B as [_ [_ <-]]. exact E.
  - intros E. apply (shielded_output_inj net net); try assumption. apply shielded_output_obj_iff in A. apply shielded_output_obj_iff in B. destruct A as [_ [_ <-]], B as [_ [_ <-]]. exact E.
Qed.
