(* Lemmas about MBuilder.v: outpoints, inputs, script sigs and transactions *)
From Coq Require Import String.
From Verif Require Import Py SNum SNet SHash SScript SBech32 SAddr MNet MUtils MShared MScript MTx MZcash MDecred MBase58 MBech32 MCashaddr MAddr MBuilder
  STx SZcash SDecred LBase LNet LUtils LVarint LScript LTx LTxParse LZcash LZcashTx LZcashTop LDecred LAddr LCopy LParse LBuilder.
Open Scope list_scope.
Open Scope Z_scope.

(** ** Script sigs *)
Lemma split_ws_aux_snoc a c cur : split_ws_aux (a ++ 32 :: c) cur = split_ws_aux a cur ++ split_ws_aux c [].
Proof.
  revert cur. induction a as [|x a IH]; intros cur; cbn [split_ws_aux app].
  - change (py_space 32) with true. cbn match. destruct cur; reflexivity.
  - destruct (py_space x); [destruct cur; rewrite IH; reflexivity|apply IH].
Qed.
Lemma split_ws_two a c : split_ws (a ++ lit " " ++ c) = split_ws a ++ split_ws c.
Proof. exact (split_ws_aux_snoc a c []). Qed.
Lemma mapM_app {A B} (f : A -> res B) l m : mapM f (l ++ m) = (x <- mapM f l ;; y <- mapM f m ;; Ok (x ++ y)).
Proof.
  induction l as [|a l IH]; cbn [mapM app bind]; [destruct (mapM f m); reflexivity|].
  destruct (f a) as [b|e]; [|reflexivity]. cbn [bind]. rewrite IH. destruct (mapM f l); [|reflexivity]. cbn [bind].
  destruct (mapM f m); reflexivity.
Qed.
Lemma serialize_two net a c : serialize net (a ++ lit " " ++ c) = (x <- serialize net a ;; y <- serialize net c ;; Ok (x ++ y)).
Proof.
  unfold serialize. rewrite split_ws_two, mapM_app. destruct (mapM _ (split_ws a)); [|reflexivity]. cbn [bind].
  destruct (mapM _ (split_ws c)); [|reflexivity]. cbn [bind]. rewrite concat_app. reflexivity.
Qed.

Lemma code_to_int_byte op v : code_to_int op = Ok v -> 0 <= v < 256.
Proof.
  unfold code_to_int. destruct (CODE_TO_INT op) as [x|] eqn:E; [|discriminate]. intros Q. apply Ok_inj in Q. subst x.
  unfold CODE_TO_INT in E. apply assoc_str_In in E.
  assert (forallb (fun o => (0 <=? snd o) && (snd o <? 256)) OPCODE_LIST = true) as F by (vm_compute; reflexivity).
  rewrite forallb_forall in F. specialize (F _ E). cbn [snd] in F. lia.
Qed.

Lemma overwrite_byte name net t v : get_network name = Ok net -> assoc_str t (CODE_TO_INT_OVERWRITE net) = Some v -> 0 <= v < 256.
Proof.
  intros En E. apply assoc_str_In in E.
  assert (forallb (fun o => (0 <=? snd o) && (snd o <? 256)) (CODE_TO_INT_OVERWRITE net) = true) as F.
  { revert En. apply (supported_forall (fun _ n => forallb (fun o => (0 <=? snd o) && (snd o <? 256)) (CODE_TO_INT_OVERWRITE n))). vm_compute. reflexivity. }
  rewrite forallb_forall in F. specialize (F _ E). cbn [snd] in F. lia.
Qed.
Lemma push_bytes f d : push_fits f d -> is_bytes (push f d).
Proof.
  intros [B L]. apply all_bytes_is_bytes in B. pose proof (zlen_nonneg d). change (len d) with (zlen d) in L. destruct f; unfold push; change (len d) with (zlen d).
  - constructor; [unfold is_byte; lia|exact B].
  - constructor; [unfold is_byte; lia|]. constructor; [unfold is_byte; lia|exact B].
  - constructor; [unfold is_byte; lia|]. apply Forall_app. split; [apply le_bytes_is_bytes|exact B].
Qed.
Lemma serialize_bytes name net t b : get_network name = Ok net -> serialize net t = Ok b -> is_bytes b.
Proof.
  intros En E. unfold serialize in E. destruct (mapM _ _) as [ps|] eqn:M; [|discriminate]. cbn [bind] in E. apply Ok_inj in E. subst b.
  revert ps M. induction (split_ws t) as [|w ws IH]; intros ps M; cbn [mapM] in M; [apply Ok_inj in M; subst; constructor|].
  destruct (serialize_token net w) as [x|] eqn:W; [|discriminate]. cbn [bind] in M. destruct (mapM _ ws) as [xs|] eqn:X; [|discriminate].
  cbn [bind] in M. apply Ok_inj in M. subst ps. cbn [concat]. apply Forall_app. split; [|apply IH; reflexivity].
  unfold serialize_token, guard in W. destruct (leqb w _ || leqb w _); [discriminate|]. cbn [bind] in W.
  destruct (assoc_str w (CODE_TO_INT_OVERWRITE net)) as [v|] eqn:A.
  { apply Ok_inj in W. subst x. constructor; [|constructor]. apply (overwrite_byte name net w v En A). }
  destruct (CODE_TO_INT w) as [v|] eqn:C.
  { apply Ok_inj in W. subst x. constructor; [|constructor]. apply (code_to_int_byte w). unfold code_to_int. rewrite C. reflexivity. }
  destruct (fromhex w) as [d|] eqn:F; [|discriminate]. cbn [bind] in W. pose proof (fromhex_bytes w d F) as B.
  destruct (Z.ltb_spec 1000 (zlen d)) as [Q|Q]; [rewrite serialize_push_big in W by exact Q; discriminate|].
  destruct (Z.eqb_spec (zlen d) 0) as [N|N]; [apply zlen_0 in N; subst d; rewrite serialize_push_0 in W; discriminate|].
  pose proof (zlen_nonneg d). pose proof (proj2 (all_bytes_is_bytes d) B) as B'.
  assert (1 <= len d <= 1000) as L by (change (len d) with (zlen d); lia).
  rewrite serialize_push_small in W by assumption. apply Ok_inj in W. subst x. apply push_bytes, smallest_fits; assumption.
Qed.

Lemma hex_word d : is_bytes d -> d <> [] -> split_ws (hex d) = [hex d].
Proof.
  intros B N. pose proof (hex_no_space d B) as S. rewrite <- (app_nil_r (hex d)) at 1. unfold split_ws.
  rewrite split_ws_aux_word by exact S. cbn [split_ws_aux]. rewrite app_nil_r. destruct d as [|x d]; [contradiction|].
  destruct (rev (hex (x :: d))) as [|y l] eqn:R.
  - apply (f_equal (@rev _)) in R. rewrite rev_involutive in R. cbn in R. discriminate.
  - rewrite <- R, rev_involutive. reflexivity.
Qed.

Section Sig.
Variables (name : str) (net : network).
Hypothesis En : get_network name = Ok net.

Lemma serialize_hex d : is_bytes d -> d <> [] -> serialize net (hex d) = serialize_push d.
Proof.
  intros B N. unfold serialize. rewrite hex_word by assumption. cbn [mapM]. rewrite (serialize_token_data name net d En B).
  destruct (serialize_push d); cbn [bind concat]; rewrite ?app_nil_r; reflexivity.
Qed.

Lemma script_sig_exact stack redeem : make_script_sig net stack redeem =
  match serialize net redeem with
  | Err e => Err e
  | Ok b => match serialize net stack with
            | Err e => Err e
            | Ok s => if len b =? 0 then Ok s else if len b <=? 1000 then Ok (s ++ push (smallest b) b) else Err NotImplementedError
            end
  end.
Proof.
  unfold make_script_sig, hex_serialize. destruct (serialize net redeem) as [b|] eqn:E; [|reflexivity]. cbn [bind].
  rewrite serialize_two. destruct (serialize net stack) as [s|]; [|reflexivity]. cbn [bind].
  pose proof (serialize_bytes name net redeem b En E) as B. change (len b) with (zlen b).
  destruct (Z.eqb_spec (zlen b) 0) as [N|N].
  { apply zlen_0 in N. subst b. change (serialize net (hex [])) with (@Ok bytes []). cbn [bind]. rewrite app_nil_r. reflexivity. }
  rewrite serialize_hex; [|exact B|intros ->; apply N; reflexivity]. pose proof (zlen_nonneg b).
  destruct (Z.leb_spec (zlen b) 1000).
  - rewrite serialize_push_small; [reflexivity|apply all_bytes_is_bytes, B|change (len b) with (zlen b); lia].
  - rewrite serialize_push_big by lia. reflexivity.
Qed.

Lemma script_sig_text ts es stack redeem b : Forall (standard_element name) es -> Forall2 spelled ts es -> words ts stack ->
  serialize net redeem = Ok b -> 1 <= len b <= 1000 ->
  Forall (standard_element name) (es ++ [Push (smallest b) b]) /\
  make_script_sig net stack redeem = Ok (concat (map wire (es ++ [Push (smallest b) b]))) /\
  deserialize net (concat (map wire (es ++ [Push (smallest b) b]))) = Ok (join (lit " ") (map text es ++ [hex b])).
Proof.
  intros F Sp W Er L. destruct (c17 name net ts es stack En F Sp W) as [Es _].
  pose proof (serialize_bytes name net redeem b En Er) as B.
  assert (Forall (standard_element name) (es ++ [Push (smallest b) b])) as F'.
  { apply Forall_app. split; [exact F|]. constructor; [|constructor]. split; [apply all_bytes_is_bytes, B|]. split; [exact L|reflexivity]. }
  split; [exact F'|]. split.
  - rewrite script_sig_exact, Er, Es. destruct (Z.eqb_spec (len b) 0); [lia|]. destruct (Z.leb_spec (len b) 1000); [|lia].
    rewrite map_app, concat_app. cbn [map concat wire]. rewrite app_nil_r. reflexivity.
  - pose proof (deserialize_wires name net _ En (standard_oks _ _ F')) as D. rewrite (map_app text) in D. exact D.
Qed.
End Sig.

Section Ins.
Variables (name : str) (net : network).
Hypothesis En : get_network name = Ok net.

(** ** Outpoints and inputs *)
Lemma outpoint_plain b index tree : ~ In name decred_names -> is_bytes b -> len b = 32 -> 0 <= index < 2 ^ 32 ->
  exists o, simple_outpoint net (hex b) index tree = Ok (AnyOutpoint o) /\ outpoint_obj o /\ op_tx_id o = rev b /\ op_index o = le_bytes 4 index.
Proof.
  intros N B L R. unfold simple_outpoint. rewrite (fromhex_hex b B). cbn [bind]. unfold make_outpoint.
  rewrite (on_decred_false name net En N), padded4, word_Ok by (cbn; lia). cbn [bind]. rewrite Outpoint_spec, zlen_rev, zlen_le_bytes.
  change (zlen b) with (len b). rewrite L. change ((32 =? 32) && (Z.of_nat 4 =? 4)) with true. cbn match. cbn [bind]. eexists. split; [reflexivity|]. split; [|split; reflexivity].
  apply outpoint_obj_iff. cbn [op_tx_id op_index op_bytes]. rewrite zlen_rev, zlen_le_bytes. change (zlen b) with (len b). auto.
Qed.
Lemma outpoint_decred b index tree : In name decred_names -> is_bytes b -> len b = 32 -> 0 <= index < 2 ^ 32 ->
  match tree with Some t => 0 <= t < 256 | None => True end ->
  exists o, simple_outpoint net (hex b) index tree = Ok (AnyDecredOutpoint o) /\ doutpoint_obj net o /\
    dop_tx_id o = rev b /\ dop_index o = le_bytes 4 index /\ dop_tree o = [match tree with Some t => t | None => 0 end].
Proof.
  intros I B L R T. unfold simple_outpoint. rewrite (fromhex_hex b B). cbn [bind]. unfold make_outpoint.
  rewrite (on_decred_true name net En I), padded4, word_Ok by (cbn; lia). cbn [bind].
  assert (match tree with Some t => i2le_padded t 1 | None => Ok [0] end = Ok [match tree with Some t => t | None => 0 end]) as ->.
  { destruct tree as [t|]; [|reflexivity]. rewrite padded1, word_Ok by (cbn; lia). f_equal. unfold le_bytes. cbn [seq map].
    rewrite Z.div_1_r, Z.mod_small by lia. reflexivity. }
  cbn [bind]. destruct (DecredOutpoint net (rev b) (le_bytes 4 index) [match tree with Some t => t | None => 0 end]) as [o|] eqn:E.
  - exists o. split; [reflexivity|]. pose proof (doutpoint_fields net _ _ _ _ E) as [A1 [A2 [A3 A4]]]. auto.
  - exfalso. revert E. rewrite (DecredOutpoint_spec net (decred_only_Ok name net En I)), zlen_rev, zlen_le_bytes. change (zlen b) with (len b). rewrite L. cbn. discriminate.
Qed.
Lemma outpoint_bad b index tree : is_bytes b -> len b <> 32 -> 0 <= index < 2 ^ 32 -> match tree with Some t => 0 <= t < 256 | None => True end ->
  simple_outpoint net (hex b) index tree = Err ValueError.
Proof.
  intros B L R T. unfold simple_outpoint. rewrite (fromhex_hex b B). cbn [bind]. unfold make_outpoint.
  change (len b) with (zlen b) in L.
  destruct (on_decred net) eqn:D.
  - assert (exists x, match tree with Some t => i2le_padded t 1 | None => Ok [0] end = Ok x) as [x ->].
    { destruct tree as [t|]; [|eauto]. rewrite padded1, word_Ok by (cbn; lia). eauto. }
    cbn [bind]. rewrite padded4, word_Ok by (cbn; lia). cbn [bind]. rewrite (DecredOutpoint_spec net (decred_only_Ok name net En (proj1 (decred_only_names name net En) D))), zlen_rev.
    destruct (Z.eqb_spec (zlen b) 32); [contradiction|]. reflexivity.
  - rewrite padded4, word_Ok by (cbn; lia). cbn [bind]. rewrite Outpoint_spec, zlen_rev.
    destruct (Z.eqb_spec (zlen b) 32); [contradiction|]. reflexivity.
Qed.
Lemma outpoint_overflow b index tree : is_bytes b -> ~ 0 <= index < 2 ^ 32 -> match tree with Some t => 0 <= t < 256 | None => True end ->
  simple_outpoint net (hex b) index tree = Err OverflowError.
Proof.
  intros B R T. unfold simple_outpoint. rewrite (fromhex_hex b B). cbn [bind]. unfold make_outpoint.
  rewrite padded4, word_Err by (cbn; lia). destruct (on_decred net); [|reflexivity].
  assert (exists x, match tree with Some t => i2le_padded t 1 | None => Ok [0] end = Ok x) as [x ->].
  { destruct tree as [t|]; [|eauto]. rewrite padded1, word_Ok by (cbn; lia). eauto. }
  reflexivity.
Qed.

Lemma input_plain o stack redeem seq : ~ In name decred_names -> outpoint_obj o -> 0 <= seq < 2 ^ 32 -> len stack + len redeem <= 1650 ->
  exists i, make_legacy_input net (AnyOutpoint o) stack redeem seq = Ok (AnyIn i) /\ txin_obj i /\
    ti_stack_script i = stack /\ ti_redeem_script i = redeem /\
    the_input i = {| in_txid := op_tx_id o; in_index := op_index o; in_script := stack ++ redeem; in_sequence := le_bytes 4 seq |}.
Proof.
  intros N O R L. unfold make_legacy_input. rewrite padded4, word_Ok by (cbn; lia). cbn [bind]. rewrite (on_decred_false name net En N).
  unfold plain_in. pose proof O as O'. apply outpoint_obj_iff in O'. destruct O' as [A [B C]].
  destruct (TxIn o stack redeem (le_bytes 4 seq)) as [i|] eqn:E.
  - cbn [bind]. exists i. split; [reflexivity|]. pose proof (txin_fields _ _ _ _ _ E) as [F1 [F2 [F3 [F4 F5]]]].
    split; [exact (F5 O)|]. split; [exact F2|]. split; [exact F3|]. unfold the_input. rewrite F1, F4.
    rewrite TxIn_spec in E. destruct (_ && _)%bool; [|discriminate]. apply Ok_inj in E. subst i. reflexivity.
  - exfalso. revert E. rewrite TxIn_spec, zlen_le_bytes, C, !zlen_app, A, B. change (32 + 4 =? 36) with true. change (Z.of_nat 4 =? 4) with true. cbn [andb].
    change (zlen stack + zlen redeem) with (len stack + len redeem). destruct (Z.leb_spec (len stack + len redeem) 1650); [discriminate|lia].
Qed.
Lemma input_decred o stack redeem seq : In name decred_names -> doutpoint_obj net o -> 0 <= seq < 2 ^ 32 ->
  exists i, make_legacy_input net (AnyDecredOutpoint o) stack redeem seq = Ok (AnyDecredIn i) /\ dtxin_obj net i /\
    dti_outpoint i = o /\ dti_sequence i = le_bytes 4 seq.
Proof.
  intros I O R. unfold make_legacy_input. rewrite padded4, word_Ok by (cbn; lia). cbn [bind]. rewrite (on_decred_true name net En I).
  unfold decred_in. pose proof (decred_only_Ok name net En I) as D.
  destruct (DecredTxIn net o (le_bytes 4 seq)) as [i|] eqn:E.
  - cbn [bind]. exists i. split; [reflexivity|]. pose proof (dtxin_fields net _ _ _ E) as [F1 [F2 F3]]. auto.
  - exfalso. revert E. unfold doutpoint_obj in O. rewrite (DecredOutpoint_spec net D) in O.
    destruct ((zlen (dop_tx_id o) =? 32) && _ && _)%bool eqn:G; [|discriminate]. rewrite !andb_true_iff, !Z.eqb_eq in G. destruct G as [[G1 G2] G3]. apply Ok_inj in O.
    rewrite (DecredTxIn_spec net D), zlen_le_bytes. rewrite <- O. cbn [dop_bytes]. rewrite !zlen_app, G1, G2, G3. cbn. discriminate.
Qed.
Lemma input_overflow o stack redeem seq : ~ 0 <= seq < 2 ^ 32 -> make_legacy_input net o stack redeem seq = Err OverflowError /\
  make_witness_input net o seq = Err OverflowError.
Proof. intros R. unfold make_legacy_input, make_witness_input. rewrite padded4, word_Err by (cbn; lia). split; reflexivity. Qed.
Lemma input_long o stack redeem seq : ~ In name decred_names -> 1650 < len stack + len redeem -> 0 <= seq < 2 ^ 32 ->
  make_legacy_input net o stack redeem seq = Err ValueError.
Proof.
  intros N L R. unfold make_legacy_input. rewrite padded4, word_Ok by (cbn; lia). cbn [bind]. rewrite (on_decred_false name net En N).
  unfold plain_in. destruct o as [o|o]; [|reflexivity]. rewrite TxIn_spec, zlen_app. change (zlen stack + zlen redeem) with (len stack + len redeem).
  destruct (Z.leb_spec (len stack + len redeem) 1650); [lia|]. rewrite andb_false_r. reflexivity.
Qed.
End Ins.

(** ** Transactions *)
Lemma plain_ins_Ok l : plain_ins (map AnyIn l) = Ok l.
Proof. induction l as [|a l IH]; [reflexivity|]. unfold plain_ins in *. cbn [map mapM bind]. rewrite IH. reflexivity. Qed.
Lemma plain_outs_Ok l : plain_outs (map AnyOut l) = Ok l.
Proof. induction l as [|a l IH]; [reflexivity|]. unfold plain_outs in *. cbn [map mapM bind]. rewrite IH. reflexivity. Qed.
Lemma decred_ins_Ok l : decred_ins (map AnyDecredIn l) = Ok l.
Proof. induction l as [|a l IH]; [reflexivity|]. unfold decred_ins in *. cbn [map mapM bind]. rewrite IH. reflexivity. Qed.
Lemma decred_outs_Ok l : decred_outs (map AnyDecredOut l) = Ok l.
Proof. induction l as [|a l IH]; [reflexivity|]. unfold decred_outs in *. cbn [map mapM bind]. rewrite IH. reflexivity. Qed.
Lemma sprout_jss_Ok l : sprout_jss (map AnySproutJs l) = Ok l.
Proof. induction l as [|a l IH]; [reflexivity|]. unfold sprout_jss in *. cbn [map mapM bind]. rewrite IH. reflexivity. Qed.
Lemma sapling_jss_Ok l : sapling_jss (map AnySaplingJs l) = Ok l.
Proof. induction l as [|a l IH]; [reflexivity|]. unfold sapling_jss in *. cbn [map mapM bind]. rewrite IH. reflexivity. Qed.

Definition empty_witness : witness := {| wit_stack := []; wit_bytes := [0] |}.
Lemma make_empty_witness_Ok : make_empty_witness = Ok empty_witness.
Proof. reflexivity. Qed.
Lemma empty_witness_obj : witness_obj empty_witness.
Proof. apply witness_obj_iff. cbn. split; [constructor|split; [lia|reflexivity]]. Qed.
Lemma empty_witnesses {A} (l : list A) : mapM (fun _ => make_empty_witness) l = Ok (repeat empty_witness (length l)).
Proof. induction l as [|a l IH]; [reflexivity|]. cbn [mapM]. rewrite IH. reflexivity. Qed.

Section Txs.
Variables (H : hashes) (name : str) (net : network).
Hypothesis En : get_network name = Ok net.

Lemma has_false (x : str) (l : list str) : (net_has net x = true <-> In name l) -> ~ In name l -> contains (get_current_network_name net) x = false.
Proof. intros I N. destruct (contains _ x) eqn:E; [|reflexivity]. destruct N. apply I. exact E. Qed.
Lemma has_true (x : str) (l : list str) : (net_has net x = true <-> In name l) -> In name l -> contains (get_current_network_name net) x = true.
Proof. intros I N. apply I, N. Qed.

Lemma zcash_parts : ~ In name zcash_names -> ~ In name sprout_names /\ ~ In name overwinter_names /\ ~ In name sapling_names.
Proof. unfold zcash_names. intros N. repeat split; intros X; apply N; rewrite !in_app_iff; auto. Qed.
Lemma families : (In name sprout_names -> ~ In name decred_names /\ ~ In name overwinter_names /\ ~ In name sapling_names) /\
  (In name overwinter_names -> ~ In name decred_names /\ ~ In name sprout_names /\ ~ In name sapling_names) /\
  (In name sapling_names -> ~ In name decred_names /\ ~ In name sprout_names /\ ~ In name overwinter_names).
Proof.
  assert (forall l m : list str, forallb (fun x => negb (str_mem x m)) l = true -> In name l -> ~ In name m) as D.
  { intros l m F I J. rewrite forallb_forall in F. specialize (F _ I). apply str_mem_In in J. rewrite J in F. discriminate. }
  split; [|split]; intros J; (split; [|split]); (eapply D; [|exact J]; vm_compute; reflexivity).
Qed.

(* outside Decred and Zcash, and on Sprout without joinsplits *)
Definition plain_family (js : option (list any_js)) : Prop :=
  ~ In name decred_names /\ ~ In name overwinter_names /\ ~ In name sapling_names /\ (In name sprout_names -> js = None).

Lemma make_tx_plain v ins outs lock expiry vb sp so (ws : option (list witness)) js pk sg bs : plain_family js ->
  0 <= v < 2 ^ 32 -> 0 <= lock < 2 ^ 32 -> Forall txin_obj ins -> Forall txout_obj outs ->
  match ws with Some l => Forall witness_obj l | None => True end ->
  1 <= count ins < 2 ^ 64 -> 1 <= count outs < 2 ^ 64 ->
  match ws with Some l => l = [] \/ count l = count ins | None => True end ->
  exists t, make_tx H net v (map AnyIn ins) (map AnyOut outs) lock expiry vb sp so (match ws with Some l => Wits l | None => NoWits end) js pk sg bs = Ok (AnyTx t) /\
    tx_obj H net t /\
    the_tx t = {| t_version := le_bytes 4 v; t_ins := map the_input ins; t_outs := map the_output outs;
                  t_witness := match ws with Some l => Some (map the_stack l) | None => None end; t_lock := le_bytes 4 lock |}.
Proof.
  intros [N1 [N2 [N3 N4]]] Rv Rl Fi Fo Fw Ci Co Cw. unfold make_tx.
  rewrite (has_false _ _ (decred_only_names name net En) N1), (has_false _ _ (overwinter_has name net En) N2), (has_false _ _ (sapling_has name net En) N3).
  assert (contains (get_current_network_name net) (lit "sprout") && match js with Some _ => true | None => false end = false) as ->.
  { destruct js; [|apply andb_false_r]. rewrite (has_false _ _ (sprout_has name net En)); [reflexivity|]. intros X. specialize (N4 X). discriminate. }
  rewrite !padded4, !word_Ok by (cbn; lia). rewrite plain_ins_Ok, plain_outs_Ok. cbn [bind].
  set (flag := match ws with Some _ => Some (SEGWIT_TX_FLAG net) | None => None end).
  assert (match match ws with Some l => Wits l | None => NoWits end with
          | NoWits => Ok None | Wits ws0 => Ok (Some ws0) | DecredWits [] => Ok (Some []) | _ => Err ValueError end = Ok ws) as ->.
  { destruct ws; reflexivity. }
  assert (match match ws with Some l => Wits l | None => NoWits end with NoWits => None | _ => Some (SEGWIT_TX_FLAG net) end = flag) as ->.
  { destruct ws; reflexivity. }
  cbn [bind]. destruct (Tx H net (le_bytes 4 v) flag ins outs ws (le_bytes 4 lock)) as [t|] eqn:E.
  - cbn [bind]. exists t. split; [reflexivity|]. pose proof (tx_fields H net _ _ _ _ _ _ _ E) as [F1 [F2 [F3 [F4 [F5 [F6 F7]]]]]].
    split; [exact (F7 Fi Fo Fw)|]. unfold the_tx, the_witnesses. rewrite F1, F2, F3, F4, F5, F6. unfold flag. destruct ws; reflexivity.
  - exfalso. revert E. rewrite Tx_spec. unfold tx_args_ok. rewrite !zlen_le_bytes. change (Z.of_nat 4 =? 4) with true. cbn [andb].
    assert (flag_ok net flag = true) as -> by (unfold flag_ok, flag; destruct ws; [apply leqb_refl|reflexivity]).
    assert (wits_ok flag ws (zlen ins) = true) as ->.
    { unfold wits_ok, flag. destruct ws as [l|]; [|reflexivity]. destruct Cw as [->|Cw]; [reflexivity|].
      change (zlen l) with (count l). change (zlen ins) with (count ins). rewrite Cw, Z.eqb_refl. apply orb_true_r. }
    change (zlen ins) with (count ins). change (zlen outs) with (count outs).
    destruct (Z.leb_spec 1 (count ins)); [|lia]. destruct (Z.leb_spec 1 (count outs)); [|lia].
    destruct (Z.ltb_spec (count ins) (2 ^ 64)); [|lia]. destruct (Z.ltb_spec (count outs) (2 ^ 64)); [|lia]. discriminate.
Qed.
Lemma make_tx_plain_empty v ins outs lock expiry vb sp so (ws : option (list witness)) js pk sg bs : plain_family js ->
  0 <= v < 2 ^ 32 -> 0 <= lock < 2 ^ 32 -> ins = [] \/ outs = [] ->
  make_tx H net v (map AnyIn ins) (map AnyOut outs) lock expiry vb sp so (match ws with Some l => Wits l | None => NoWits end) js pk sg bs = Err ValueError.
Proof.
  intros [N1 [N2 [N3 N4]]] Rv Rl X. unfold make_tx.
  rewrite (has_false _ _ (decred_only_names name net En) N1), (has_false _ _ (overwinter_has name net En) N2), (has_false _ _ (sapling_has name net En) N3).
  assert (contains (get_current_network_name net) (lit "sprout") && match js with Some _ => true | None => false end = false) as ->.
  { destruct js; [|apply andb_false_r]. rewrite (has_false _ _ (sprout_has name net En)); [reflexivity|]. intros Y. specialize (N4 Y). discriminate. }
  rewrite !padded4, !word_Ok by (cbn; lia). rewrite plain_ins_Ok, plain_outs_Ok. cbn [bind].
  assert (match match ws with Some l => Wits l | None => NoWits end with
          | NoWits => Ok None | Wits ws0 => Ok (Some ws0) | DecredWits [] => Ok (Some []) | _ => Err ValueError end = Ok ws) as ->.
  { destruct ws; reflexivity. }
  cbn [bind]. rewrite Tx_spec. unfold tx_args_ok. destruct X as [->| ->]; cbn [zlen length Z.of_nat].
  - destruct (Z.leb_spec 1 0); [lia|]. rewrite andb_false_r. reflexivity.
  - destruct (Z.leb_spec 1 0); [lia|]. rewrite andb_false_r. reflexivity.
Qed.
Lemma make_tx_overflow v ins outs lock expiry vb sp so ws js pk sg bs : plain_family js -> ~ (0 <= v < 2 ^ 32 /\ 0 <= lock < 2 ^ 32) ->
  make_tx H net v ins outs lock expiry vb sp so ws js pk sg bs = Err OverflowError.
Proof.
  intros [N1 [N2 [N3 N4]]] R. unfold make_tx.
  rewrite (has_false _ _ (decred_only_names name net En) N1), (has_false _ _ (overwinter_has name net En) N2), (has_false _ _ (sapling_has name net En) N3).
  assert (contains (get_current_network_name net) (lit "sprout") && match js with Some _ => true | None => false end = false) as ->.
  { destruct js; [|apply andb_false_r]. rewrite (has_false _ _ (sprout_has name net En)); [reflexivity|]. intros Y. specialize (N4 Y). discriminate. }
  rewrite !padded4. unfold word. change (256 ^ Z.of_nat 4) with (2 ^ 32).
  destruct (Z.leb_spec 0 v), (Z.ltb_spec v (2 ^ 32)), (Z.leb_spec 0 lock), (Z.ltb_spec lock (2 ^ 32)); cbn [andb bind]; try reflexivity. lia.
Qed.

(* Overwinter *)
Lemma make_tx_overwinter v ins outs lock expiry vb sp so ws js pk sg bs : In name overwinter_names ->
  0 <= lock < 2 ^ 32 -> 0 <= expiry < 2 ^ 32 -> Forall txin_obj ins -> Forall txout_obj outs -> Forall (sprout_joinsplit_obj net) js ->
  overwinter_rules name ins outs (le_bytes 4 lock) (le_bytes 4 expiry) js pk sg ->
  exists t, make_tx H net v (map AnyIn ins) (map AnyOut outs) lock (Some expiry) vb sp so ws (Some (map AnySproutJs js)) pk sg bs = Ok (AnyOverwinterTx t) /\
    overwinter_obj H net t /\ ow_tx_ins t = ins /\ ow_tx_outs t = outs /\ ow_lock_time t = le_bytes 4 lock /\ ow_expiry_height t = le_bytes 4 expiry /\
    ow_tx_joinsplits t = js /\ ow_joinsplit_pubkey t = needed js pk /\ ow_joinsplit_sig t = needed js sg.
Proof.
  intros I Rl Re Fi Fo Fj R. destruct (proj1 (proj2 families) I) as [N1 [N2 N3]]. unfold make_tx.
  rewrite (has_false _ _ (decred_only_names name net En) N1), (has_false _ _ (sprout_has name net En) N2), (has_true _ _ (overwinter_has name net En) I).
  cbn [andb i2le_padded_opt]. rewrite !padded4, !word_Ok by (cbn; lia). rewrite plain_ins_Ok, plain_outs_Ok, sprout_jss_Ok. cbn [bind].
  destruct (proj1 (overwinter_ctor H name net En ins outs (le_bytes 4 lock) (le_bytes 4 expiry) js pk sg Fi Fo Fj) R) as [t [E X]].
  rewrite E. exists t. split; [reflexivity|exact X].
Qed.
Lemma make_tx_sapling v ins outs lock expiry vb sp so ws js pk sg bs : In name sapling_names ->
  0 <= lock < 2 ^ 32 -> 0 <= expiry < 2 ^ 32 -> 0 <= vb < 2 ^ 64 -> Forall txin_obj ins -> Forall txout_obj outs ->
  Forall (spend_obj net) sp -> Forall (shielded_output_obj net) so -> Forall (sapling_joinsplit_obj net) js ->
  sapling_rules name ins outs (le_bytes 4 lock) (le_bytes 4 expiry) (le_bytes 8 vb) sp so js pk sg bs ->
  exists t, make_tx H net v (map AnyIn ins) (map AnyOut outs) lock (Some expiry) vb (Some sp) (Some so) ws (Some (map AnySaplingJs js)) pk sg bs = Ok (AnySaplingTx t) /\
    sapling_obj H net t /\ sa_tx_ins t = ins /\ sa_tx_outs t = outs /\ sa_lock_time t = le_bytes 4 lock /\ sa_expiry_height t = le_bytes 4 expiry /\
    sa_value_balance t = le_bytes 8 vb /\ sa_tx_shielded_spends t = sp /\ sa_tx_shielded_outputs t = so /\ sa_tx_joinsplits t = js.
Proof.
  intros I Rl Re Rb Fi Fo Fsp Fso Fj R. destruct (proj2 (proj2 families) I) as [N1 [N2 N3]]. unfold make_tx.
  rewrite (has_false _ _ (decred_only_names name net En) N1), (has_false _ _ (sprout_has name net En) N2), (has_false _ _ (overwinter_has name net En) N3), (has_true _ _ (sapling_has name net En) I).
  cbn [andb i2le_padded_opt]. rewrite !padded4, !padded8, !word_Ok by (cbn; lia). rewrite plain_ins_Ok, plain_outs_Ok, sapling_jss_Ok. cbn [bind].
  destruct (proj1 (sapling_ctor H name net En ins outs (le_bytes 4 lock) (le_bytes 4 expiry) (le_bytes 8 vb) sp so js pk sg bs Fi Fo Fsp Fso Fj) R) as [t [E [O X]]].
  rewrite E. exists t. split; [reflexivity|]. split; [exact O|]. tauto.
Qed.
Lemma make_tx_decred v ins outs lock expiry vb sp so w js pk sg bs : In name decred_names ->
  0 <= v < 2 ^ 32 -> 0 <= lock < 2 ^ 32 -> 0 <= expiry < 2 ^ 32 -> Forall (dtxin_obj net) ins -> Forall (dtxout_obj net) outs -> dwitness_obj net w ->
  make_tx H net v (map AnyDecredIn ins) (map AnyDecredOut outs) lock (Some expiry) vb sp so (DecredWit w) js pk sg bs =
  (t <- DecredTx H net (le_bytes 4 v) ins outs (le_bytes 4 lock) (le_bytes 4 expiry) [w] ;; Ok (AnyDecredTx t)).
Proof.
  intros I Rv Rl Re Fi Fo Fw. unfold make_tx. rewrite (has_true _ _ (decred_only_names name net En) I). cbn [i2le_padded_opt].
  rewrite !padded4, !word_Ok by (cbn; lia). rewrite decred_ins_Ok, decred_outs_Ok. cbn [bind]. reflexivity.
Qed.
End Txs.

Section Unavailable.
Variables (H : hashes) (name : str) (net : network).
Hypothesis En : get_network name = Ok net.

Lemma bind_Err {A B} (x : res A) (f : A -> res B) : (forall a, x = Ok a -> exists e, f a = Err e) -> exists e, bind x f = Err e.
Proof. destruct x as [a|e]; intros K; [apply K; reflexivity|exists e; reflexivity]. Qed.
Lemma SproutTx_no_version ins outs lock js pk sg : exists e, SproutTx H net None ins outs lock js pk sg = Err e.
Proof. unfold SproutTx. repeat (apply bind_Err; intros ? ?; try discriminate). Qed.
Lemma SaplingTx_no_lists ins outs lock expiry vb so js pk sg bs : exists e, SaplingTx H net ins outs lock expiry vb None so js pk sg bs = Err e.
Proof. unfold SaplingTx. repeat (apply bind_Err; intros ? ?; try discriminate). Qed.

Lemma legacy_none ins outs v lock expiry js pk sg : In name decred_names \/ In name sprout_names \/ In name sapling_names ->
  exists e, simple_unsigned_legacy_tx H net ins outs v lock expiry js pk sg = Err e.
Proof.
  intros I. unfold simple_unsigned_legacy_tx, make_tx. destruct I as [I|[I|I]].
  - rewrite (has_true name net _ _ (decred_only_names name net En) I). repeat (apply bind_Err; intros ? ?; try discriminate).
  - destruct (proj1 (families name) I) as [N1 _]. rewrite (has_false name net _ _ (decred_only_names name net En) N1), (has_true name net _ _ (sprout_has name net En) I).
    cbn [andb]. do 4 (apply bind_Err; intros ? ?; try discriminate). apply bind_Err. intros t E. exfalso.
    match type of E with SproutTx _ _ _ ?i ?o ?l ?j ?p ?g = _ => destruct (SproutTx_no_version i o l j p g) as [e Y] end. rewrite Y in E. discriminate.
  - destruct (proj2 (proj2 (families name)) I) as [N1 [N2 N3]].
    rewrite (has_false name net _ _ (decred_only_names name net En) N1), (has_false name net _ _ (sprout_has name net En) N2), (has_false name net _ _ (overwinter_has name net En) N3), (has_true name net _ _ (sapling_has name net En) I).
    cbn [andb]. do 6 (apply bind_Err; intros ? ?). apply bind_Err. intros t E. exfalso.
    match type of E with SaplingTx _ _ ?i ?o ?l ?e ?b _ ?u ?j ?p ?g ?h = _ => destruct (SaplingTx_no_lists i o l e b u j p g h) as [x Y] end. rewrite Y in E. discriminate.
Qed.
Lemma witness_none ins outs v lock : In name decred_names \/ In name overwinter_names \/ In name sapling_names ->
  exists e, simple_unsigned_witness_tx H net ins outs v lock = Err e.
Proof.
  intros I. unfold simple_unsigned_witness_tx, make_tx. apply bind_Err. intros ws _. destruct I as [I|[I|I]].
  - rewrite (has_true name net _ _ (decred_only_names name net En) I). repeat (apply bind_Err; intros ? ?; try discriminate).
  - destruct (proj1 (proj2 (families name)) I) as [N1 [N2 N3]].
    rewrite (has_false name net _ _ (decred_only_names name net En) N1), (has_false name net _ _ (sprout_has name net En) N2), (has_true name net _ _ (overwinter_has name net En) I).
    cbn [andb]. repeat (apply bind_Err; intros ? ?; try discriminate).
  - destruct (proj2 (proj2 (families name)) I) as [N1 [N2 N3]].
    rewrite (has_false name net _ _ (decred_only_names name net En) N1), (has_false name net _ _ (sprout_has name net En) N2), (has_false name net _ _ (overwinter_has name net En) N3), (has_true name net _ _ (sapling_has name net En) I).
    cbn [andb]. repeat (apply bind_Err; intros ? ?; try discriminate).
Qed.

Lemma legacy_plain ins outs v lock expiry pk sg : ~ In name decred_names -> ~ In name zcash_names ->
  let v' := match v with Some v => v | None => 2 end in
  let lock' := match lock with Some l => l | None => 0 end in
  0 <= v' < 2 ^ 32 -> 0 <= lock' < 2 ^ 32 -> Forall txin_obj ins -> Forall txout_obj outs ->
  1 <= count ins < 2 ^ 64 -> 1 <= count outs < 2 ^ 64 ->
  exists t, simple_unsigned_legacy_tx H net (map AnyIn ins) (map AnyOut outs) v lock expiry None pk sg = Ok (AnyTx t) /\ tx_obj H net t /\
    the_tx t = {| t_version := le_bytes 4 v'; t_ins := map the_input ins; t_outs := map the_output outs; t_witness := None; t_lock := le_bytes 4 lock' |}.
Proof.
  intros N Z v' lock' Rv Rl Fi Fo Ci Co. destruct (zcash_parts name Z) as [Z1 [Z2 Z3]]. unfold simple_unsigned_legacy_tx.
  replace (or_self v 2) with v' by (destruct v; reflexivity). replace (or_self lock 0) with lock' by (destruct lock; reflexivity).
  apply (make_tx_plain H name net En v' ins outs lock' _ _ _ _ None); try assumption; try exact I.
  split; [exact N|]. split; [exact Z2|]. split; [exact Z3|]. contradiction.
Qed.
Lemma legacy_overwinter ins outs v lock expiry pk sg : In name overwinter_names ->
  let lock' := match lock with Some l => l | None => 0 end in
  let expiry' := match expiry with Some l => l | None => 0 end in
  0 <= lock' < 2 ^ 32 -> 0 <= expiry' < 2 ^ 32 -> Forall txin_obj ins -> Forall txout_obj outs ->
  overwinter_rules name ins outs (le_bytes 4 lock') (le_bytes 4 expiry') [] None None ->
  exists t, simple_unsigned_legacy_tx H net (map AnyIn ins) (map AnyOut outs) v lock expiry None pk sg = Ok (AnyOverwinterTx t) /\ overwinter_obj H net t /\
    ow_tx_ins t = ins /\ ow_tx_outs t = outs /\ ow_lock_time t = le_bytes 4 lock' /\ ow_expiry_height t = le_bytes 4 expiry' /\ ow_tx_joinsplits t = [].
Proof.
  intros Ow lock' expiry' Rl Re Fi Fo R. unfold simple_unsigned_legacy_tx.
  replace (or_self expiry 0) with expiry' by (destruct expiry; reflexivity). replace (or_self lock 0) with lock' by (destruct lock; reflexivity).
  destruct (make_tx_overwinter H name net En (or_self v 2) ins outs lock' expiry' 0 None None NoWits [] pk sg None) as [t [E [O X]]]; try assumption; [constructor| |].
  - unfold overwinter_rules in *. cbn [needed] in *. tauto.
  - exists t. split; [exact E|]. split; [exact O|]. tauto.
Qed.
Lemma witness_plain ins outs v lock : ~ In name decred_names -> ~ In name overwinter_names -> ~ In name sapling_names ->
  let v' := match v with Some v => v | None => 2 end in
  let lock' := match lock with Some l => l | None => 0 end in
  0 <= v' < 2 ^ 32 -> 0 <= lock' < 2 ^ 32 -> Forall txin_obj ins -> Forall txout_obj outs ->
  1 <= count ins < 2 ^ 64 -> 1 <= count outs < 2 ^ 64 ->
  exists t, simple_unsigned_witness_tx H net (map AnyIn ins) (map AnyOut outs) v lock = Ok (AnyTx t) /\ tx_obj H net t /\
    the_tx t = {| t_version := le_bytes 4 v'; t_ins := map the_input ins; t_outs := map the_output outs; t_witness := Some (map (fun _ => []) ins); t_lock := le_bytes 4 lock' |}.
Proof.
  intros N Z2 Z3 v' lock' Rv Rl Fi Fo Ci Co. unfold simple_unsigned_witness_tx. rewrite empty_witnesses, map_length. cbn [bind].
  replace (or_self v 2) with v' by (destruct v; reflexivity). replace (or_self lock 0) with lock' by (destruct lock; reflexivity).
  destruct (make_tx_plain H name net En v' ins outs lock' None 0 None None (Some (repeat empty_witness (length ins))) None None None None) as [t [E [O X]]]; try assumption.
  - split; [exact N|]. split; [exact Z2|]. split; [exact Z3|]. reflexivity.
  - apply Forall_forall. intros w W. apply repeat_spec in W. subst w. exact empty_witness_obj.
  - right. unfold count. rewrite repeat_length. reflexivity.
  - exists t. split; [exact E|]. split; [exact O|]. rewrite X. f_equal. f_equal. clear. induction ins as [|a l IH]; [reflexivity|]. cbn [length repeat map]. f_equal. exact IH.
Qed.
End Unavailable.

Lemma simple_output_pays H name net k h s value : hashes_ok H -> get_network name = Ok net -> ~ In name decred_names ->
  all_bytes h -> len h = hash_len k -> address_for H name net k h s -> 0 <= value < 2 ^ 64 ->
  (exists o, simple_output H net value s = Ok (AnyOut o) /\ txout_obj o /\
     the_output o = {| out_value := le_bytes 8 value; out_script := template k h |}) \/
  (simple_output H net value s = Err ValueError /\ is_witness_payment k = true /\
   exists hrp p, BECH32_HRP net = Some hrp /\ segwit_address hrp 0 h s /\ base58check_of H name p s).
Proof.
  intros K En N B L A R. unfold simple_output. destruct (address_for_pays H name net K En k h s B L A) as [E|[E X]]; rewrite E; cbn [bind]; [left|right; split; [reflexivity|exact X]].
  rewrite padded8, word_Ok by (cbn; lia). cbn [bind]. apply (make_output_plain name net En); [exact N|reflexivity|apply zlen_template, L].
Qed.
Lemma simple_output_exact H name net s value : hashes_ok H -> get_network name = Ok net ->
  match to_output_script H net s with
  | Err e => simple_output H net value s = Err e
  | Ok script =>
      (~ 0 <= value < 2 ^ 64 -> simple_output H net value s = Err OverflowError) /\
      (0 <= value < 2 ^ 64 -> In name decred_names -> simple_output H net value s = Err ValueError) /\
      (0 <= value < 2 ^ 64 -> ~ In name decred_names ->
        exists o, simple_output H net value s = Ok (AnyOut o) /\ txout_obj o /\ the_output o = {| out_value := le_bytes 8 value; out_script := script |})
  end.
Proof.
  intros K En. destruct (to_output_script H net s) as [script|e] eqn:E; unfold simple_output; rewrite E; cbn [bind]; [|reflexivity].
  rewrite padded8. split; [|split].
  - intros R. rewrite word_Err by (cbn; lia). reflexivity.
  - intros R I. rewrite word_Ok by (cbn; lia). cbn [bind]. apply (make_output_decred name net En), I.
  - intros R N. rewrite word_Ok by (cbn; lia). cbn [bind]. apply (make_output_plain name net En); [exact N|reflexivity|].
    destruct (c14_exact_lemma H name net s script K En E) as [k [v [h [-> [L _]]]]]. apply zlen_template, L.
Qed.

Lemma make_witness_Ok l : Forall (fun d => len d < 2 ^ 64) l -> count l < 2 ^ 64 ->
  exists w, make_witness l = Ok w /\ witness_obj w /\ the_stack w = l.
Proof.
  intros F C. unfold make_witness.
  assert (exists st, mapM make_witness_stack_item l = Ok st /\ Forall witem_obj st /\ map wi_item st = l) as [st [-> [O M]]].
  { clear C. induction F as [|d l Ld F IH]; [exists []; repeat constructor|]. destruct IH as [st [E [O M]]].
    cbn [mapM]. unfold make_witness_stack_item at 1. change (len d) with (zlen d) in Ld.
    destruct (WitnessStackItem d) as [w|] eqn:W.
    - pose proof W as W'. rewrite WitnessStackItem_spec in W. destruct (Z.ltb_spec (zlen d) (2 ^ 64)); [|discriminate]. apply Ok_inj in W.
      cbn [bind]. rewrite E. exists (w :: st). split; [reflexivity|]. split; [|subst w; cbn [map wi_item]; f_equal; exact M].
      constructor; [|exact O]. unfold witem_obj. subst w. exact W'.
    - rewrite WitnessStackItem_spec in W. destruct (Z.ltb_spec (zlen d) (2 ^ 64)); [discriminate|lia]. }
  cbn [bind]. rewrite InputWitness_spec. assert (zlen st = count l) as Lc by (rewrite <- M; unfold count; rewrite map_length; reflexivity).
  destruct (Z.ltb_spec (zlen st) (2 ^ 64)); [|lia]. eexists. split; [reflexivity|]. split; [|exact M].
  apply witness_obj_iff. cbn [wit_stack wit_bytes]. auto.
Qed.
Lemma make_witness_long l : Exists (fun d => 2 ^ 64 <= len d) l \/ 2 ^ 64 <= count l -> make_witness l = Err ValueError.
Proof.
  intros X. unfold make_witness. destruct (mapM make_witness_stack_item l) as [st|e] eqn:M.
  - cbn [bind]. assert (zlen st = count l /\ Forall (fun d => len d < 2 ^ 64) l) as [Lc F].
    { clear X. revert st M. induction l as [|d l IH]; intros st M; cbn [mapM] in M; [apply Ok_inj in M; subst; split; [reflexivity|constructor]|].
      unfold make_witness_stack_item in M at 1. rewrite WitnessStackItem_spec in M. destruct (Z.ltb_spec (zlen d) (2 ^ 64)); [|discriminate]. cbn [bind] in M.
      destruct (mapM make_witness_stack_item l) as [xs|]; [|discriminate]. cbn [bind] in M. apply Ok_inj in M. subst st. destruct (IH xs eq_refl) as [A B].
      split; [|constructor; assumption]. unfold count, zlen in *. cbn [length]. lia. }
    destruct X as [X|X]; [exfalso; apply Exists_exists in X; destruct X as [d [I Q]]; rewrite Forall_forall in F; specialize (F _ I); cbn beta in *; lia|].
    rewrite InputWitness_spec. destruct (Z.ltb_spec (zlen st) (2 ^ 64)); [lia|reflexivity].
  - assert (e = ValueError) as ->; [|reflexivity]. clear X. revert M. induction l as [|d l IH]; cbn [mapM]; [discriminate|].
    unfold make_witness_stack_item at 1. rewrite WitnessStackItem_spec. destruct (zlen d <? 2 ^ 64); [|intros Q; cbn [bind] in Q; congruence]. cbn [bind].
    destruct (mapM make_witness_stack_item l); [discriminate|]. cbn [bind]. exact IH.
Qed.
Lemma length_prepend_exact b : length_prepend b = if len b <? 2 ^ 64 then Ok (string_wire b) else Err ValueError.
Proof.
  unfold length_prepend. change (len b) with (zlen b). rewrite VarInt_len by apply zlen_nonneg. destruct (zlen b <? 2 ^ 64); reflexivity.
Qed.
