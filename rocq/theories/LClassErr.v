(* Which exceptions the calls raise *)
From Coq Require Import String Lia.
From Verif Require Import Py SHash SNum LBase MNet MUtils LUtils MShared MTx MDecred MZcash MClass SClass LVarint LClass LMade LMade2.
Open Scope list_scope.
Open Scope Z_scope.
Ltac Zify.zify_post_hook ::= idtac.

Definition fails {A} (r : res A) (P : exn -> Prop) : Prop := forall e, r = Err e -> P e.
Lemma fails_bind {A B} (r : res A) (k : A -> res B) P : fails r P -> (forall a, r = Ok a -> fails (k a) P) -> fails (bind r k) P.
Proof. intros F K e. destruct r as [a|e']; cbn [bind]; [intros E; exact (K a eq_refl e E)|intros E; injection E as <-; exact (F e' eq_refl)]. Qed.
Lemma fails_ok {A} (a : A) P : fails (Ok a) P.
Proof. intros e E. discriminate. Qed.
Lemma fails_err {A} e (P : exn -> Prop) : P e -> fails (@Err A e) P.
Proof. intros X e' E. injection E as <-. exact X. Qed.
Lemma fails_if {A} (b : bool) (x y : res A) P : (b = true -> fails x P) -> (b = false -> fails y P) -> fails (if b then x else y) P.
Proof. destruct b; auto. Qed.
Lemma fails_guard c e (P : exn -> Prop) : P e -> fails (guard c e) P.
Proof. intros X. unfold guard. destruct c; [apply fails_err, X|apply fails_ok]. Qed.
Lemma fails_sized v n (P : exn -> Prop) : P ValueError -> fails (sized v n) P.
Proof. intros X. unfold sized. destruct (byte_content v); [|apply fails_err, X]. apply fails_bind; [apply fails_guard, X|intros; apply fails_ok]. Qed.
Lemma fails_unsized v (P : exn -> Prop) : P ValueError -> fails (unsized v) P.
Proof. intros X. unfold unsized. destruct (byte_content v); [apply fails_ok|apply fails_err, X]. Qed.
Lemma fails_varint n (P : exn -> Prop) : P ValueError -> fails (VarInt n None) P.
Proof.
  intros X e E. destruct (Z.lt_ge_cases n 0); [rewrite VarInt_out_of_range in E by lia; injection E as <-; exact X|].
  destruct (Z.lt_ge_cases n (2 ^ 64)); [|rewrite VarInt_out_of_range in E by lia; injection E as <-; exact X].
  rewrite VarInt_None in E by lia. discriminate.
Qed.
Lemma fails_decred net (P : exn -> Prop) : P ValueError -> fails (decred_only net) P.
Proof. apply fails_guard. Qed.
Lemma fails_zcash net (P : exn -> Prop) : P ValueError -> fails (zcash_only net) P.
Proof. apply fails_guard. Qed.
Lemma fails_all c vs (P : exn -> Prop) : P ValueError -> fails (all_instances c vs) P.
Proof. apply fails_guard. Qed.
Lemma fails_sequence v (P : exn -> Prop) : (not_iterable v -> P TypeError) -> fails (sequence v) P.
Proof. intros X. destruct v; cbn [sequence]; try apply fails_ok; apply fails_err, X; [left; reflexivity|right; eauto]. Qed.
Lemma fails_plus v w (P : exn -> Prop) : byte_like v -> byte_like w -> (an_object v \/ an_object w -> P TypeError) -> fails (plus v w) P.
Proof.
  intros [a A] [b B] X. destruct v, w; try discriminate; cbn [plus]; try apply fails_ok; apply fails_err, X; unfold an_object; eauto 6.
Qed.
Lemma fails_append v (P : exn -> Prop) : byte_like v -> (an_object v -> P TypeError) -> fails (append_to_bytes v) P.
Proof. intros [a A] X. destruct v; try discriminate; cbn [append_to_bytes]; try apply fails_ok; apply fails_err, X. unfold an_object; eauto 6. Qed.
Lemma fails_extend v (P : exn -> Prop) : (~ byte_like v -> P TypeError) -> fails (extend v) P.
Proof.
  intros X. unfold extend. destruct (byte_content v) eqn:E; [apply fails_ok|]. apply fails_err, X. intros [b B]. unfold holds in B. congruence.
Qed.
Lemma fails_weaken {A} (r : res A) (P Q : exn -> Prop) : fails r P -> (forall e, P e -> Q e) -> fails r Q.
Proof. intros F W e E. apply W, F, E. Qed.
Lemma like_sized v n b : sized v n = Ok b -> byte_like v.
Proof. intros E. exists b. apply (sized_Ok v n b E). Qed.
Lemma like_unsized v b : unsized v = Ok b -> byte_like v.
Proof. intros E. exists b. apply (unsized_Ok v b E). Qed.

Ltac value := first [apply fails_sized|apply fails_unsized|apply fails_varint|apply fails_decred|apply fails_zcash|apply fails_all|apply fails_guard].
Ltac leaf := repeat (apply fails_bind; [value; first [reflexivity|left; reflexivity]|intros ? ?]); try apply fails_ok.

Definition is_value (e : exn) := e = ValueError.
(* ValueError, or TypeError when c holds *)
Definition or_type (c : Prop) (e : exn) := e = ValueError \/ (e = TypeError /\ c).

Lemma err_outpoint a b : fails (call_Outpoint a b) is_value.
Proof. unfold call_Outpoint. leaf. Qed.
Lemma err_txout a b : fails (call_TxOut a b) is_value.
Proof. unfold call_TxOut. leaf. Qed.
Lemma err_item a : fails (call_WitnessStackItem a) is_value.
Proof. unfold call_WitnessStackItem. leaf. Qed.
Lemma err_doutpoint net a b c : fails (call_DecredOutpoint net a b c) is_value.
Proof. unfold call_DecredOutpoint. leaf. Qed.
Lemma err_dtxin net a b : fails (call_DecredTxIn net a b) is_value.
Proof. unfold call_DecredTxIn. leaf. Qed.
Lemma err_dtxout net a b c : fails (call_DecredTxOut net a b c) is_value.
Proof. unfold call_DecredTxOut. leaf. Qed.
Lemma err_sprout_zkproof net a b c d e f g h : fails (call_SproutZkproof net a b c d e f g h) is_value.
Proof. unfold call_SproutZkproof. leaf. Qed.
Lemma err_sapling_zkproof net a b c : fails (call_SaplingZkproof net a b c) is_value.
Proof. unfold call_SaplingZkproof. leaf. Qed.
Lemma err_spend net a b c d z e : fails (call_SaplingShieldedSpend net a b c d z e) is_value.
Proof. unfold call_SaplingShieldedSpend. leaf. Qed.
Lemma err_output net a b c d e z : fails (call_SaplingShieldedOutput net a b c d e z) is_value.
Proof. unfold call_SaplingShieldedOutput. leaf. Qed.

Lemma err_txin o s r q : fails (call_TxIn o s r q) (or_type (an_object s \/ an_object r)).
Proof.
  unfold call_TxIn. leaf. apply fails_bind; [|intros; apply fails_ok].
  apply fails_plus; [eapply like_unsized; eassumption|eapply like_unsized; eassumption|]. intros X. right. auto.
Qed.
Lemma err_dwitness net a b c s r : fails (call_DecredInputWitness net a b c s r) (or_type (an_object s \/ an_object r)).
Proof.
  unfold call_DecredInputWitness. leaf. apply fails_bind; [|intros; apply fails_ok].
  apply fails_plus; [eapply like_unsized; eassumption|eapply like_unsized; eassumption|]. intros X. right. auto.
Qed.
Lemma err_witness s : fails (call_InputWitness s) (or_type (not_iterable s)).
Proof. unfold call_InputWitness. apply fails_bind; [apply fails_sequence; right; auto|intros vs _]. leaf. Qed.

Lemma fails_le v (P : exn -> Prop) : P ValueError -> (~ byte_like v -> P TypeError) -> fails (le_integer v) P.
Proof.
  intros V X. assert (L : forall vs, fails (mapM as_byte vs) (fun e => e = ValueError \/ e = TypeError)).
  { induction vs as [|x vs IH]; cbn [mapM]; [apply fails_ok|]. apply fails_bind; [|intros a _; apply fails_bind; [exact IH|intros; apply fails_ok]].
    destruct x; cbn [as_byte]; try (apply fails_err; auto). apply fails_bind; [apply fails_guard; auto|intros; apply fails_ok]. }
  assert (B : byte_content v = None -> ~ byte_like v) by (intros E [b Y]; unfold holds in Y; congruence).
  destruct v; cbn [le_integer]; try apply fails_ok; try (apply fails_err, X, B; reflexivity);
    (apply fails_bind; [|intros; apply fails_ok]); (eapply fails_weaken; [apply L|]); intros e [->| ->]; auto.
Qed.
Lemma err_joinsplit net self proof a b c d e f g h z n :
  fails (call_joinsplit net self proof a b c d e f g h z n) (or_type (~ byte_like a \/ ~ byte_like b)).
Proof.
  unfold call_joinsplit. leaf.
  apply fails_bind; [apply fails_le; [left; reflexivity|right; auto]|]. intros x _.
  apply fails_bind; [|intros; leaf].
  apply fails_if; intros _; [apply fails_ok|]. apply fails_bind; [apply fails_le; [left; reflexivity|right; auto]|]. intros y _. apply fails_guard. left. reflexivity.
Qed.

Lemma err_dtx H net v i o l e w :
  fails (call_DecredTx H net v i o l e w) (or_type (not_iterable i \/ not_iterable o \/ not_iterable w)).
Proof.
  unfold call_DecredTx. leaf.
  apply fails_bind; [apply fails_sequence; right; auto|intros ins _].
  apply fails_bind; [apply fails_sequence; right; auto|intros outs _]. leaf.
  apply fails_bind; [apply fails_sequence; right; auto|intros wits _]. leaf.
Qed.

(* AttributeError exactly for a flag that is neither None nor byte-like *)
Definition tx_errors (v f i o w l : pv) (e : exn) : Prop :=
  e = ValueError \/ (e = AttributeError /\ f <> PNone /\ ~ byte_like f) \/
  (e = TypeError /\ (not_iterable i \/ not_iterable o \/ (not_iterable w /\ w <> PNone) \/ (f <> PNone /\ (an_object v \/ an_object l)))).
Lemma err_tx H net v f i o w l : fails (call_Tx H net v f i o w l) (tx_errors v f i o w l).
Proof.
  unfold call_Tx. leaf.
  assert (N : forall x, none x = false -> x <> PNone) by (intros x E ->; discriminate).
  apply fails_bind.
  { apply fails_if; intros B; [apply fails_ok|]. apply orb_false_iff in B. destruct B as [B _].
    destruct (byte_content f) eqn:C; apply fails_err; [left; reflexivity|]. right. left. split; [reflexivity|]. split; [apply N, B|].
    intros [b X]. unfold holds in X. congruence. }
  intros u Fu. apply fails_bind.
  { apply fails_if; intros B; [apply fails_ok|]. apply fails_sequence. intros X. right. right. split; [reflexivity|]. right. right. left. auto. }
  intros wits _. apply fails_bind.
  { apply fails_if; intros _; [apply fails_ok|]. leaf. apply fails_bind; [apply fails_sequence; intros X; right; right; auto|]. intros ins _.
    leaf. apply fails_all. left. reflexivity. }
  intros _ _. apply fails_bind; [apply fails_sequence; intros X; right; right; auto|]. intros ins _.
  apply fails_bind; [apply fails_sequence; intros X; right; right; auto|]. intros outs _. leaf.
  apply fails_bind.
  { apply fails_if; intros B; [apply fails_ok|]. apply fails_extend. intros X. exfalso. apply X.
    match goal with Y : (if none f || same_bytes f _ then _ else _) = Ok _ |- _ => rewrite B in Y; cbn [orb] in Y; unfold same_bytes in Y end.
    unfold byte_like, holds. destruct (byte_content f); [eauto|discriminate]. }
  intros fb _. leaf. cbv zeta. apply fails_if; intros B; [apply fails_ok|].
  apply fails_bind; [apply fails_append; [eapply like_sized; eassumption|]|intros; apply fails_bind; [apply fails_append; [eapply like_sized; eassumption|]|intros; apply fails_ok]];
    intros X; right; right; (split; [reflexivity|]); right; right; right; auto.
Qed.

(* of made joinsplits the attributes are there *)
Lemma sprout_hsigs H pk c js u : (forall v, In v js -> made H v) -> all_instances CSproutJoinsplit js = Ok u -> holds pk c ->
  exists hs ps, class_hsigs H pk js = Ok hs /\ class_primary_inputs js hs = Ok ps.
Proof.
  intros M A P. destruct (records H _ _ _ (sprout_joinsplit_record H) _ _ M A) as [l [_ F]].
  do 2 eexists. split; [exact (class_hsigs_value H _ _ pk c P js l F)|exact (class_primary_inputs_value H _ _ c js l F)].
Qed.
Lemma sapling_hsigs H pk c js u : (forall v, In v js -> made H v) -> all_instances CSaplingJoinsplit js = Ok u -> holds pk c ->
  exists hs ps, class_hsigs H pk js = Ok hs /\ class_primary_inputs js hs = Ok ps.
Proof.
  intros M A P. destruct (records H _ _ _ (sapling_joinsplit_record H) _ _ M A) as [l [_ F]].
  do 2 eexists. split; [exact (class_hsigs_value H _ _ pk c P js l F)|exact (class_primary_inputs_value H _ _ c js l F)].
Qed.

Lemma err_overwinter_tx H net i o l e j pk sg : made H j ->
  fails (call_OverwinterTx H net i o l e j pk sg) (or_type (not_iterable i \/ not_iterable o \/ not_iterable j)).
Proof.
  intros M. unfold call_OverwinterTx. leaf.
  apply fails_bind; [apply fails_sequence; right; auto|intros ins _]. leaf.
  apply fails_bind; [apply fails_sequence; right; auto|intros outs _]. leaf.
  apply fails_bind; [apply fails_sequence; right; auto|intros js Ej]. leaf.
  apply fails_bind.
  { apply fails_if; intros _; [leaf|apply fails_ok]. }
  intros tail T. leaf. 
  assert (X : exists hs ps, (if negb (zlen js =? 0) then class_hsigs H pk js else Ok []) = Ok hs /\
    (if negb (zlen js =? 0) then class_primary_inputs js hs else Ok []) = Ok ps).
  { destruct (negb (zlen js =? 0)); [|do 2 eexists; split; reflexivity]. inv_bind. contents.
    eapply sprout_hsigs; [exact (made_items H _ _ M Ej)|eassumption|eassumption]. }
  destruct X as [hs [ps [X Y]]]. rewrite X. cbn [bind]. rewrite Y. cbn [bind]. leaf.
Qed.

Lemma err_sapling_tx H net i o l e w s u j pk sg bs : made H j ->
  fails (call_SaplingTx H net i o l e w s u j pk sg bs)
    (or_type (not_iterable i \/ not_iterable o \/ not_iterable s \/ not_iterable u \/ not_iterable j \/ bs = PNone)).
Proof.
  intros M. unfold call_SaplingTx. leaf.
  apply fails_bind; [apply fails_sequence; right; auto|intros spends _]. leaf.
  apply fails_bind; [apply fails_sequence; right; auto 6|intros outputs _]. leaf.
  apply fails_bind; [apply fails_if; intros _; [apply fails_ok|leaf]|intros b B].
  apply fails_bind; [apply fails_sequence; right; auto|intros ins _]. leaf.
  apply fails_bind; [apply fails_sequence; right; auto|intros outs _]. leaf.
  apply fails_bind; [apply fails_sequence; right; auto 8|intros js Ej]. leaf.
  apply fails_bind.
  { apply fails_if; intros _; [leaf|apply fails_ok]. }
  intros tail T. leaf. cbv zeta.
  apply fails_bind.
  { apply fails_if; intros _; [|apply fails_ok]. apply fails_extend. intros N. right. split; [reflexivity|].
    destruct (none bs) eqn:Nb; [destruct bs; try discriminate; auto 8|]. exfalso. apply N. inv_bind. contents. eexists. eassumption. }
  intros x _.
  assert (X : exists hs ps, (if negb (zlen js =? 0) then class_hsigs H pk js else Ok []) = Ok hs /\
    (if negb (zlen js =? 0) then class_primary_inputs js hs else Ok []) = Ok ps).
  { destruct (negb (zlen js =? 0)); [|do 2 eexists; split; reflexivity]. inv_bind. contents.
    eapply sapling_hsigs; [exact (made_items H _ _ M Ej)|eassumption|eassumption]. }
  destruct X as [hs [ps [X Y]]]. rewrite X. cbn [bind]. rewrite Y. cbn [bind]. leaf.
Qed.

Lemma err_sprout_tx H net v i o l j pk sg : made H j ->
  fails (call_SproutTx H net v i o l j pk sg) (or_type (not_iterable i \/ not_iterable o \/ not_iterable j \/ sg = PNone)).
Proof.
  intros M. unfold call_SproutTx. leaf.
  apply fails_bind; [apply fails_sequence; right; auto|intros ins _]. leaf.
  apply fails_bind; [apply fails_sequence; right; auto|intros outs _]. leaf. cbv zeta.
  apply fails_bind.
  { apply fails_if; intros _; [|apply fails_ok]. apply fails_bind; [|intros _ _; apply fails_guard; left; reflexivity].
    apply fails_if; intros _; [apply fails_ok|]. apply fails_bind; [apply fails_sequence; right; auto|intros js _]. apply fails_guard. left. reflexivity. }
  intros _ _. apply fails_bind.
  { apply fails_if; intros _; [|apply fails_ok]. apply fails_bind; [apply fails_sequence; right; auto|intros js _]. leaf.
    apply fails_if; intros _; [apply fails_ok|leaf]. }
  intros u U. leaf.
  change (i2le_padded 2 4) with (@Ok bytes [2; 0; 0; 0]). cbn [bind].
  assert (D : same_bytes v [2; 0; 0; 0] = true -> le2i a1 false = 2).
  { intros S. match goal with X : sized v 4 = Ok a1 |- _ => apply sized_Ok in X; destruct X as [X _] end.
    rewrite (same_holds _ _ _ H2) in S. apply leqb_eq in S. subst a1. reflexivity. }
  destruct (same_bytes v [2; 0; 0; 0]).
  - specialize (D eq_refl). rewrite D in U. cbn [Z.eqb Pos.eqb] in U. inv_bind. contents.
    match goal with X : sequence j = Ok ?y |- _ => rewrite X; cbn [bind]; rename X into Ej end.
    apply fails_bind.
    { leaf. match goal with X : holds pk ?y |- _ => rewrite (extend_holds _ _ X); cbn [bind] end.
      apply fails_bind; [|intros; apply fails_ok]. apply fails_extend. intros N. right. split; [reflexivity|].
      destruct (none sg) eqn:Ns; [destruct sg; try discriminate; auto|]. exfalso. apply N. cbn [orb] in U. unfold byte_like, holds.
      unfold same_bytes in U. destruct (byte_content sg) eqn:Bs; [eauto|]. inv_bind. contents. congruence. }
    intros tail _.
    match goal with X : all_instances CSproutJoinsplit ?y = Ok _, Y : holds pk ?z |- _ =>
      destruct (sprout_hsigs H pk z y _ (made_items H _ _ M Ej) X Y) as [hs [ps [Q R]]]; rewrite Q; cbn [bind]; rewrite R; cbn [bind] end.
    leaf.
  - cbn [bind]. apply fails_bind; [apply fails_sequence; right; auto|intros js _]. leaf.
Qed.

Lemma as_bytes_prefix b vs : all_bytes b ->
  mapM as_byte (map PInt b ++ vs) = (r <- mapM as_byte vs ;; Ok (b ++ r)).
Proof.
  induction 1 as [|n b N B IH]; cbn [map app mapM].
  - destruct (mapM as_byte vs); reflexivity.
  - cbn [as_byte]. replace ((0 <=? n) && (n <? 256)) with true by lia. cbn [negb guard bind]. rewrite IH.
    destruct (mapM as_byte vs); reflexivity.
Qed.
Lemma le_items v vs : v = PList vs \/ v = PTuple vs ->
  (forall b, vs = map PInt b -> all_bytes b -> le_integer v = Ok (le_value b)) /\
  (forall b n rest, vs = map PInt b ++ PInt n :: rest -> all_bytes b -> ~ 0 <= n < 256 ->
     le_integer v = Err ValueError) /\
  (forall b w rest, vs = map PInt b ++ w :: rest -> all_bytes b -> (forall n, w <> PInt n) ->
     le_integer v = Err TypeError).
Proof.
  intro V. assert (E : le_integer v = (b <- mapM as_byte vs ;; Ok (le2i b false))) by (destruct V as [->| ->]; reflexivity).
  rewrite E. clear E V v. repeat split.
  - intros b -> B. rewrite <- (app_nil_r (map PInt b)), as_bytes_prefix by exact B. cbn [mapM bind].
    rewrite app_nil_r, (proj1 (le2i_value b B)). reflexivity.
  - intros b n rest -> B N. rewrite as_bytes_prefix by exact B. cbn [mapM as_byte].
    replace ((0 <=? n) && (n <? 256)) with false by lia. reflexivity.
  - intros b w rest -> B N. rewrite as_bytes_prefix by exact B. cbn [mapM].
    destruct w as [|n|s|b0|b0|l|l|c b0 l]; try reflexivity. destruct (N n eq_refl).
Qed.
