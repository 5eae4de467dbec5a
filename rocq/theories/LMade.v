(* What the calls return, and what a program can make with them *)
From Coq Require Import String Lia.
From Verif Require Import Py SHash LBase MNet MUtils MShared MTx MDecred MZcash MClass SClass LClass.
Open Scope list_scope.
Open Scope Z_scope.
Ltac Zify.zify_post_hook ::= idtac.

Definition of_class (c : cls) (v : pv) : Prop := exists b attrs, v = PObj c b attrs.
Lemma of_class_ok c b attrs v : Ok (PObj c b attrs) = Ok v -> of_class c v.
Proof. intros E. apply Ok_inj in E. subst v. exists b, attrs. reflexivity. Qed.
Lemma bind_class {A} c (r : res A) k v : (forall a, k a = Ok v -> of_class c v) -> bind r k = Ok v -> of_class c v.
Proof. destruct r; cbn [bind]; [eauto|discriminate]. Qed.
Lemma if_class c (b : bool) (x y : res pv) v : (x = Ok v -> of_class c v) -> (y = Ok v -> of_class c v) ->
  (if b then x else y) = Ok v -> of_class c v.
Proof. destruct b; auto. Qed.
Ltac class := cbv zeta; repeat (apply bind_class; intros ?); cbv zeta; try apply of_class_ok.

Lemma kind_outpoint a b v : call_Outpoint a b = Ok v -> of_class COutpoint v.
Proof. unfold call_Outpoint. class. Qed.
Lemma kind_txin a b c d v : call_TxIn a b c d = Ok v -> of_class CTxIn v.
Proof. unfold call_TxIn. class. Qed.
Lemma kind_txout a b v : call_TxOut a b = Ok v -> of_class CTxOut v.
Proof. unfold call_TxOut. class. Qed.
Lemma kind_item a v : call_WitnessStackItem a = Ok v -> of_class CWitnessStackItem v.
Proof. unfold call_WitnessStackItem. class. Qed.
Lemma kind_witness a v : call_InputWitness a = Ok v -> of_class CInputWitness v.
Proof. unfold call_InputWitness. class. Qed.
Lemma kind_tx H net a b c d e f v : call_Tx H net a b c d e f = Ok v -> of_class CTx v.
Proof. unfold call_Tx. class. apply if_class; class. Qed.
Lemma kind_doutpoint net a b c v : call_DecredOutpoint net a b c = Ok v -> of_class CDecredOutpoint v.
Proof. unfold call_DecredOutpoint. class. Qed.
Lemma kind_dtxin net a b v : call_DecredTxIn net a b = Ok v -> of_class CDecredTxIn v.
Proof. unfold call_DecredTxIn. class. Qed.
Lemma kind_dtxout net a b c v : call_DecredTxOut net a b c = Ok v -> of_class CDecredTxOut v.
Proof. unfold call_DecredTxOut. class. Qed.
Lemma kind_dwitness net a b c d e v : call_DecredInputWitness net a b c d e = Ok v -> of_class CDecredInputWitness v.
Proof. unfold call_DecredInputWitness. class. Qed.
Lemma kind_dtx H net a b c d e f v : call_DecredTx H net a b c d e f = Ok v -> of_class CDecredTx v.
Proof. unfold call_DecredTx. class. Qed.
Lemma kind_sprout_zkproof net a b c d e f g h v : call_SproutZkproof net a b c d e f g h = Ok v -> of_class CSproutZkproof v.
Proof. unfold call_SproutZkproof. class. Qed.
Lemma kind_sapling_zkproof net a b c v : call_SaplingZkproof net a b c = Ok v -> of_class CSaplingZkproof v.
Proof. unfold call_SaplingZkproof. class. Qed.
Lemma kind_joinsplit net self proof a b c d e f g h z n v : call_joinsplit net self proof a b c d e f g h z n = Ok v -> of_class self v.
Proof. unfold call_joinsplit. class. Qed.
Lemma kind_spend net a b c d z e v : call_SaplingShieldedSpend net a b c d z e = Ok v -> of_class CSaplingShieldedSpend v.
Proof. unfold call_SaplingShieldedSpend. class. Qed.
Lemma kind_output net a b c d e z v : call_SaplingShieldedOutput net a b c d e z = Ok v -> of_class CSaplingShieldedOutput v.
Proof. unfold call_SaplingShieldedOutput. class. Qed.
Lemma kind_sprout_tx H net a b c d e f g v : call_SproutTx H net a b c d e f g = Ok v -> of_class CSproutTx v.
Proof. unfold call_SproutTx. class. Qed.
Lemma kind_overwinter_tx H net a b c d e f g v : call_OverwinterTx H net a b c d e f g = Ok v -> of_class COverwinterTx v.
Proof. unfold call_OverwinterTx. class. Qed.
Lemma kind_sapling_tx H net a b c d e f g h i j k v : call_SaplingTx H net a b c d e f g h i j k = Ok v -> of_class CSaplingTx v.
Proof. unfold call_SaplingTx. class. Qed.

(* which call made an object of the class c *)
Definition origin (H : hashes) (c : cls) (v : pv) : Prop :=
  match c with
  | CByteData | CVarInt => True
  | COutpoint => exists a b, call_Outpoint a b = Ok v
  | CTxIn => exists a b c d, call_TxIn a b c d = Ok v
  | CTxOut => exists a b, call_TxOut a b = Ok v
  | CWitnessStackItem => exists a, call_WitnessStackItem a = Ok v
  | CInputWitness => exists a, made H a /\ call_InputWitness a = Ok v
  | CTx => exists net a b c d e f, made H c /\ made H d /\ made H e /\ call_Tx H net a b c d e f = Ok v
  | CDecredOutpoint => exists net a b c, call_DecredOutpoint net a b c = Ok v
  | CDecredTxIn => exists net a b, call_DecredTxIn net a b = Ok v
  | CDecredTxOut => exists net a b c, call_DecredTxOut net a b c = Ok v
  | CDecredInputWitness => exists net a b c d e, call_DecredInputWitness net a b c d e = Ok v
  | CDecredTx => exists net a b c d e f, made H b /\ made H c /\ made H f /\ call_DecredTx H net a b c d e f = Ok v
  | CSproutZkproof => exists net a b c d e f g h, call_SproutZkproof net a b c d e f g h = Ok v
  | CSaplingZkproof => exists net a b c, call_SaplingZkproof net a b c = Ok v
  | CSproutJoinsplit => exists net a b c d e f g h z n, made H z /\ call_SproutJoinsplit net a b c d e f g h z n = Ok v
  | CSaplingJoinsplit => exists net a b c d e f g h z n, made H z /\ call_SaplingJoinsplit net a b c d e f g h z n = Ok v
  | CSaplingShieldedSpend => exists net a b c d z e, made H z /\ call_SaplingShieldedSpend net a b c d z e = Ok v
  | CSaplingShieldedOutput => exists net a b c d e z, made H z /\ call_SaplingShieldedOutput net a b c d e z = Ok v
  | CSproutTx => exists net a b c d e f g, made H b /\ made H c /\ made H e /\ call_SproutTx H net a b c d e f g = Ok v
  | COverwinterTx => exists net a b c d e f g, made H a /\ made H b /\ made H e /\ call_OverwinterTx H net a b c d e f g = Ok v
  | CSaplingTx => exists net a b c d e f g h i j k, made H a /\ made H b /\ made H f /\ made H g /\ made H h /\
      call_SaplingTx H net a b c d e f g h i j k = Ok v
  end.

Lemma instance_of c v : instance c v = true -> of_class c v.
Proof.
  destruct v; cbn [instance]; try discriminate. destruct (cls_eq_dec c c0) as [->|]; [|discriminate]. intros _. do 2 eexists. reflexivity.
Qed.
Lemma of_class_inj c d v : of_class c v -> of_class d v -> c = d.
Proof. intros [b [a ->]] [b' [a' E]]. congruence. Qed.

Lemma made_origin H c v : made H v -> instance c v = true -> origin H c v.
Proof.
  intros M I. apply instance_of in I.
  destruct M;
    try (destruct I as [? [? E]]; discriminate);
    try (destruct I as [? [? E]]; injection E as <- _ _; exact Logic.I).
  - rewrite <- (of_class_inj _ _ _ (kind_outpoint _ _ _ H0) I). do 2 eexists. eassumption.
  - rewrite <- (of_class_inj _ _ _ (kind_txin _ _ _ _ _ H0) I). do 4 eexists. eassumption.
  - rewrite <- (of_class_inj _ _ _ (kind_txout _ _ _ H0) I). do 2 eexists. eassumption.
  - rewrite <- (of_class_inj _ _ _ (kind_item _ _ H0) I). eexists. eassumption.
  - rewrite <- (of_class_inj _ _ _ (kind_witness _ _ H0) I). eexists. split; eassumption.
  - rewrite <- (of_class_inj _ _ _ (kind_tx _ _ _ _ _ _ _ _ _ H0) I). exists net, a, b, c0, d, e, f. auto.
  - rewrite <- (of_class_inj _ _ _ (kind_doutpoint _ _ _ _ _ H0) I). do 4 eexists. eassumption.
  - rewrite <- (of_class_inj _ _ _ (kind_dtxin _ _ _ _ H0) I). do 3 eexists. eassumption.
  - rewrite <- (of_class_inj _ _ _ (kind_dtxout _ _ _ _ _ H0) I). do 4 eexists. eassumption.
  - rewrite <- (of_class_inj _ _ _ (kind_dwitness _ _ _ _ _ _ _ H0) I). do 6 eexists. eassumption.
  - rewrite <- (of_class_inj _ _ _ (kind_dtx _ _ _ _ _ _ _ _ _ H0) I). exists net, a, b, c0, d, e, f. auto.
  - rewrite <- (of_class_inj _ _ _ (kind_sprout_zkproof _ _ _ _ _ _ _ _ _ _ H0) I). do 9 eexists. eassumption.
  - rewrite <- (of_class_inj _ _ _ (kind_sapling_zkproof _ _ _ _ _ H0) I). do 4 eexists. eassumption.
  - rewrite <- (of_class_inj _ _ _ (kind_joinsplit _ _ _ _ _ _ _ _ _ _ _ _ _ _ H0) I). exists net, a, b, c0, d, e, f, g, h, z, n. auto.
  - rewrite <- (of_class_inj _ _ _ (kind_joinsplit _ _ _ _ _ _ _ _ _ _ _ _ _ _ H0) I). exists net, a, b, c0, d, e, f, g, h, z, n. auto.
  - rewrite <- (of_class_inj _ _ _ (kind_spend _ _ _ _ _ _ _ _ H0) I). exists net, a, b, c0, d, z, e. auto.
  - rewrite <- (of_class_inj _ _ _ (kind_output _ _ _ _ _ _ _ _ H0) I). exists net, a, b, c0, d, e, z. auto.
  - rewrite <- (of_class_inj _ _ _ (kind_sprout_tx _ _ _ _ _ _ _ _ _ _ H0) I). exists net, a, b, c0, d, e, f, g. auto.
  - rewrite <- (of_class_inj _ _ _ (kind_overwinter_tx _ _ _ _ _ _ _ _ _ _ H0) I). exists net, a, b, c0, d, e, f, g. auto.
  - rewrite <- (of_class_inj _ _ _ (kind_sapling_tx _ _ _ _ _ _ _ _ _ _ _ _ _ _ H0) I). exists net, a, b, c0, d, e, f, g, h, i, j, k. auto 10.
Qed.

Lemma made_items H v vs : made H v -> sequence v = Ok vs -> forall x, In x vs -> made H x.
Proof.
  intros M E x X.
  assert (D : (exists l, v = PList l \/ v = PTuple l) \/ (exists s, x = PStr s) \/ exists n, x = PInt n).
  { destruct v; cbn [sequence] in E; try discriminate; apply Ok_inj in E; subst vs; eauto;
      apply in_map_iff in X; destruct X as [y [<- _]]; eauto. }
  destruct D as [[l [->| ->]]|[[s ->]|[n ->]]].
  - cbn [sequence] in E. apply Ok_inj in E. subst l. inversion M; subst; auto; exfalso;
      repeat match goal with X : _ = Ok (PList _) |- _ => first
        [apply kind_outpoint in X|apply kind_txin in X|apply kind_txout in X|apply kind_item in X|apply kind_witness in X|apply kind_tx in X
        |apply kind_doutpoint in X|apply kind_dtxin in X|apply kind_dtxout in X|apply kind_dwitness in X|apply kind_dtx in X
        |apply kind_sprout_zkproof in X|apply kind_sapling_zkproof in X|apply kind_joinsplit in X|apply kind_spend in X|apply kind_output in X
        |apply kind_sprout_tx in X|apply kind_overwinter_tx in X|apply kind_sapling_tx in X]; destruct X as [? [? X]]; discriminate end.
  - cbn [sequence] in E. apply Ok_inj in E. subst l. inversion M; subst; auto; exfalso;
      repeat match goal with X : _ = Ok (PTuple _) |- _ => first
        [apply kind_outpoint in X|apply kind_txin in X|apply kind_txout in X|apply kind_item in X|apply kind_witness in X|apply kind_tx in X
        |apply kind_doutpoint in X|apply kind_dtxin in X|apply kind_dtxout in X|apply kind_dwitness in X|apply kind_dtx in X
        |apply kind_sprout_zkproof in X|apply kind_sapling_zkproof in X|apply kind_joinsplit in X|apply kind_spend in X|apply kind_output in X
        |apply kind_sprout_tx in X|apply kind_overwinter_tx in X|apply kind_sapling_tx in X]; destruct X as [? [? X]]; discriminate end.
  - constructor.
  - constructor.
Qed.
