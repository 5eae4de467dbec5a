(* Property C107: the attributes of an object are the values it was made of, whatever their types are.  [keeps] and the others are in
   SKeeps.v, the calls in MClass.v *)
From Coq Require Import String Lia.
From Verif Require Import Py SHash MNet MUtils MShared MTx MDecred MZcash MClass LBase SKeeps LKeeps PClass.
Open Scope list_scope.
Open Scope Z_scope.
Open Scope string_scope.

Theorem attributes_of_parts :
  (forall t i v, call_Outpoint t i = Ok v -> keeps v [("tx_id", t); ("index", i)]) /\
  (forall o s r q v, call_TxIn o s r q = Ok v -> keeps v [("outpoint", o); ("stack_script", s); ("redeem_script", r); ("sequence", q)]) /\
  (forall a s v, call_TxOut a s = Ok v -> keeps v [("value", a); ("output_script", s)]) /\
  (forall i v, call_WitnessStackItem i = Ok v -> keeps v [("item", i)]) /\
  (forall s v, call_InputWitness s = Ok v -> keeps_items v "stack" s).
Proof.
  split; [|split; [|split; [|split]]].
  - intros t i v E. unfold call_Outpoint in E. parts E. apply Ok_inj in E. subst v. kept.
  - intros o s r q v E. unfold call_TxIn in E. parts E. apply Ok_inj in E. subst v. kept.
  - intros a s v E. unfold call_TxOut in E. parts E. apply Ok_inj in E. subst v. kept.
  - intros i v E. unfold call_WitnessStackItem in E. parts E. apply Ok_inj in E. subst v. kept.
  - intros s v E. unfold call_InputWitness in E. parts E. apply Ok_inj in E. subst v. items.
Qed.
Print Assumptions attributes_of_parts.
Example attributes_of_parts_ex : exists v, call_Outpoint (PArray (repeat 7 32)) (PBytes (repeat 1 4)) = Ok v /\ attribute v (lit "tx_id") = Ok (PArray (repeat 7 32)).
Proof. eexists. split; reflexivity. Qed.

Theorem attributes_of_tx : forall H net v f i o w l x, call_Tx H net v f i o w l = Ok x ->
  keeps x [("version", v); ("flag", f); ("lock_time", l)] /\ keeps_items x "tx_ins" i /\ keeps_items x "tx_outs" o /\
  (w = PNone -> keeps x [("tx_witnesses", PNone)]) /\ (w <> PNone -> keeps_items x "tx_witnesses" w) /\
  (f = PNone -> keeps x [("wtx_id", PNone)] /\ attribute x (lit "wtx_id_le") = Err AttributeError).
Proof.
  intros H net v f i o w l x E. unfold call_Tx in E. parts E. cbv zeta in E.
  assert (w = PNone \/ w <> PNone /\ none w = false) as W by (destruct w; [left; reflexivity|right; split; [discriminate|reflexivity]..]).
  assert (f = PNone \/ f <> PNone /\ none f = false) as F by (destruct f; [left; reflexivity|right; split; [discriminate|reflexivity]..]).
  destruct F as [->|[F Fn]]; [cbn [none] in E|rewrite Fn in E; parts E]; apply Ok_inj in E; subst x;
    (split; [kept|]); (split; [items|]); (split; [items|]);
    (split; [intros ->; kept|]); (split; [intros N; destruct W as [W|[_ Wn]]; [contradiction|]|]).
  - match goal with X : (if none w then _ else _) = Ok _ |- _ => rewrite Wn in X end. eexists. split; [eassumption|]. cbn. rewrite Wn. reflexivity.
  - intros _. split; [kept|reflexivity].
  - match goal with X : (if none w then _ else _) = Ok _ |- _ => rewrite Wn in X end. eexists. split; [eassumption|]. cbn. rewrite Wn. reflexivity.
  - intros X. contradiction.
Qed.
Print Assumptions attributes_of_tx.
Example attributes_of_tx_ex : ex_call_tx = Ok ex_tx /\ attribute ex_tx (lit "flag") = Ok (PArray [0; 1]%Z) /\
  attribute ex_tx (lit "tx_ins") = Ok (PTuple [ex_in]) /\ attribute ex_tx (lit "tx_witnesses") = Ok (PTuple [ex_wit]).
Proof. split; [exact ex_tx_ok|]. repeat split; vm_compute; reflexivity. Qed.

Theorem attributes_of_decred : forall H net,
  (forall t i e v, call_DecredOutpoint net t i e = Ok v -> keeps v [("tx_id", t); ("index", i); ("tree", e)]) /\
  (forall o q v, call_DecredTxIn net o q = Ok v -> keeps v [("outpoint", o); ("sequence", q)]) /\
  (forall a r s v, call_DecredTxOut net a r s = Ok v -> keeps v [("value", a); ("version", r); ("output_script", s)]) /\
  (forall a g i s r v, call_DecredInputWitness net a g i s r = Ok v ->
     keeps v [("value", a); ("height", g); ("index", i); ("stack_script", s); ("redeem_script", r)]) /\
  (forall v i o l e w x, call_DecredTx H net v i o l e w = Ok x ->
     keeps x [("version", v); ("tx_ins", i); ("tx_outs", o); ("lock_time", l); ("expiry", e); ("tx_witnesses", w)]).
Proof.
  intros H net. split; [|split; [|split; [|split]]].
  - intros t i e v E. unfold call_DecredOutpoint in E. parts E. apply Ok_inj in E. subst v. kept.
  - intros o q v E. unfold call_DecredTxIn in E. parts E. apply Ok_inj in E. subst v. kept.
  - intros a r s v E. unfold call_DecredTxOut in E. parts E. apply Ok_inj in E. subst v. kept.
  - intros a g i s r v E. unfold call_DecredInputWitness in E. parts E. apply Ok_inj in E. subst v. kept.
  - intros v i o l e w x E. unfold call_DecredTx in E. parts E. cbv zeta in E. parts E. apply Ok_inj in E. subst x. kept.
Qed.
Print Assumptions attributes_of_decred.
(* the lists are kept as they are, not as tuples *)
Example attributes_of_decred_tx_ex : ex_call_dtx = Ok ex_dtx /\ attribute ex_dtx (lit "tx_ins") = Ok (PList [ex_din]).
Proof. split; [exact ex_dtx_ok|vm_compute; reflexivity]. Qed.
Example attributes_of_decred_ex : exists v, call_DecredTxOut DecredMain (PBytes (repeat 1 8)) (PArray [0%Z; 0%Z]) (PBytes []) = Ok v /\ attribute v (lit "version") = Ok (PArray [0%Z; 0%Z]).
Proof. eexists. split; [vm_compute; reflexivity|reflexivity]. Qed.

Theorem attributes_of_descriptions : forall net,
  (forall a a' b b' c c' k h v, call_SproutZkproof net a a' b b' c c' k h = Ok v ->
     keeps v [("pi_sub_a", a); ("pi_prime_sub_a", a'); ("pi_sub_b", b); ("pi_prime_sub_b", b'); ("pi_sub_c", c); ("pi_prime_sub_c", c'); ("pi_sub_k", k); ("pi_sub_h", h)]) /\
  (forall a b c v, call_SaplingZkproof net a b c = Ok v -> keeps v [("pi_sub_a", a); ("pi_sub_b", b); ("pi_sub_c", c)]) /\
  (forall o w a n c e r m z t v, call_SproutJoinsplit net o w a n c e r m z t = Ok v \/ call_SaplingJoinsplit net o w a n c e r m z t = Ok v ->
     keeps v [("vpub_old", o); ("vpub_new", w); ("anchor", a); ("nullifiers", n); ("commitments", c); ("ephemeral_key", e); ("random_seed", r);
              ("vmacs", m); ("zkproof", z); ("encoded_notes", t)]) /\
  (forall c a n r z s v, call_SaplingShieldedSpend net c a n r z s = Ok v ->
     keeps v [("cv", c); ("anchor", a); ("nullifier", n); ("rk", r); ("zkproof", z); ("spend_auth_sig", s)]) /\
  (forall c m e x y z v, call_SaplingShieldedOutput net c m e x y z = Ok v ->
     keeps v [("cv", c); ("cmu", m); ("ephemeral_key", e); ("enc_ciphertext", x); ("out_ciphertext", y); ("zkproof", z)]).
Proof.
  intros net. split; [|split; [|split; [|split]]].
  - intros a a' b b' c c' k h v E. unfold call_SproutZkproof in E. parts E. apply Ok_inj in E. subst v. kept.
  - intros a b c v E. unfold call_SaplingZkproof in E. parts E. apply Ok_inj in E. subst v. kept.
  - intros o w a n c e r m z t v [E|E]; unfold call_SproutJoinsplit, call_SaplingJoinsplit, call_joinsplit in E; parts E; apply Ok_inj in E; subst v; kept.
  - intros c a n r z s v E. unfold call_SaplingShieldedSpend in E. parts E. apply Ok_inj in E. subst v. kept.
  - intros c m e x y z v E. unfold call_SaplingShieldedOutput in E. parts E. apply Ok_inj in E. subst v. kept.
Qed.
Print Assumptions attributes_of_descriptions.
Example attributes_of_descriptions_ex : exists v, call_SaplingZkproof ZcashSaplingMain (PBytes (zrepeat 1 48)) (PArray (zrepeat 2 96)) (PBytes (zrepeat 3 48)) = Ok v /\
  attribute v (lit "pi_sub_b") = Ok (PArray (zrepeat 2 96)).
Proof. eexists. split; [vm_compute; reflexivity|vm_compute; reflexivity]. Qed.

(* the parts that depend on whether there are JoinSplits or shielded payments are None if there are none *)
Theorem attributes_of_zcash : forall H net,
  (forall v i o l j pk sg x, call_SproutTx H net v i o l j pk sg = Ok x ->
     keeps x [("version", v); ("lock_time", l)] /\ keeps_items x "tx_ins" i /\ keeps_items x "tx_outs" o /\ keeps_items x "tx_joinsplits" j /\
     exists two : bool, (two = true <-> byte_content v = Some (2 :: repeat 0 3)%Z) /\
       keeps x [("joinsplit_pubkey", if two then pk else PNone); ("joinsplit_sig", if two then sg else PNone)]) /\
  (forall i o l e j pk sg x, call_OverwinterTx H net i o l e j pk sg = Ok x ->
     keeps x [("lock_time", l); ("expiry_height", e)] /\ keeps_items x "tx_ins" i /\ keeps_items x "tx_outs" o /\ keeps_items x "tx_joinsplits" j /\
     keeps_with x "joinsplit_pubkey" pk j /\ keeps_with x "joinsplit_sig" sg j) /\
  (forall i o l e w s u j pk sg bs x, call_SaplingTx H net i o l e w s u j pk sg bs = Ok x ->
     keeps x [("lock_time", l); ("expiry_height", e); ("value_balance", w)] /\ keeps_items x "tx_ins" i /\ keeps_items x "tx_outs" o /\
     keeps_items x "tx_shielded_spends" s /\ keeps_items x "tx_shielded_outputs" u /\ keeps_items x "tx_joinsplits" j /\
     keeps_with x "joinsplit_pubkey" pk j /\ keeps_with x "joinsplit_sig" sg j /\
     (empty s /\ empty u -> keeps x [("binding_sig", PNone)]) /\ (~ (empty s /\ empty u) -> keeps x [("binding_sig", bs)])).
Proof.
  intros H net. split; [|split].
  - intros v i o l j pk sg x E. unfold call_SproutTx in E. cbv zeta in E. parts E. cbv zeta in E. parts E. apply Ok_inj in E. subst x.
    split; [kept|]. split; [items|]. split; [items|]. split; [items|].
    match goal with X : i2le_padded 2 4 = Ok ?t |- _ => exists (same_bytes v t); assert (t = (2 :: repeat 0 3)%Z) as -> by (vm_compute in X; apply Ok_inj in X; symmetry; exact X) end.
    split; [|kept]. unfold same_bytes. destruct (byte_content v) as [b|]; [|split; discriminate]. rewrite leqb_eq. split; [intros ->; reflexivity|intros X; injection X as ->; reflexivity].
  - intros i o l e j pk sg x E. unfold call_OverwinterTx in E. cbv zeta in E. parts E. apply Ok_inj in E. subst x.
    split; [kept|]. split; [items|]. split; [items|]. split; [items|].
    match goal with X : sequence j = Ok _ |- _ => destruct (empty_or_not _ _ X) as [[Y Z]|[Y Z]] end; unfold keeps_with; cbn; rewrite Z; cbn; repeat split; intros; first [reflexivity|contradiction].
  - intros i o l e w s u j pk sg bs x E. unfold call_SaplingTx in E. cbv zeta in E. parts E. apply Ok_inj in E. subst x.
    do 1 (split; [kept|]). do 5 (split; [items|]).
    match goal with X : sequence s = Ok ?a, Y : sequence u = Ok ?b |- _ => pose proof (empty_or_not _ _ X) as Es; pose proof (empty_or_not _ _ Y) as Eu; pose proof (zlen_nonneg a); pose proof (zlen_nonneg b) end.
    split; [|split; [|split]].
    + match goal with X : sequence j = Ok _ |- _ => destruct (empty_or_not _ _ X) as [[Y Z]|[Y Z]] end; unfold keeps_with; cbn; rewrite Z; cbn; split; intros; first [reflexivity|contradiction].
    + match goal with X : sequence j = Ok _ |- _ => destruct (empty_or_not _ _ X) as [[Y Z]|[Y Z]] end; unfold keeps_with; cbn; rewrite Z; cbn; split; intros; first [reflexivity|contradiction].
    + intros [A B]. destruct Es as [[_ Z1]|[N _]]; [|contradiction]. destruct Eu as [[_ Z2]|[N _]]; [|contradiction]. apply Z.eqb_eq in Z1, Z2.
      apply Forall_cons; [|apply Forall_nil]. cbn. rewrite Z1, Z2. reflexivity.
    + intros N. apply Forall_cons; [|apply Forall_nil]. cbn.
      match goal with |- context [(?p + ?q =? 0)%Z] => destruct (Z.eqb_spec (p + q) 0) as [X|X]; [|reflexivity] end.
      exfalso. apply N. split; [destruct Es as [[A _]|[_ Z]]|destruct Eu as [[A _]|[_ Z]]]; try exact A; apply Z.eqb_neq in Z; lia.
Qed.
Print Assumptions attributes_of_zcash.
Example attributes_of_zcash_ex : ex_call_sapling_tx = Ok ex_sapling_tx /\ attribute ex_sapling_tx (lit "expiry_height") = Ok (PArray (le4 0)) /\
  attribute ex_sapling_tx (lit "tx_shielded_spends") = Ok (PTuple [ex_spend]) /\ attribute ex_sapling_tx (lit "joinsplit_pubkey") = Ok PNone /\
  attribute ex_sapling_tx (lit "binding_sig") = Ok (PBytes (zrepeat 9 64)).
Proof. split; [exact ex_sapling_tx_ok|]. repeat split; vm_compute; reflexivity. Qed.
