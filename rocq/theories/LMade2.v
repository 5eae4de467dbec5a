(* Every object that a program can make is a record of the model *)
From Coq Require Import String Lia.
From Verif Require Import Py SHash LBase MNet MUtils MShared MTx MDecred MZcash MClass SClass LClass LMade.
Open Scope list_scope.
Open Scope Z_scope.
Ltac Zify.zify_post_hook ::= idtac.

Lemma agreed {A} (r : res A) (c : res pv) (is : pv -> A -> Prop) v :
  match r with Ok x => exists w, c = Ok w /\ is w x | Err e => c = Err e end -> c = Ok v ->
  exists x, r = Ok x /\ is v x.
Proof. destruct r as [x|e]; [|congruence]. intros [w [E X]] F. exists x. split; [reflexivity|congruence]. Qed.

(* take the byte contents out of a call that succeeded *)
Ltac contents := repeat match goal with
  | X : sized _ _ = Ok _ |- _ => apply sized_Ok in X; destruct X
  | X : unsized _ = Ok _ |- _ => apply unsized_Ok in X
  | X : extend _ = Ok _ |- _ => apply extend_Ok in X
  | X : append_to_bytes _ = Ok _ |- _ => apply append_Ok in X
  end.
Ltac opened f := unfold f in *; inv_bind; contents.

Lemma outpoint_of_bytes b : zlen b = 36 -> exists o, some_outpoint o /\ op_bytes o = b.
Proof.
  intros L.
  assert (L1 : zlen (firstn 32 b) = 32) by (unfold zlen in *; rewrite firstn_length; lia).
  assert (L2 : zlen (skipn 32 b) = 4) by (unfold zlen in *; rewrite skipn_length; lia).
  exists {| op_tx_id := firstn 32 b; op_index := skipn 32 b; op_bytes := firstn 32 b ++ skipn 32 b |}.
  split; [|apply firstn_skipn]. exists (firstn 32 b), (skipn 32 b). unfold Outpoint. rewrite !validate_some, L1, L2. reflexivity.
Qed.

Ltac args := repeat eexists; eassumption.

Lemma outpoint_args a b v : call_Outpoint a b = Ok v -> exists ca cb, holds a ca /\ holds b cb.
Proof. intros E. opened call_Outpoint. args. Qed.
Lemma txin_args o s r q v : call_TxIn o s r q = Ok v ->
  exists co cs cr cq, holds o co /\ zlen co = 36 /\ buffer_of s cs /\ buffer_of r cr /\ holds q cq.
Proof. intros E. opened call_TxIn. match goal with X : plus _ _ = Ok _ |- _ => apply plus_Ok in X; destruct X as [x0' [y0' [X [Y _]]]] end. args. Qed.
Lemma txout_args a b v : call_TxOut a b = Ok v -> exists ca cb, holds a ca /\ holds b cb.
Proof. intros E. opened call_TxOut. args. Qed.
Lemma item_args a v : call_WitnessStackItem a = Ok v -> exists ca, holds a ca.
Proof. intros E. opened call_WitnessStackItem. args. Qed.
Lemma doutpoint_args net a b c v : call_DecredOutpoint net a b c = Ok v -> exists ca cb cc, holds a ca /\ holds b cb /\ holds c cc.
Proof. intros E. opened call_DecredOutpoint. args. Qed.
Lemma dtxin_args net o q v : call_DecredTxIn net o q = Ok v -> exists co cq, holds o co /\ zlen co = 37 /\ holds q cq.
Proof. intros E. opened call_DecredTxIn. args. Qed.
Lemma dtxout_args net a b c v : call_DecredTxOut net a b c = Ok v -> exists ca cb cc, holds a ca /\ holds b cb /\ holds c cc.
Proof. intros E. opened call_DecredTxOut. args. Qed.
Lemma dwitness_args net a b c s r v : call_DecredInputWitness net a b c s r = Ok v ->
  exists ca cb cc cs cr, holds a ca /\ holds b cb /\ holds c cc /\ buffer_of s cs /\ buffer_of r cr.
Proof. intros E. opened call_DecredInputWitness. match goal with X : plus _ _ = Ok _ |- _ => apply plus_Ok in X; destruct X as [x0' [y0' [X [Y _]]]] end. args. Qed.
Lemma sprout_zkproof_args net a b c d e f g h v : call_SproutZkproof net a b c d e f g h = Ok v ->
  exists ca cb cc cd ce cf cg ch, holds a ca /\ holds b cb /\ holds c cc /\ holds d cd /\ holds e ce /\ holds f cf /\ holds g cg /\ holds h ch.
Proof. intros E. opened call_SproutZkproof. args. Qed.
Lemma sapling_zkproof_args net a b c v : call_SaplingZkproof net a b c = Ok v -> exists ca cb cc, holds a ca /\ holds b cb /\ holds c cc.
Proof. intros E. opened call_SaplingZkproof. args. Qed.
Lemma joinsplit_args net self proof a b c d e f g h z t v : call_joinsplit net self proof a b c d e f g h z t = Ok v ->
  instance proof z = true /\
  exists ca cb cc cd ce cf cg ch ct, holds a ca /\ holds b cb /\ holds c cc /\ holds d cd /\ holds e ce /\ holds f cf /\
    holds g cg /\ holds h ch /\ holds t ct.
Proof. intros E. opened call_joinsplit. split; [destruct (instance proof z); [reflexivity|discriminate]|]. args. Qed.
Lemma spend_args net a b c d z s v : call_SaplingShieldedSpend net a b c d z s = Ok v ->
  instance CSaplingZkproof z = true /\
  exists ca cb cc cd cs, holds a ca /\ holds b cb /\ holds c cc /\ holds d cd /\ holds s cs.
Proof. intros E. opened call_SaplingShieldedSpend. split; [destruct (instance CSaplingZkproof z); [reflexivity|discriminate]|]. args. Qed.
Lemma output_args net a b c d e z v : call_SaplingShieldedOutput net a b c d e z = Ok v ->
  instance CSaplingZkproof z = true /\
  exists ca cb cc cd ce, holds a ca /\ holds b cb /\ holds c cc /\ holds d cd /\ holds e ce.
Proof. intros E. opened call_SaplingShieldedOutput. split; [destruct (instance CSaplingZkproof z); [reflexivity|discriminate]|]. args. Qed.

Lemma doutpoint_of_bytes net b : decred_only net = Ok tt -> zlen b = 37 -> exists o, some_doutpoint o /\ dop_bytes o = b.
Proof.
  intros D L.
  assert (L1 : zlen (firstn 32 b) = 32) by (unfold zlen in *; rewrite firstn_length; lia).
  assert (L2 : zlen (firstn 4 (skipn 32 b)) = 4) by (unfold zlen in *; rewrite firstn_length, skipn_length; lia).
  assert (L3 : zlen (skipn 4 (skipn 32 b)) = 1) by (unfold zlen in *; rewrite !skipn_length; lia).
  eexists. split.
  - exists net, (firstn 32 b), (firstn 4 (skipn 32 b)), (skipn 4 (skipn 32 b)).
    unfold DecredOutpoint. rewrite D, !validate_some, L1, L2, L3. reflexivity.
  - cbn [dop_bytes]. rewrite firstn_skipn. apply firstn_skipn.
Qed.

Lemma all_instances_Ok c vs u : all_instances c vs = Ok u -> forall v, In v vs -> instance c v = true.
Proof.
  unfold all_instances. destruct (forallb (instance c) vs) eqn:E; [|discriminate]. intros _. apply forallb_forall, E.
Qed.
(* the list of the records of the objects *)
Lemma records {A} (H : hashes) (is : pv -> A -> Prop) (good : A -> Prop) c
  (one : forall v, made H v -> instance c v = true -> exists x, good x /\ is v x) vs u :
  (forall v, In v vs -> made H v) -> all_instances c vs = Ok u -> exists l, Forall good l /\ Forall2 is vs l.
Proof.
  intros M E. pose proof (all_instances_Ok c vs u E) as J. clear E.
  induction vs as [|v vs IH]; [exists []; auto|].
  destruct (one v (M v (or_introl eq_refl)) (J v (or_introl eq_refl))) as [x [G X]].
  destruct IH as [l [Gs Xs]]; [intros w W; apply M; right; exact W|intros w W; apply J; right; exact W|].
  exists (x :: l). split; constructor; assumption.
Qed.

Lemma bind_eq {A B} (r : res A) (k k' : A -> res B) : (forall a, k a = k' a) -> bind r k = bind r k'.
Proof. intros E. destruct r; [apply E|reflexivity]. Qed.
(* without joinsplits the key and the signature are not looked at *)
Lemma overwinter_no_joinsplits H net i o l e j pk sg : sequence j = Ok [] ->
  call_OverwinterTx H net i o l e j pk sg = call_OverwinterTx H net i o l e j PNone PNone.
Proof. intros E. unfold call_OverwinterTx. rewrite E. cbn [bind zlen length Z.of_nat Z.eqb negb]. reflexivity. Qed.
Lemma sapling_no_joinsplits H net i o l e w s u j pk sg bs : sequence j = Ok [] ->
  call_SaplingTx H net i o l e w s u j pk sg bs = call_SaplingTx H net i o l e w s u j PNone PNone bs.
Proof. intros E. unfold call_SaplingTx. rewrite E. cbn [bind zlen length Z.of_nat Z.eqb negb]. reflexivity. Qed.
Lemma sprout_version_1 H net v i o l j pk sg cv : holds v cv -> le2i cv false = 1 ->
  call_SproutTx H net v i o l j pk sg = call_SproutTx H net v i o l j PNone PNone.
Proof.
  intros Hv E. unfold call_SproutTx. rewrite (sized_holds _ _ _ Hv). 
  assert (S : same_bytes v [2; 0; 0; 0] = false).
  { rewrite (same_holds _ _ _ Hv). destruct (leqb cv [2; 0; 0; 0]) eqn:L; [|reflexivity]. apply leqb_eq in L. subst cv. discriminate. }
  change (i2le_padded 2 4) with (@Ok bytes [2; 0; 0; 0]). cbn [bind]. rewrite S.
  apply bind_eq. intros _. apply bind_eq. intros _.
  destruct (zlen cv =? 4); cbn [bind]; [|reflexivity]. rewrite E. cbn [Z.eqb Pos.eqb bind]. reflexivity.
Qed.

Lemma ex_some {A} (P : option A -> Prop) x : P (Some x) -> exists o, P o.
Proof. eauto. Qed.

Section Made.
  Context (H : hashes).

  Lemma outpoint_record v : made H v -> instance COutpoint v = true -> exists o, some_outpoint o /\ outpoint_value v o.
  Proof using.
    intros M I. destruct (made_origin H _ v M I) as [a [b E]]. destruct (outpoint_args _ _ _ E) as [ca [cb [Ha Hb]]].
    destruct (agreed _ _ _ v (outpoint_agrees a b _ _ Ha Hb) E) as [x [F X]]. exists x. split; [do 2 eexists; exact F|exact X].
  Qed.
  Lemma txin_record v : made H v -> instance CTxIn v = true -> exists x, some_txin x /\ txin_value v x.
  Proof using.
    intros M I. destruct (made_origin H _ v M I) as [o [s [r [q E]]]].
    destruct (txin_args _ _ _ _ _ E) as [co [cs [cr [cq [Ho [L [Hs [Hr Hq]]]]]]]].
    destruct (outpoint_of_bytes co L) as [po [Po <-]].
    destruct (agreed _ _ _ v (txin_agrees o s r q po cs cr cq Ho Hs Hr Hq) E) as [x [F X]].
    exists x. split; [do 4 eexists; split; [exact Po|exact F]|exact X].
  Qed.
  Lemma txout_record v : made H v -> instance CTxOut v = true -> exists x, some_txout x /\ txout_value v x.
  Proof using.
    intros M I. destruct (made_origin H _ v M I) as [a [b E]]. destruct (txout_args _ _ _ E) as [ca [cb [Ha Hb]]].
    destruct (agreed _ _ _ v (txout_agrees a b _ _ Ha Hb) E) as [x [F X]]. exists x. split; [do 2 eexists; exact F|exact X].
  Qed.
  Lemma item_record v : made H v -> instance CWitnessStackItem v = true -> exists x, some_item x /\ item_value v x.
  Proof using.
    intros M I. destruct (made_origin H _ v M I) as [a E]. destruct (item_args _ _ E) as [ca Ha].
    destruct (agreed _ _ _ v (item_agrees a _ Ha) E) as [x [F X]]. exists x. split; [eexists; exact F|exact X].
  Qed.
  Lemma witness_record v : made H v -> instance CInputWitness v = true -> exists x, some_witness x /\ witness_value v x.
  Proof using.
    intros M I. destruct (made_origin H _ v M I) as [a [Ma E]].
    assert (S : exists l, Forall some_item l /\ objects_of item_value l a).
    { unfold call_InputWitness in E. inv_bind. destruct (records H _ _ _ item_record _ _ (made_items H _ _ Ma E0) E1) as [l [G F]].
      exists l. split; [exact G|]. eexists. split; [exact E0|exact F]. }
    destruct S as [l [G O]].
    destruct (agreed _ _ _ v (witness_agrees a l O) E) as [x [F X]]. exists x. split; [exists l; auto|exact X].
  Qed.
  Lemma tx_record v : made H v -> instance CTx v = true -> exists x, some_tx H x /\ tx_value v x.
  Proof using.
    intros M I. destruct (made_origin H _ v M I) as [net [ve [f [i [o [w [l [Mi [Mo [Mw E]]]]]]]]]].
    assert (S : exists cv cf li lo lw cl,
      holds ve cv /\ holds_optional f cf /\ objects_of txin_value li i /\ objects_of txout_value lo o /\
      optional_objects_of witness_value lw w /\ holds l cl /\ (cf <> None -> buffer_of ve cv /\ buffer_of l cl) /\
      Forall some_txin li /\ Forall some_txout lo /\ (forall x, lw = Some x -> Forall some_witness x)).
    { unfold call_Tx in E. cbv zeta in E. inv_bind. contents.
      destruct (records H _ _ _ txin_record _ _ (made_items H _ _ Mi E5) E7) as [li [Gi Fi]].
      destruct (records H _ _ _ txout_record _ _ (made_items H _ _ Mo E6) E8) as [lo [Go Fo]].
      assert (W : exists lw, optional_objects_of witness_value lw w /\ forall x, lw = Some x -> Forall some_witness x).
      { destruct (none w) eqn:Nw.
        - exists None. split; [destruct w; try discriminate; reflexivity|discriminate].
        - assert (A : exists u, all_instances CInputWitness x2 = Ok u).
          { destruct (zlen x2 =? 0) eqn:Z0.
            - apply zlen_zero in Z0. subst x2. eexists. reflexivity.
            - inv_bind. eexists. eassumption. }
          destruct A as [u A]. destruct (records H _ _ _ witness_record _ _ (made_items H _ _ Mw E3) A) as [lw [Gw Fw]].
          exists (Some lw). split; [|intros y Y; injection Y as <-; exact Gw].
          split; [intros ->; discriminate|]. exists x2. split; [exact E3|exact Fw]. }
      destruct W as [lw [Ow Gw]].
      destruct (none f) eqn:Nf.
      - exists x, None, li, lo, lw, x0. do 2 (split; [first [assumption|destruct f; try discriminate; reflexivity]|]).
        split; [exists x4; auto|]. split; [exists x5; auto|]. split; [exact Ow|]. split; [assumption|]. split; [congruence|]. auto.
      - inv_bind. contents. exists x, (Some x8), li, lo, lw, x0. do 2 (split; [assumption|]).
        split; [exists x4; auto|]. split; [exists x5; auto|]. split; [exact Ow|]. split; [assumption|].
        split; [intros _|auto].
        repeat match goal with X : buffer_of ?a ?b, Y : holds ?a ?c |- _ => rewrite <- (holds_inj a b c (buffer_holds a b X) Y); clear Y end. auto. }
    destruct S as [cv [cf [li [lo [lw [cl [Hv [Hf [Hi [Ho [Hw [Hl [B [Gi [Go Gw]]]]]]]]]]]]]]].
    destruct (agreed _ _ _ v (tx_agrees H net ve f i o w l _ _ _ _ _ _ Hv Hf Hi Ho Hw Hl B) E) as [x [F X]].
    exists x. split; [|exact X]. exists net, cv, cf, li, lo, lw, cl. auto.
  Qed.

  Lemma doutpoint_record v : made H v -> instance CDecredOutpoint v = true -> exists x, some_doutpoint x /\ doutpoint_value v x.
  Proof using.
    intros M I. destruct (made_origin H _ v M I) as [net [a [b [c E]]]]. destruct (doutpoint_args _ _ _ _ _ E) as [ca [cb [cc [Ha [Hb Hc]]]]].
    destruct (agreed _ _ _ v (doutpoint_agrees net a b c _ _ _ Ha Hb Hc) E) as [x [F X]]. exists x. split; [do 4 eexists; exact F|exact X].
  Qed.
  Lemma dtxin_record v : made H v -> instance CDecredTxIn v = true -> exists x, some_dtxin x /\ dtxin_value v x.
  Proof using.
    intros M I. destruct (made_origin H _ v M I) as [net [o [q E]]].
    destruct (dtxin_args _ _ _ _ E) as [co [cq [Ho [L Hq]]]].
    assert (D : decred_only net = Ok tt). { unfold call_DecredTxIn in E. inv_bind. destruct x. assumption. }
    destruct (doutpoint_of_bytes net co D L) as [po [Po <-]].
    destruct (agreed _ _ _ v (dtxin_agrees net o q po cq Ho Hq) E) as [x [F X]].
    exists x. split; [do 3 eexists; split; [exact Po|exact F]|exact X].
  Qed.
  Lemma dtxout_record v : made H v -> instance CDecredTxOut v = true -> exists x, some_dtxout x /\ dtxout_value v x.
  Proof using.
    intros M I. destruct (made_origin H _ v M I) as [net [a [b [c E]]]]. destruct (dtxout_args _ _ _ _ _ E) as [ca [cb [cc [Ha [Hb Hc]]]]].
    destruct (agreed _ _ _ v (dtxout_agrees net a b c ca (Some cb) cc Ha Hb Hc) E) as [x [F X]]. exists x. split; [do 4 eexists; exact F|exact X].
  Qed.
  Lemma dwitness_record v : made H v -> instance CDecredInputWitness v = true -> exists x, some_dwitness x /\ dwitness_value v x.
  Proof using.
    intros M I. destruct (made_origin H _ v M I) as [net [a [b [c [s [r E]]]]]].
    destruct (dwitness_args _ _ _ _ _ _ _ E) as [ca [cb [cc [cs [cr [Ha [Hb [Hc [Hs Hr]]]]]]]]].
    destruct (agreed _ _ _ v (dwitness_agrees net a b c s r _ _ _ _ _ Ha Hb Hc Hs Hr) E) as [x [F X]]. exists x. split; [do 6 eexists; exact F|exact X].
  Qed.
  Lemma dtx_record v : made H v -> instance CDecredTx v = true -> exists x, some_dtx H x /\ dtx_value v x.
  Proof using.
    intros M I. destruct (made_origin H _ v M I) as [net [ve [i [o [l [e [w [Mi [Mo [Mw E]]]]]]]]]].
    assert (S : exists cv li lo cl ce lw,
      holds ve cv /\ objects_of dtxin_value li i /\ objects_of dtxout_value lo o /\ holds l cl /\ holds e ce /\
      objects_of dwitness_value lw w /\ Forall some_dtxin li /\ Forall some_dtxout lo /\ Forall some_dwitness lw).
    { unfold call_DecredTx in E. cbv zeta in E. inv_bind. contents.
      repeat match goal with
      | A : sequence i = Ok ?ins, B : all_instances _ ?ins = Ok _ |- _ =>
          destruct (records H _ _ _ dtxin_record _ _ (made_items H _ _ Mi A) B) as [li [Gi Fi]]; clear B
      | A : sequence o = Ok ?ins, B : all_instances _ ?ins = Ok _ |- _ =>
          destruct (records H _ _ _ dtxout_record _ _ (made_items H _ _ Mo A) B) as [lo [Go Fo]]; clear B
      | A : sequence w = Ok ?ins, B : all_instances _ ?ins = Ok _ |- _ =>
          destruct (records H _ _ _ dwitness_record _ _ (made_items H _ _ Mw A) B) as [lw [Gw Fw]]; clear B
      end.
      do 6 eexists. split; [eassumption|]. split; [eexists; split; eassumption|]. split; [eexists; split; eassumption|].
      split; [eassumption|]. split; [eassumption|]. split; [eexists; split; eassumption|]. auto. }
    destruct S as [cv [li [lo [cl [ce [lw [Hv [Hi [Ho [Hl [He [Hw [Gi [Go Gw]]]]]]]]]]]]]].
    destruct (agreed _ _ _ v (dtx_agrees H net ve i o l e w _ _ _ _ _ _ Hv Hi Ho Hl He Hw) E) as [x [F X]].
    exists x. split; [|exact X]. exists net, cv, li, lo, cl, ce, lw. auto.
  Qed.

  Lemma sprout_zkproof_record v : made H v -> instance CSproutZkproof v = true -> exists x, some_sprout_zkproof x /\ sprout_zkproof_value v x.
  Proof using.
    intros M I. destruct (made_origin H _ v M I) as [net [a [b [c [d [e [f [g [h E]]]]]]]]].
    destruct (sprout_zkproof_args _ _ _ _ _ _ _ _ _ _ E) as [ca [cb [cc [cd [ce [cf [cg [ch [Ha [Hb [Hc [Hd [He [Hf [Hg Hh]]]]]]]]]]]]]]].
    destruct (agreed _ _ _ v (sprout_zkproof_agrees net a b c d e f g h _ _ _ _ _ _ _ _ Ha Hb Hc Hd He Hf Hg Hh) E) as [x [F X]].
    exists x. split; [do 9 eexists; exact F|exact X].
  Qed.
  Lemma sapling_zkproof_record v : made H v -> instance CSaplingZkproof v = true -> exists x, some_sapling_zkproof x /\ sapling_zkproof_value v x.
  Proof using.
    intros M I. destruct (made_origin H _ v M I) as [net [a [b [c E]]]]. destruct (sapling_zkproof_args _ _ _ _ _ E) as [ca [cb [cc [Ha [Hb Hc]]]]].
    destruct (agreed _ _ _ v (sapling_zkproof_agrees net a b c ca cb cc Ha Hb Hc) E) as [x [F X]]. exists x. split; [do 4 eexists; exact F|exact X].
  Qed.
  Lemma sprout_joinsplit_record v : made H v -> instance CSproutJoinsplit v = true -> exists x, some_sprout_joinsplit x /\ sprout_joinsplit_value v x.
  Proof using.
    intros M I. destruct (made_origin H _ v M I) as [net [a [b [c [d [e [f [g [h [z [t [Mz E]]]]]]]]]]]].
    destruct (joinsplit_args _ _ _ _ _ _ _ _ _ _ _ _ _ _ E) as [Iz [ca [cb [cc [cd [ce [cf [cg [ch [ct [Ha [Hb [Hc [Hd [He [Hf [Hg [Hh Ht]]]]]]]]]]]]]]]]]].
    destruct (sprout_zkproof_record z Mz Iz) as [pz [Gz Vz]].
    destruct (agreed _ _ _ v (joinsplit_agrees CSproutJoinsplit _ _ _ sprout_zkproof_shape net a b c d e f g h z t _ _ _ _ _ _ _ _ _ _ Ha Hb Hc Hd He Hf Hg Hh Vz Ht) E) as [x [F X]].
    exists x. split; [|exact X]. do 10 eexists. exists ct. split; [exact Gz|exact F].
  Qed.
  Lemma sapling_joinsplit_record v : made H v -> instance CSaplingJoinsplit v = true -> exists x, some_sapling_joinsplit x /\ sapling_joinsplit_value v x.
  Proof using.
    intros M I. destruct (made_origin H _ v M I) as [net [a [b [c [d [e [f [g [h [z [t [Mz E]]]]]]]]]]]].
    destruct (joinsplit_args _ _ _ _ _ _ _ _ _ _ _ _ _ _ E) as [Iz [ca [cb [cc [cd [ce [cf [cg [ch [ct [Ha [Hb [Hc [Hd [He [Hf [Hg [Hh Ht]]]]]]]]]]]]]]]]]].
    destruct (sapling_zkproof_record z Mz Iz) as [pz [Gz Vz]].
    destruct (agreed _ _ _ v (joinsplit_agrees CSaplingJoinsplit _ _ _ sapling_zkproof_shape net a b c d e f g h z t _ _ _ _ _ _ _ _ _ _ Ha Hb Hc Hd He Hf Hg Hh Vz Ht) E) as [x [F X]].
    exists x. split; [|exact X]. do 10 eexists. exists ct. split; [exact Gz|exact F].
  Qed.
  Lemma spend_record v : made H v -> instance CSaplingShieldedSpend v = true -> exists x, some_shielded_spend x /\ shielded_spend_value v x.
  Proof using.
    intros M I. destruct (made_origin H _ v M I) as [net [a [b [c [d [z [s [Mz E]]]]]]]].
    destruct (spend_args _ _ _ _ _ _ _ _ E) as [Iz [ca [cb [cc [cd [cs [Ha [Hb [Hc [Hd Hs]]]]]]]]]].
    destruct (sapling_zkproof_record z Mz Iz) as [pz [Gz Vz]].
    destruct (agreed _ _ _ v (shielded_spend_agrees net a b c d z s _ _ _ _ _ _ Ha Hb Hc Hd Vz Hs) E) as [x [F X]].
    exists x. split; [|exact X]. do 7 eexists. split; [exact Gz|exact F].
  Qed.
  Lemma output_record v : made H v -> instance CSaplingShieldedOutput v = true -> exists x, some_shielded_output x /\ shielded_output_value v x.
  Proof using.
    intros M I. destruct (made_origin H _ v M I) as [net [a [b [c [d [e [z [Mz E]]]]]]]].
    destruct (output_args _ _ _ _ _ _ _ _ E) as [Iz [ca [cb [cc [cd [ce [Ha [Hb [Hc [Hd He]]]]]]]]]].
    destruct (sapling_zkproof_record z Mz Iz) as [pz [Gz Vz]].
    destruct (agreed _ _ _ v (shielded_output_agrees net a b c d e z _ _ _ _ _ _ Ha Hb Hc Hd He Vz) E) as [x [F X]].
    exists x. split; [|exact X]. do 7 eexists. split; [exact Gz|exact F].
  Qed.

  Lemma overwinter_tx_record v : made H v -> instance COverwinterTx v = true -> exists x, some_overwinter_tx H x /\ overwinter_tx_value v x.
  Proof using.
    intros M I. destruct (made_origin H _ v M I) as [net [i [o [l [e [j [pk [sg [Mi [Mo [Mj E]]]]]]]]]]].
    assert (S : exists pk' sg' li lo cl ce lj cpk csg,
      objects_of txin_value li i /\ objects_of txout_value lo o /\ holds l cl /\ holds e ce /\
      objects_of sprout_joinsplit_value lj j /\ holds_optional pk' cpk /\ holds_optional sg' csg /\
      Forall some_txin li /\ Forall some_txout lo /\ Forall some_sprout_joinsplit lj /\
      call_OverwinterTx H net i o l e j pk sg = call_OverwinterTx H net i o l e j pk' sg').
    { unfold call_OverwinterTx in E. cbv zeta in E. inv_bind. contents.
      repeat match goal with
      | A : sequence i = Ok ?ins, B : all_instances _ ?ins = Ok _ |- _ =>
          destruct (records H _ _ _ txin_record _ _ (made_items H _ _ Mi A) B) as [li [Gi Fi]]; clear B
      | A : sequence o = Ok ?ins, B : all_instances _ ?ins = Ok _ |- _ =>
          destruct (records H _ _ _ txout_record _ _ (made_items H _ _ Mo A) B) as [lo [Go Fo]]; clear B
      | A : sequence j = Ok ?ins, B : all_instances _ ?ins = Ok _ |- _ =>
          destruct (records H _ _ _ sprout_joinsplit_record _ _ (made_items H _ _ Mj A) B) as [lj [Gj Fj]]; clear B; rename A into Ej; rename ins into js
      end.
      destruct (zlen js =? 0) eqn:Z0; cbn [negb] in *.
      - pose proof (zlen_zero _ Z0) as J. subst js. exists PNone, PNone, li, lo. do 5 eexists.
        split; [eexists; split; eassumption|]. split; [eexists; split; eassumption|]. split; [eassumption|]. split; [eassumption|].
        split; [eexists; split; eassumption|]. split; [instantiate (1 := None); reflexivity|]. split; [instantiate (1 := None); reflexivity|].
        do 3 (split; [assumption|]). apply overwinter_no_joinsplits, Ej.
      - inv_bind. contents. exists pk, sg, li, lo. do 3 eexists. do 2 eapply ex_some.
        split; [eexists; split; eassumption|]. split; [eexists; split; eassumption|]. split; [eassumption|]. split; [eassumption|].
        split; [eexists; split; eassumption|]. split; [eassumption|]. split; [eassumption|]. auto. }
    destruct S as [pk' [sg' [li [lo [cl [ce [lj [cpk [csg [Hi [Ho [Hl [He [Hj [Hp [Hs [Gi [Go [Gj Q]]]]]]]]]]]]]]]]]]].
    rewrite Q in E.
    destruct (agreed _ _ _ v (overwinter_tx_agrees H net i o l e j pk' sg' _ _ _ _ _ _ _ Hi Ho Hl He Hj Hp Hs) E) as [x [F X]].
    exists x. split; [|exact X]. exists net, li, lo, cl, ce, lj, cpk, csg. auto.
  Qed.

  Lemma sapling_tx_record v : made H v -> instance CSaplingTx v = true -> exists x, some_sapling_tx H x /\ sapling_tx_value v x.
  Proof using.
    intros M I. destruct (made_origin H _ v M I) as [net [i [o [l [e [w [s [u [j [pk [sg [bs [Mi [Mo [Ms [Mu [Mj E]]]]]]]]]]]]]]]]].
    assert (S : exists pk' sg' li lo cl ce cw ls lu lj cpk csg cbs,
      objects_of txin_value li i /\ objects_of txout_value lo o /\ holds l cl /\ holds e ce /\ holds w cw /\
      objects_of shielded_spend_value ls s /\ objects_of shielded_output_value lu u /\
      objects_of sapling_joinsplit_value lj j /\ holds_optional pk' cpk /\ holds_optional sg' csg /\ holds_optional bs cbs /\
      Forall some_txin li /\ Forall some_txout lo /\ Forall some_shielded_spend ls /\ Forall some_shielded_output lu /\
      Forall some_sapling_joinsplit lj /\
      call_SaplingTx H net i o l e w s u j pk sg bs = call_SaplingTx H net i o l e w s u j pk' sg' bs).
    { unfold call_SaplingTx in E. cbv zeta in E. inv_bind. contents.
      repeat match goal with
      | A : sequence i = Ok ?ins, B : all_instances _ ?ins = Ok _ |- _ =>
          destruct (records H _ _ _ txin_record _ _ (made_items H _ _ Mi A) B) as [li [Gi Fi]]; clear B
      | A : sequence o = Ok ?ins, B : all_instances _ ?ins = Ok _ |- _ =>
          destruct (records H _ _ _ txout_record _ _ (made_items H _ _ Mo A) B) as [lo [Go Fo]]; clear B
      | A : sequence s = Ok ?ins, B : all_instances _ ?ins = Ok _ |- _ =>
          destruct (records H _ _ _ spend_record _ _ (made_items H _ _ Ms A) B) as [ls [Gs Fs]]; clear B
      | A : sequence u = Ok ?ins, B : all_instances _ ?ins = Ok _ |- _ =>
          destruct (records H _ _ _ output_record _ _ (made_items H _ _ Mu A) B) as [lu [Gu Fu]]; clear B
      | A : sequence j = Ok ?ins, B : all_instances _ ?ins = Ok _ |- _ =>
          destruct (records H _ _ _ sapling_joinsplit_record _ _ (made_items H _ _ Mj A) B) as [lj [Gj Fj]]; clear B; rename A into Ej; rename ins into js
      end.
      assert (B : exists cbs, holds_optional bs cbs).
      { destruct (none bs) eqn:Nb; [exists None; destruct bs; try discriminate; reflexivity|]. inv_bind. contents. eapply ex_some. eassumption. }
      destruct B as [cbs Hbs].
      destruct (zlen js =? 0) eqn:Z0; cbn [negb] in *.
      - pose proof (zlen_zero _ Z0) as J. subst js. exists PNone, PNone, li, lo. do 8 eexists. exists cbs.
        split; [eexists; split; eassumption|]. split; [eexists; split; eassumption|]. split; [eassumption|]. split; [eassumption|].
        split; [eassumption|]. do 3 (split; [eexists; split; eassumption|]).
        split; [instantiate (1 := None); reflexivity|]. split; [instantiate (1 := None); reflexivity|].
        do 6 (split; [assumption|]). apply sapling_no_joinsplits, Ej.
      - inv_bind. contents. exists pk, sg, li, lo. do 6 eexists. do 2 eapply ex_some. exists cbs.
        split; [eexists; split; eassumption|]. split; [eexists; split; eassumption|]. split; [eassumption|]. split; [eassumption|].
        split; [eassumption|]. do 3 (split; [eexists; split; eassumption|]).
        split; [eassumption|]. split; [eassumption|]. do 6 (split; [assumption|]). reflexivity. }
    destruct S as [pk' [sg' [li [lo [cl [ce [cw [ls [lu [lj [cpk [csg [cbs [Hi [Ho [Hl [He [Hw [Hs [Hu [Hj [Hp [Hg [Hb [Gi [Go [Gs [Gu [Gj Q]]]]]]]]]]]]]]]]]]]]]]]]]]]]].
    rewrite Q in E.
    assert (N : forall x : pv, (exists vs, sequence x = Ok vs) -> x <> PNone) by (intros x [vs Y] ->; discriminate).
    assert (Hs' : optional_objects_of shielded_spend_value (Some ls) s) by (split; [apply N; destruct Hs as [vs [Y _]]; eauto|exact Hs]).
    assert (Hu' : optional_objects_of shielded_output_value (Some lu) u) by (split; [apply N; destruct Hu as [vs [Y _]]; eauto|exact Hu]).
    assert (Hj' : optional_objects_of sapling_joinsplit_value (Some lj) j) by (split; [apply N; destruct Hj as [vs [Y _]]; eauto|exact Hj]).
    destruct (agreed _ _ _ v (sapling_tx_agrees H net i o l e w s u j pk' sg' bs _ _ _ _ _ _ _ _ _ _ _ Hi Ho Hl He Hw Hs' Hu' Hj' Hp Hg Hb) E) as [x [F X]].
    exists x. split; [|exact X]. exists net, li, lo, cl, ce, cw, ls, lu, lj, cpk, csg, cbs. auto 10.
  Qed.

  Lemma sprout_tx_record v : made H v -> instance CSproutTx v = true -> exists x, some_sprout_tx H x /\ sprout_tx_value v x.
  Proof using.
    intros M I. destruct (made_origin H _ v M I) as [net [ve [i [o [l [j [pk [sg [Mi [Mo [Mj E]]]]]]]]]]].
    assert (S : exists pk' sg' cv li lo cl lj cpk csg,
      holds ve cv /\ objects_of txin_value li i /\ objects_of txout_value lo o /\ holds l cl /\
      objects_of sprout_joinsplit_value lj j /\ holds_optional pk' cpk /\ holds_optional sg' csg /\
      Forall some_txin li /\ Forall some_txout lo /\ Forall some_sprout_joinsplit lj /\
      call_SproutTx H net ve i o l j pk sg = call_SproutTx H net ve i o l j pk' sg').
    { unfold call_SproutTx in E. cbv zeta in E. inv_bind. contents.
      repeat match goal with
      | A : sequence i = Ok ?ins, B : all_instances _ ?ins = Ok _ |- _ =>
          destruct (records H _ _ _ txin_record _ _ (made_items H _ _ Mi A) B) as [li [Gi Fi]]; clear B
      | A : sequence o = Ok ?ins, B : all_instances _ ?ins = Ok _ |- _ =>
          destruct (records H _ _ _ txout_record _ _ (made_items H _ _ Mo A) B) as [lo [Go Fo]]; clear B
      end.
      match goal with A : sequence j = Ok ?js |- _ => rewrite A in *; rename A into Ej end.
      match goal with A : holds ve ?c |- _ => rename A into Hve end.
      match goal with A : negb (zmem (le2i ?c false) [1; 2]) = false |- _ => 
        assert (D : le2i c false = 1 \/ le2i c false = 2) by
          (cbn [zmem existsb negb] in A; destruct (le2i c false =? 1) eqn:D1; [left; apply Z.eqb_eq, D1|];
           destruct (le2i c false =? 2) eqn:D2; [right; apply Z.eqb_eq, D2|discriminate]) end.
      destruct D as [D|D]; rewrite D in *; cbn [Z.eqb Pos.eqb] in *; inv_bind; contents.
      - assert (J : x12 = []).
        { destruct j; cbn [none sequence bind] in *; try discriminate;
            match goal with X : guard (negb (zlen x12 =? 0)) _ = Ok _ |- _ => destruct (zlen x12 =? 0) eqn:Z0; [apply zlen_zero, Z0|discriminate] end. }
        subst x12. exists PNone, PNone, x0, li, lo. do 4 eexists.
        split; [exact Hve|]. do 2 (split; [eexists; split; eassumption|]). split; [eassumption|].
        split; [eexists; split; [eassumption|instantiate (1 := []); constructor]|].
        split; [instantiate (1 := None); reflexivity|]. split; [instantiate (1 := None); reflexivity|].
        do 2 (split; [assumption|]). split; [constructor|]. exact (sprout_version_1 H net ve i o l j pk sg x0 Hve D).
      - apply Ok_inj in E1. subst x15.
        destruct (records H _ _ _ sprout_joinsplit_record _ _ (made_items H _ _ Mj Ej) E2) as [lj [Gj Fj]].
        assert (B : exists csg, holds_optional sg csg).
        { destruct (none sg) eqn:Ng; [exists None; destruct sg; try discriminate; reflexivity|]. cbn [orb] in E8.
          destruct (same_bytes sg []) eqn:Sg.
          - unfold same_bytes in Sg. destruct (byte_content sg) as [c|] eqn:C; [|discriminate]. exists (Some c). exact C.
          - inv_bind. contents. eapply ex_some. eassumption. }
        destruct B as [csg Hsg].
        exists pk, sg, x0, li, lo, x1, lj, (Some x17), csg.
        split; [exact Hve|]. do 2 (split; [eexists; split; eassumption|]). split; [assumption|]. split; [eexists; split; eassumption|].
        do 5 (split; [assumption|]). reflexivity. }
    destruct S as [pk' [sg' [cv [li [lo [cl [lj [cpk [csg [Hv [Hi [Ho [Hl [Hj [Hp [Hs [Gi [Go [Gj Q]]]]]]]]]]]]]]]]]]].
    rewrite Q in E.
    assert (Hj' : optional_objects_of sprout_joinsplit_value (Some lj) j) by (split; [destruct Hj as [vs [Y _]]; intros ->; discriminate|exact Hj]).
    destruct (agreed _ _ _ v (sprout_tx_agrees H net ve i o l j pk' sg' _ _ _ _ _ _ _ Hv Hi Ho Hl Hj' Hp Hs) E) as [x [F X]].
    exists x. split; [|exact X]. exists net, cv, li, lo, cl, lj, cpk, csg. auto.
  Qed.
End Made.
