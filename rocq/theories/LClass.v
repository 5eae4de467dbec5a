(* The constructors on arguments of any type *)
From Coq Require Import String Lia.
From Verif Require Import Py SHash LBase MNet MUtils MShared MTx MDecred MZcash MClass SClass.
Open Scope list_scope.
Open Scope Z_scope.
Ltac Zify.zify_post_hook ::= idtac.

Lemma sized_holds v b n : holds v b -> sized v n = if zlen b =? n then Ok b else Err ValueError.
Proof. intros E. unfold sized. rewrite E. destruct (zlen b =? n); reflexivity. Qed.
Lemma unsized_holds v b : holds v b -> unsized v = Ok b.
Proof. intros E. unfold unsized. rewrite E. reflexivity. Qed.
Lemma extend_holds v b : holds v b -> extend v = Ok b.
Proof. intros E. unfold extend. rewrite E. reflexivity. Qed.
Lemma validate_some b n : validate_bytes (Some b) (Some n) = if zlen b =? n then Ok tt else Err ValueError.
Proof. cbn [validate_bytes]. destruct (zlen b =? n); reflexivity. Qed.
Lemma vb_some b n : vb b n = if zlen b =? n then Ok tt else Err ValueError.
Proof. apply validate_some. Qed.
Lemma sized_Ok v n b : sized v n = Ok b -> holds v b /\ zlen b = n.
Proof.
  unfold sized, holds. destruct (byte_content v) as [a|]; [|discriminate].
  destruct (zlen a =? n) eqn:E; cbn [negb guard bind]; [|discriminate]. intros X. apply Ok_inj in X. subst a. split; [reflexivity|apply Z.eqb_eq, E].
Qed.
Lemma unsized_Ok v b : unsized v = Ok b -> holds v b.
Proof. unfold unsized, holds. destruct (byte_content v) as [a|]; [|discriminate]. intros X. apply Ok_inj in X. subst a. reflexivity. Qed.
Lemma extend_Ok v b : extend v = Ok b -> holds v b.
Proof. unfold extend, holds. destruct (byte_content v) as [a|]; [|discriminate]. intros X. apply Ok_inj in X. subst a. reflexivity. Qed.
Lemma plus_buffers v w a b : buffer_of v a -> buffer_of w b -> exists r, plus v w = Ok r /\ holds r (a ++ b).
Proof. intros [->| ->] [->| ->]; eexists; (split; [reflexivity|reflexivity]). Qed.
Lemma plus_Ok v w r : plus v w = Ok r -> exists a b, buffer_of v a /\ buffer_of w b /\ holds r (a ++ b).
Proof.
  unfold buffer_of. destruct v; try discriminate; destruct w; try discriminate; intros E; apply Ok_inj in E; subst r;
    do 2 eexists; (split; [eauto|split; [eauto|reflexivity]]).
Qed.
Lemma buffer_holds v b : buffer_of v b -> holds v b.
Proof. intros [->| ->]; reflexivity. Qed.
Lemma holds_inj v a b : holds v a -> holds v b -> a = b.
Proof. unfold holds. congruence. Qed.
Lemma append_buffer v b : buffer_of v b -> append_to_bytes v = Ok b.
Proof. intros [->| ->]; reflexivity. Qed.
Lemma append_Ok v b : append_to_bytes v = Ok b -> buffer_of v b.
Proof. unfold buffer_of. destruct v; try discriminate; intros E; apply Ok_inj in E; subst; eauto. Qed.

(* the objects of one class in a sequence *)
Section Objects.
  Context {A} (is : pv -> A -> Prop) (c : cls) (bytes_of : A -> bytes).
  Context (shape : forall v a, is v a -> exists attrs, v = PObj c (bytes_of a) attrs).
  Lemma objects_instances vs l : Forall2 is vs l -> forallb (instance c) vs = true.
  Proof using shape.
    induction 1 as [|v a vs l V _ IH]; [reflexivity|]. destruct (shape v a V) as [attrs ->]. cbn [forallb instance].
    destruct (cls_eq_dec c c); [exact IH|congruence].
  Qed.
  Lemma objects_all vs l : Forall2 is vs l -> all_instances c vs = Ok tt.
  Proof using shape. intros F. unfold all_instances. rewrite (objects_instances vs l F). reflexivity. Qed.
  Lemma objects_bytes vs l : Forall2 is vs l -> extend_all vs = concat (map bytes_of l).
  Proof using shape.
    unfold extend_all. induction 1 as [|v a vs l V _ IH]; [reflexivity|]. destruct (shape v a V) as [attrs ->].
    cbn [map concat object_bytes]. rewrite IH. reflexivity.
  Qed.
End Objects.
Lemma Forall2_zlen {A B} (R : A -> B -> Prop) l m : Forall2 R l m -> zlen l = zlen m.
Proof. intros F. unfold zlen. f_equal. induction F; cbn [length]; congruence. Qed.

Ltac sizes_of := repeat match goal with
  | X : holds ?v ?b |- context [sized ?v ?n] => rewrite (sized_holds v b n X)
  | X : holds ?v ?b |- context [unsized ?v] => rewrite (unsized_holds v b X)
  | X : holds ?v ?b |- context [extend ?v] => rewrite (extend_holds v b X)
  end; rewrite ?validate_some, ?vb_some; cbn [validate_bytes bind].
Ltac same := repeat match goal with
  | |- match bind (if ?c then _ else _) _ with Ok _ => _ | Err _ => _ end => destruct c; cbn [bind]; [|reflexivity]
  | |- match bind (guard ?c _) _ with Ok _ => _ | Err _ => _ end => destruct c; cbn [bind guard]; [reflexivity|]
  | |- match bind ?r _ with Ok _ => _ | Err _ => _ end => destruct r; cbn [bind]; [|reflexivity]
  end.
Ltac field := first [reflexivity | eexists; split; [reflexivity|first [assumption|reflexivity|eexists; split; [first [reflexivity|eassumption]|assumption]]]].
Ltac fields := eexists; split; [reflexivity|]; unfold has_bytes, has_optional, has; repeat (split; [field|]); try field.

(** * tx.py *)

Lemma outpoint_agrees t i ct ci : holds t ct -> holds i ci ->
  match Outpoint (Some ct) (Some ci) with
  | Ok o => exists v, call_Outpoint t i = Ok v /\ outpoint_value v o
  | Err e => call_Outpoint t i = Err e
  end.
Proof.
  intros Ht Hi. unfold Outpoint, call_Outpoint. sizes_of. same.
  eexists. split; [reflexivity|]. fields.
Qed.

Lemma txin_agrees o s r q po cs cr cq : holds o (op_bytes po) -> buffer_of s cs -> buffer_of r cr -> holds q cq ->
  match TxIn po cs cr cq with
  | Ok i => exists v, call_TxIn o s r q = Ok v /\ txin_value v i
  | Err e => call_TxIn o s r q = Err e
  end.
Proof.
  intros Ho Bs Br Hq. pose proof (buffer_holds _ _ Bs) as Hs. pose proof (buffer_holds _ _ Br) as Hr.
  unfold TxIn, call_TxIn. sizes_of. same.
  destruct (plus_buffers s r cs cr Bs Br) as [p [E Hp]]. rewrite E. cbn [bind].
  eexists. split; [reflexivity|]. fields.
Qed.

Lemma txout_agrees v s cv cs : holds v cv -> holds s cs ->
  match TxOut cv cs with
  | Ok o => exists r, call_TxOut v s = Ok r /\ txout_value r o
  | Err e => call_TxOut v s = Err e
  end.
Proof. intros Hv Hs. unfold TxOut, call_TxOut. sizes_of. same. eexists. split; [reflexivity|]. fields. Qed.

Lemma item_agrees i ci : holds i ci ->
  match WitnessStackItem ci with
  | Ok o => exists r, call_WitnessStackItem i = Ok r /\ item_value r o
  | Err e => call_WitnessStackItem i = Err e
  end.
Proof. intros Hi. unfold WitnessStackItem, call_WitnessStackItem. sizes_of. same. eexists. split; [reflexivity|]. fields. Qed.

Lemma item_shape v i : item_value v i -> exists attrs, v = PObj CWitnessStackItem (wi_bytes i) attrs.
Proof. intros [a [E _]]. eauto. Qed.
Lemma witness_shape v i : witness_value v i -> exists attrs, v = PObj CInputWitness (wit_bytes i) attrs.
Proof. intros [a [E _]]. eauto. Qed.
Lemma txin_shape v i : txin_value v i -> exists attrs, v = PObj CTxIn (ti_bytes i) attrs.
Proof. intros [a [E _]]. eauto. Qed.
Lemma txout_shape v i : txout_value v i -> exists attrs, v = PObj CTxOut (to_bytes_ i) attrs.
Proof. intros [a [E _]]. eauto. Qed.

Lemma witness_agrees s l : objects_of item_value l s ->
  match InputWitness l with
  | Ok w => exists v, call_InputWitness s = Ok v /\ witness_value v w
  | Err e => call_InputWitness s = Err e
  end.
Proof.
  intros [vs [E F]]. unfold InputWitness, call_InputWitness. rewrite E. cbn [bind].
  rewrite (objects_all _ _ _ item_shape vs l F). cbn [bind]. rewrite (Forall2_zlen _ _ _ F). same.
  rewrite (objects_bytes _ _ _ item_shape vs l F). eexists. split; [reflexivity|].
  eexists. split; [reflexivity|]. eexists. split; [reflexivity|]. exists vs. split; [reflexivity|exact F].
Qed.

Lemma none_false v : v <> PNone -> none v = false.
Proof. destruct v; cbn [none]; congruence. Qed.
Lemma holds_not_none v b : holds v b -> none v = false.
Proof. destruct v; cbn [none]; try reflexivity. discriminate. Qed.
Lemma same_holds v b c : holds v b -> same_bytes v c = leqb b c.
Proof. unfold same_bytes. intros ->. reflexivity. Qed.

Lemma tx_agrees H net v f i o w l cv cf li lo lw cl :
  holds v cv -> holds_optional f cf -> objects_of txin_value li i -> objects_of txout_value lo o ->
  optional_objects_of witness_value lw w -> holds l cl ->
  (cf <> None -> buffer_of v cv /\ buffer_of l cl) ->
  match Tx H net cv cf li lo lw cl with
  | Ok t => exists r, call_Tx H net v f i o w l = Ok r /\ tx_value r t
  | Err e => call_Tx H net v f i o w l = Err e
  end.
Proof.
  intros Hv Hf [ins [Ei Fi]] [outs [Eo Fo]] Hw Hl B.
  assert (W : exists wits, (if none w then Ok [] else sequence w) = Ok wits /\
    Forall2 witness_value wits (match lw with Some x => x | None => [] end) /\
    (if none w then PNone else PTuple wits) = match lw with Some _ => PTuple wits | None => PNone end).
  { destruct lw as [lw|]; cbn [optional_objects_of] in Hw.
    - destruct Hw as [N [ws [E F]]]. exists ws. rewrite (none_false _ N). auto.
    - subst w. exists []. repeat split. constructor. }
  destruct W as [wits [Ew [Fw Aw]]].
  unfold Tx, call_Tx, no_witness_bytes. sizes_of. rewrite Ew, Ei, Eo. cbn [bind].
  do 2 match goal with |- match bind (if ?c then _ else _) _ with Ok _ => _ | Err _ => _ end => destruct c; cbn [bind]; [|reflexivity] end.
  destruct cf as [cf|]; cbn [holds_optional] in Hf.
  - rewrite (holds_not_none _ _ Hf), (same_holds _ _ _ Hf). cbn [orb]. rewrite Hf.
    destruct (leqb cf (SEGWIT_TX_FLAG net)); cbn [negb guard bind]; [|reflexivity].
    rewrite (extend_holds _ _ Hf). cbn [bind]. rewrite Aw.
    destruct (B ltac:(discriminate)) as [Bv Bl]. rewrite (append_buffer _ _ Bv), (append_buffer _ _ Bl). cbn [bind].
    rewrite (Forall2_zlen _ _ _ Fi), (Forall2_zlen _ _ _ Fo), (Forall2_zlen _ _ _ Fw).
    rewrite (objects_all _ _ _ txin_shape ins li Fi), (objects_all _ _ _ txout_shape outs lo Fo), (objects_all _ _ _ witness_shape wits _ Fw).
    rewrite (objects_bytes _ _ _ txin_shape ins li Fi), (objects_bytes _ _ _ txout_shape outs lo Fo), (objects_bytes _ _ _ witness_shape wits _ Fw).
    cbn [bind].
    destruct lw as [lw|]; cbn [zlen length Z.of_nat Z.eqb bind].
    + destruct (zlen lw =? 0); cbn [negb guard bind]; [|destruct (zlen lw =? zlen li); cbn [negb guard bind]; [|reflexivity]].
      all: same; cbv zeta; rewrite <- ?app_assoc; eexists; (split; [reflexivity|]); fields.
    + same; cbv zeta; rewrite <- ?app_assoc; eexists; (split; [reflexivity|]); fields.
  - subst f. cbn [none orb negb guard bind]. rewrite Aw.
    rewrite (Forall2_zlen _ _ _ Fi), (Forall2_zlen _ _ _ Fo), (Forall2_zlen _ _ _ Fw).
    rewrite (objects_all _ _ _ txin_shape ins li Fi), (objects_all _ _ _ txout_shape outs lo Fo).
    rewrite (objects_bytes _ _ _ txin_shape ins li Fi), (objects_bytes _ _ _ txout_shape outs lo Fo), (objects_bytes _ _ _ witness_shape wits _ Fw).
    destruct lw as [lw|]; cbn [zlen length Z.of_nat Z.eqb bind].
    + destruct (zlen lw =? 0); cbn [negb guard bind]; [|reflexivity].
      same; cbv zeta; rewrite <- ?app_assoc; eexists; (split; [reflexivity|]); fields.
    + same; cbv zeta; rewrite <- ?app_assoc; eexists; (split; [reflexivity|]); fields.
Qed.

(** * decred.py *)

Lemma doutpoint_agrees net t i e ct ci ce : holds t ct -> holds i ci -> holds e ce ->
  match DecredOutpoint net ct ci ce with
  | Ok o => exists v, call_DecredOutpoint net t i e = Ok v /\ doutpoint_value v o
  | Err x => call_DecredOutpoint net t i e = Err x
  end.
Proof. intros Ht Hi He. unfold DecredOutpoint, call_DecredOutpoint. sizes_of. same. eexists. split; [reflexivity|]. fields. Qed.

Lemma dtxin_agrees net o q po cq : holds o (dop_bytes po) -> holds q cq ->
  match DecredTxIn net po cq with
  | Ok i => exists v, call_DecredTxIn net o q = Ok v /\ dtxin_value v i
  | Err e => call_DecredTxIn net o q = Err e
  end.
Proof. intros Ho Hq. unfold DecredTxIn, call_DecredTxIn. sizes_of. same. eexists. split; [reflexivity|]. fields. Qed.

Lemma dtxout_agrees net v r s cv cr cs : holds v cv -> holds_optional r cr -> holds s cs ->
  match DecredTxOut net cv cr cs with
  | Ok o => exists w, call_DecredTxOut net v r s = Ok w /\ dtxout_value w o
  | Err e => call_DecredTxOut net v r s = Err e
  end.
Proof.
  intros Hv Hr Hs. unfold DecredTxOut, call_DecredTxOut. destruct cr as [cr|]; cbn [holds_optional] in Hr.
  - sizes_of. same. cbn [add_opt bind]. same. eexists. split; [reflexivity|]. fields.
  - subst r. sizes_of. same. reflexivity.
Qed.

Lemma dwitness_agrees net v g i s r cv cg ci cs cr :
  holds v cv -> holds g cg -> holds i ci -> buffer_of s cs -> buffer_of r cr ->
  match DecredInputWitness net cv cg ci cs cr with
  | Ok w => exists x, call_DecredInputWitness net v g i s r = Ok x /\ dwitness_value x w
  | Err e => call_DecredInputWitness net v g i s r = Err e
  end.
Proof.
  intros Hv Hg Hi Bs Br. pose proof (buffer_holds _ _ Bs) as Hs. pose proof (buffer_holds _ _ Br) as Hr.
  unfold DecredInputWitness, call_DecredInputWitness. sizes_of. same.
  destruct (plus_buffers s r cs cr Bs Br) as [p [E Hp]]. rewrite E. cbn [bind]. rewrite zlen_app.
  eexists. split; [reflexivity|]. fields.
Qed.

Lemma dtxin_shape v i : dtxin_value v i -> exists attrs, v = PObj CDecredTxIn (dti_bytes i) attrs.
Proof. intros [a [E _]]. eauto. Qed.
Lemma dtxout_shape v i : dtxout_value v i -> exists attrs, v = PObj CDecredTxOut (dto_bytes i) attrs.
Proof. intros [a [E _]]. eauto. Qed.
Lemma dwitness_shape v i : dwitness_value v i -> exists attrs, v = PObj CDecredInputWitness (dw_bytes i) attrs.
Proof. intros [a [E _]]. eauto. Qed.

Lemma dtx_agrees H net v i o l e w cv li lo cl ce lw :
  holds v cv -> objects_of dtxin_value li i -> objects_of dtxout_value lo o -> holds l cl -> holds e ce ->
  objects_of dwitness_value lw w ->
  match DecredTx H net cv li lo cl ce lw with
  | Ok t => exists r, call_DecredTx H net v i o l e w = Ok r /\ dtx_value r t
  | Err x => call_DecredTx H net v i o l e w = Err x
  end.
Proof.
  intros Hv [ins [Ei Fi]] [outs [Eo Fo]] Hl He [wits [Ew Fw]].
  unfold DecredTx, call_DecredTx, decred_prefix_of. sizes_of. rewrite Ew, Ei, Eo. cbn [bind].
  rewrite (Forall2_zlen _ _ _ Fi), (Forall2_zlen _ _ _ Fo), (Forall2_zlen _ _ _ Fw).
  rewrite (objects_all _ _ _ dtxin_shape ins li Fi), (objects_all _ _ _ dtxout_shape outs lo Fo), (objects_all _ _ _ dwitness_shape wits _ Fw).
  rewrite (objects_bytes _ _ _ dtxin_shape ins li Fi), (objects_bytes _ _ _ dtxout_shape outs lo Fo), (objects_bytes _ _ _ dwitness_shape wits _ Fw).
  cbn [bind]. same. cbv zeta. rewrite <- ?app_assoc. same. eexists. split; [reflexivity|]. fields.
Qed.

(** * zcash_shared.py, sprout.py, overwinter.py, sapling.py *)

Lemma sprout_zkproof_agrees net a a' b b' c c' k h ca ca' cb cb' cc cc' ck ch :
  holds a ca -> holds a' ca' -> holds b cb -> holds b' cb' -> holds c cc -> holds c' cc' -> holds k ck -> holds h ch ->
  match SproutZkproof net ca ca' cb cb' cc cc' ck ch with
  | Ok z => exists v, call_SproutZkproof net a a' b b' c c' k h = Ok v /\ sprout_zkproof_value v z
  | Err e => call_SproutZkproof net a a' b b' c c' k h = Err e
  end.
Proof. intros. unfold SproutZkproof, call_SproutZkproof. sizes_of. same. eexists. split; [reflexivity|]. fields. Qed.

Lemma sapling_zkproof_agrees net a b c ca cb cc : holds a ca -> holds b cb -> holds c cc ->
  match SaplingZkproof net ca cb cc with
  | Ok z => exists v, call_SaplingZkproof net a b c = Ok v /\ sapling_zkproof_value v z
  | Err e => call_SaplingZkproof net a b c = Err e
  end.
Proof. intros. unfold SaplingZkproof, call_SaplingZkproof. sizes_of. same. eexists. split; [reflexivity|]. fields. Qed.

Lemma sprout_zkproof_shape v z : sprout_zkproof_value v z -> exists attrs, v = PObj CSproutZkproof (zk_bytes z) attrs.
Proof. intros [a [E _]]. eauto. Qed.
Lemma sapling_zkproof_shape v z : sapling_zkproof_value v z -> exists attrs, v = PObj CSaplingZkproof (szk_bytes z) attrs.
Proof. intros [a [E _]]. eauto. Qed.

Lemma le_integer_holds v b : holds v b -> le_integer v = Ok (le2i b false).
Proof. unfold holds. destruct v; cbn [byte_content le_integer]; intros E; try discriminate; injection E as ->; reflexivity. Qed.
Lemma instance_self c b attrs : instance c (PObj c b attrs) = true.
Proof. cbn [instance]. destruct (cls_eq_dec c c); congruence. Qed.

Lemma joinsplit_agrees {P} self proof (is_proof : pv -> P -> Prop) (pb : P -> bytes)
  (shape : forall v z, is_proof v z -> exists attrs, v = PObj proof (pb z) attrs)
  net o w a n c e r m z t co cw ca cn cc ce cr cm pz ct :
  holds o co -> holds w cw -> holds a ca -> holds n cn -> holds c cc -> holds e ce -> holds r cr -> holds m cm ->
  is_proof z pz -> holds t ct ->
  match Joinsplit net pb co cw ca cn cc ce cr cm pz ct with
  | Ok j => exists v, call_joinsplit net self proof o w a n c e r m z t = Ok v /\ joinsplit_value self is_proof v j
  | Err x => call_joinsplit net self proof o w a n c e r m z t = Err x
  end.
Proof.
  intros. unfold Joinsplit, call_joinsplit.
  assert (X : instance proof z = true /\ object_bytes z = pb pz).
  { destruct (shape _ _ H7) as [attrs ->]. split; [apply instance_self|reflexivity]. }
  destruct X as [X Y]. rewrite X, Y. rewrite (le_integer_holds _ _ H), (le_integer_holds _ _ H0).
  sizes_of. same. cbn [negb guard bind].
  destruct (le2i co false =? 0); cbn [negb andb bind guard]; [|destruct (le2i cw false =? 0); cbn [negb andb bind guard]; [|reflexivity]].
  all: same; eexists; (split; [reflexivity|]); fields.
Qed.

Lemma shielded_spend_agrees net c a n r z s cc ca cn cr pz cs :
  holds c cc -> holds a ca -> holds n cn -> holds r cr -> sapling_zkproof_value z pz -> holds s cs ->
  match SaplingShieldedSpend net cc ca cn cr pz cs with
  | Ok x => exists v, call_SaplingShieldedSpend net c a n r z s = Ok v /\ shielded_spend_value v x
  | Err e => call_SaplingShieldedSpend net c a n r z s = Err e
  end.
Proof.
  intros Hc Ha Hn Hr Hz Hs. unfold SaplingShieldedSpend, call_SaplingShieldedSpend.
  assert (X : instance CSaplingZkproof z = true /\ object_bytes z = szk_bytes pz).
  { destruct (sapling_zkproof_shape _ _ Hz) as [attrs ->]. split; reflexivity. }
  destruct X as [X Y]. rewrite X, Y. sizes_of. same. cbn [negb guard bind]. eexists. split; [reflexivity|]. fields.
Qed.

Lemma shielded_output_agrees net c m e x y z cc cm ce cx cy pz :
  holds c cc -> holds m cm -> holds e ce -> holds x cx -> holds y cy -> sapling_zkproof_value z pz ->
  match SaplingShieldedOutput net cc cm ce cx cy pz with
  | Ok o => exists v, call_SaplingShieldedOutput net c m e x y z = Ok v /\ shielded_output_value v o
  | Err e0 => call_SaplingShieldedOutput net c m e x y z = Err e0
  end.
Proof.
  intros Hc Hm He Hx Hy Hz. unfold SaplingShieldedOutput, call_SaplingShieldedOutput.
  assert (X : instance CSaplingZkproof z = true /\ object_bytes z = szk_bytes pz).
  { destruct (sapling_zkproof_shape _ _ Hz) as [attrs ->]. split; reflexivity. }
  destruct X as [X Y]. rewrite X, Y. sizes_of. same. cbn [negb guard bind]. eexists. split; [reflexivity|]. fields.
Qed.

Lemma shielded_spend_shape v s : shielded_spend_value v s -> exists attrs, v = PObj CSaplingShieldedSpend (ss_bytes s) attrs.
Proof. intros [a [E _]]. eauto. Qed.
Lemma shielded_output_shape v s : shielded_output_value v s -> exists attrs, v = PObj CSaplingShieldedOutput (so_bytes s) attrs.
Proof. intros [a [E _]]. eauto. Qed.
Lemma joinsplit_shape {P} c (is_proof : pv -> P -> Prop) v j : joinsplit_value c is_proof v j -> exists attrs, v = PObj c (js_bytes j) attrs.
Proof. intros [a [E _]]. eauto. Qed.

Lemma extend_attribute_has attrs c b k x : has_bytes attrs k x -> extend_attribute (PObj c b attrs) (lit k) = Ok x.
Proof. intros [v [E X]]. unfold extend_attribute, attribute. rewrite E. cbn [bind]. apply extend_holds, X. Qed.

Section Js.
  Context {P : Type} (H : hashes) (c : cls) (is_proof : pv -> P -> Prop) (pk : pv) (cpk : bytes) (Hpk : holds pk cpk).
  Lemma class_hsig_value v j : joinsplit_value c is_proof v j -> class_hsig H pk v = Ok (hsig H cpk j).
  Proof using Hpk.
    intros [attrs [-> [Vo [Vn [An [Nu [Co [Ek [Rs [Vm [Zk En]]]]]]]]]]].
    unfold class_hsig, extend_attributes. cbn [mapM].
    rewrite (extend_attribute_has _ _ _ _ _ Rs), (extend_attribute_has _ _ _ _ _ Nu), (extend_holds _ _ Hpk). cbn [bind concat].
    unfold hsig, hsig_input. rewrite app_nil_r, <- app_assoc. reflexivity.
  Qed.
  Lemma class_primary_value v j : joinsplit_value c is_proof v j ->
    class_primary_input v (hsig H cpk j) = Ok (primary_input H cpk j).
  Proof using.
    intros [attrs [-> [Vo [Vn [An [Nu [Co [Ek [Rs [Vm [Zk En]]]]]]]]]]].
    unfold class_primary_input, extend_attributes. cbn [mapM].
    rewrite (extend_attribute_has _ _ _ _ _ An), (extend_attribute_has _ _ _ _ _ Nu), (extend_attribute_has _ _ _ _ _ Co),
      (extend_attribute_has _ _ _ _ _ Vo), (extend_attribute_has _ _ _ _ _ Vn), (extend_attribute_has _ _ _ _ _ Vm). cbn [bind concat].
    unfold primary_input. rewrite app_nil_r, <- !app_assoc. reflexivity.
  Qed.
  Lemma class_hsigs_value vs l : Forall2 (joinsplit_value c is_proof) vs l -> class_hsigs H pk vs = Ok (map (hsig H cpk) l).
  Proof using Hpk.
    unfold class_hsigs. induction 1 as [|v j vs l V _ IH]; [reflexivity|]. cbn [mapM map].
    rewrite (class_hsig_value v j V). cbn [bind]. rewrite IH. reflexivity.
  Qed.
  Lemma class_primary_inputs_value vs l : Forall2 (joinsplit_value c is_proof) vs l ->
    class_primary_inputs vs (map (hsig H cpk) l) = Ok (map (primary_input H cpk) l).
  Proof using.
    unfold class_primary_inputs. induction 1 as [|v j vs l V _ IH]; [reflexivity|]. cbn [mapM map combine fst snd].
    rewrite (class_primary_value v j V). cbn [bind]. rewrite IH. reflexivity.
  Qed.
End Js.

Lemma same_optional v b c : holds_optional v b -> (none v || same_bytes v c)%bool = match b with None => true | Some b => leqb b c end.
Proof. destruct b as [b|]; cbn [holds_optional]; [intros E; rewrite (holds_not_none _ _ E); apply same_holds, E|intros ->; reflexivity]. Qed.
Lemma extend_optional v b : holds_optional v b -> extend v = add_opt b.
Proof. destruct b as [b|]; cbn [holds_optional]; [intros E; apply extend_holds, E|intros ->; reflexivity]. Qed.
Lemma sized_optional v b n : holds_optional v b -> sized v n = (_ <- validate_bytes b (Some n) ;; add_opt b).
Proof.
  destruct b as [b|]; cbn [holds_optional]; [|intros ->; reflexivity].
  intros E. rewrite (sized_holds _ _ _ E), validate_some. destruct (zlen b =? n); reflexivity.
Qed.
Lemma optional_sequence {A} (is : pv -> A -> Prop) l v : optional_objects_of is l v ->
  match l with
  | Some l => exists vs, sequence v = Ok vs /\ Forall2 is vs l /\ none v = false
  | None => v = PNone
  end.
Proof. destruct l as [l|]; cbn [optional_objects_of]; [intros [N [vs [E F]]]; exists vs; rewrite (none_false _ N); auto|auto]. Qed.
Lemma zlen_zero {A} (l : list A) : (zlen l =? 0) = true -> l = [].
Proof. destruct l; [reflexivity|]. intros E. apply Z.eqb_eq in E. unfold zlen in E. cbn [length] in E. lia. Qed.

Lemma overwinter_tx_agrees H net i o l e j pk sg li lo cl ce lj cpk csg :
  objects_of txin_value li i -> objects_of txout_value lo o -> holds l cl -> holds e ce ->
  objects_of sprout_joinsplit_value lj j -> holds_optional pk cpk -> holds_optional sg csg ->
  match OverwinterTx H net li lo cl ce lj cpk csg with
  | Ok t => exists r, call_OverwinterTx H net i o l e j pk sg = Ok r /\ overwinter_tx_value r t
  | Err x => call_OverwinterTx H net i o l e j pk sg = Err x
  end.
Proof.
  intros [ins [Ei Fi]] [outs [Eo Fo]] Hl He [js [Ej Fj]] Hpk Hsg.
  unfold OverwinterTx, call_OverwinterTx, sprout_joinsplit in *. sizes_of. rewrite Ei, Eo, Ej. cbn [bind].
  rewrite (Forall2_zlen _ _ _ Fi), (Forall2_zlen _ _ _ Fo), (Forall2_zlen _ _ _ Fj).
  rewrite (objects_all _ _ _ txin_shape ins li Fi), (objects_all _ _ _ txout_shape outs lo Fo), (objects_all _ _ _ (joinsplit_shape _ _) js _ Fj).
  rewrite (objects_bytes _ _ _ txin_shape ins li Fi), (objects_bytes _ _ _ txout_shape outs lo Fo), (objects_bytes _ _ _ (joinsplit_shape _ _) js _ Fj).
  cbn [bind]. rewrite (sized_optional _ _ 32 Hpk), (sized_optional _ _ 64 Hsg).
  do 6 (match goal with
  | |- match bind (if ?c then _ else _) _ with Ok _ => _ | Err _ => _ end => destruct c; cbn [bind]; [|reflexivity]
  | |- match bind (guard ?c _) _ with Ok _ => _ | Err _ => _ end => destruct c; cbn [bind guard]; [reflexivity|]
  | |- match bind ?r _ with Ok _ => _ | Err _ => _ end => destruct r; cbn [bind]; [|reflexivity]
  end).
  destruct (zlen lj =? 0) eqn:Z0; cbn [negb andb].
  - apply zlen_zero in Z0. subst lj. cbn [bind]. same. cbn [bind]. cbv zeta. rewrite ?app_nil_r, <- ?app_assoc. same. eexists. split; [reflexivity|]. fields.
  - destruct cpk as [cpk|]; cbn [validate_bytes bind]; [|reflexivity].
    destruct (zlen cpk =? 32); cbn [negb guard bind]; [|reflexivity].
    destruct csg as [csg|]; cbn [validate_bytes bind add_opt]; [|reflexivity].
    destruct (zlen csg =? 64); cbn [negb guard bind]; [|reflexivity].
    rewrite (class_hsigs_value H _ _ pk cpk Hpk js lj Fj). cbn [bind]. same.
    rewrite (class_primary_inputs_value H _ _ cpk js lj Fj). cbn [bind].
    same. cbv zeta. rewrite <- ?app_assoc. same. eexists. split; [reflexivity|]. fields.
Qed.

Lemma sapling_tx_agrees H net i o l e w s u j pk sg bs li lo cl ce cw ls lu lj cpk csg cbs :
  objects_of txin_value li i -> objects_of txout_value lo o -> holds l cl -> holds e ce -> holds w cw ->
  optional_objects_of shielded_spend_value ls s -> optional_objects_of shielded_output_value lu u ->
  optional_objects_of sapling_joinsplit_value lj j -> holds_optional pk cpk -> holds_optional sg csg ->
  holds_optional bs cbs ->
  match SaplingTx H net li lo cl ce cw ls lu lj cpk csg cbs with
  | Ok t => exists r, call_SaplingTx H net i o l e w s u j pk sg bs = Ok r /\ sapling_tx_value r t
  | Err x => call_SaplingTx H net i o l e w s u j pk sg bs = Err x
  end.
Proof.
  intros [ins [Ei Fi]] [outs [Eo Fo]] Hl He Hw Hs Hu Hj Hpk Hsg Hbs.
  apply optional_sequence in Hs, Hu, Hj.
  unfold SaplingTx, call_SaplingTx, sapling_joinsplit in *. sizes_of. rewrite Ei, Eo. cbn [bind].
  rewrite (Forall2_zlen _ _ _ Fi), (Forall2_zlen _ _ _ Fo).
  rewrite (objects_all _ _ _ txin_shape ins li Fi), (objects_all _ _ _ txout_shape outs lo Fo).
  rewrite (objects_bytes _ _ _ txin_shape ins li Fi), (objects_bytes _ _ _ txout_shape outs lo Fo).
  cbn [bind]. rewrite (sized_optional _ _ 32 Hpk), (sized_optional _ _ 64 Hsg), (extend_optional _ _ Hbs).
  do 6 (match goal with
  | |- match bind (if ?c then _ else _) _ with Ok _ => _ | Err _ => _ end => destruct c; cbn [bind]; [|reflexivity]
  | |- match bind (guard ?c _) _ with Ok _ => _ | Err _ => _ end => destruct c; cbn [bind guard]; [reflexivity|]
  | |- match bind ?r _ with Ok _ => _ | Err _ => _ end => destruct r; cbn [bind]; [|reflexivity]
  end).
  destruct ls as [ls|]; [|subst s; reflexivity]. destruct Hs as [spends [Es [Fs _]]]. rewrite Es. cbn [bind len_opt].
  destruct lu as [lu|]; [|subst u; reflexivity]. destruct Hu as [outputs [Eu [Fu _]]]. rewrite Eu. cbn [bind len_opt].
  rewrite (Forall2_zlen _ _ _ Fs), (Forall2_zlen _ _ _ Fu).
  rewrite (objects_all _ _ _ shielded_spend_shape spends ls Fs), (objects_all _ _ _ shielded_output_shape outputs lu Fu).
  rewrite (objects_bytes _ _ _ shielded_spend_shape spends ls Fs), (objects_bytes _ _ _ shielded_output_shape outputs lu Fu).
  rewrite (same_holds _ _ _ Hw).
  destruct ((zlen ls + zlen lu =? 0) && negb (leqb cw (zrepeat 0 8)))%bool; cbn [guard bind]; [reflexivity|].
  assert (B : (if none bs then Ok tt else ' _ <- sized bs 64;; Ok tt) = match cbs with Some c => vb c 64 | None => Ok tt end).
  { destruct cbs as [cbs|]; cbn [holds_optional] in Hbs.
    - rewrite (holds_not_none _ _ Hbs), (sized_holds _ _ _ Hbs), vb_some. destruct (zlen cbs =? 64); reflexivity.
    - subst bs. reflexivity. }
  rewrite B. destruct (match cbs with Some c => vb c 64 | None => Ok tt end); cbn [bind]; [|reflexivity].
  destruct lj as [lj|]; [|subst j; reflexivity]. destruct Hj as [js [Ej [Fj _]]]. rewrite Ej. cbn [bind len_opt].
  rewrite (Forall2_zlen _ _ _ Fj), (objects_all _ _ _ (joinsplit_shape _ _) js _ Fj), (objects_bytes _ _ _ (joinsplit_shape _ _) js _ Fj).
  destruct (5 <? zlen lj); cbn [guard bind]; [reflexivity|].
  destruct (zlen lj =? 0) eqn:Z0; cbn [negb andb].
  - apply zlen_zero in Z0. subst lj. cbn [bind]. same. cbn [bind].
    destruct (zlen lu + zlen ls =? 0); cbn [negb]; eexists; (split; [reflexivity|]); fields.
  - destruct cpk as [cpk|]; cbn [validate_bytes bind]; [|reflexivity].
    destruct (zlen cpk =? 32); cbn [negb guard bind]; [|reflexivity].
    destruct csg as [csg|]; cbn [validate_bytes bind add_opt]; [|reflexivity].
    destruct (zlen csg =? 64); cbn [negb guard bind]; [|reflexivity].
    rewrite (class_hsigs_value H _ _ pk cpk Hpk js lj Fj). cbn [bind]. same.
    rewrite (class_primary_inputs_value H _ _ cpk js lj Fj). cbn [bind].
    same. cbn [bind].
    destruct (zlen lu + zlen ls =? 0); cbn [negb]; eexists; (split; [reflexivity|]); fields.
Qed.

Lemma sprout_tx_agrees H net v i o l j pk sg cv li lo cl lj cpk csg :
  holds v cv -> objects_of txin_value li i -> objects_of txout_value lo o -> holds l cl ->
  optional_objects_of sprout_joinsplit_value lj j -> holds_optional pk cpk -> holds_optional sg csg ->
  match SproutTx H net (Some cv) li lo cl lj cpk csg with
  | Ok t => exists r, call_SproutTx H net v i o l j pk sg = Ok r /\ sprout_tx_value r t
  | Err x => call_SproutTx H net v i o l j pk sg = Err x
  end.
Proof.
  intros Hv [ins [Ei Fi]] [outs [Eo Fo]] Hl Hj Hpk Hsg.
  apply optional_sequence in Hj.
  unfold SproutTx, call_SproutTx, sprout_joinsplit in *. sizes_of. rewrite Ei, Eo. cbn [bind add_opt].
  rewrite (Forall2_zlen _ _ _ Fi), (Forall2_zlen _ _ _ Fo).
  rewrite (objects_all _ _ _ txin_shape ins li Fi), (objects_all _ _ _ txout_shape outs lo Fo).
  rewrite (objects_bytes _ _ _ txin_shape ins li Fi), (objects_bytes _ _ _ txout_shape outs lo Fo).
  cbn [bind]. rewrite (sized_optional _ _ 32 Hpk), (extend_optional _ _ Hpk), (extend_optional _ _ Hsg).
  do 4 (match goal with
  | |- match bind (if ?c then _ else _) _ with Ok _ => _ | Err _ => _ end => destruct c; cbn [bind negb guard]; [|reflexivity]
  | |- match bind (guard ?c _) _ with Ok _ => _ | Err _ => _ end => destruct c; cbn [bind guard]; [reflexivity|]
  | |- match bind ?r _ with Ok _ => _ | Err _ => _ end => destruct r; cbn [bind]; [|reflexivity]
  end).
  rewrite (same_optional _ _ [] Hsg).
  assert (B : forall b : bool, (if b then Ok tt else ' _ <- sized sg 64;; Ok tt) = if b then Ok tt else validate_bytes csg (Some 64)).
  { intros b. destruct b; [reflexivity|]. rewrite (sized_optional _ _ 64 Hsg). destruct csg as [csg|]; [rewrite validate_some; destruct (zlen csg =? 64)|]; reflexivity. }
  rewrite B. clear B.
  assert (C : (if match csg with Some b => leqb b [] | None => true end then Ok tt else validate_bytes csg (Some 64)) =
    match csg with None => Ok tt | Some s => if leqb s [] then Ok tt else vb s 64 end) by (destruct csg; reflexivity).
  rewrite C. clear C.
  change (i2le_padded 2 4) with (@Ok bytes [2; 0; 0; 0]).
  destruct lj as [lj|].
  - destruct Hj as [js [Ej [Fj Nj]]]. rewrite Ej, Nj. cbn [bind len_opt].
    rewrite (Forall2_zlen _ _ _ Fj), (objects_all _ _ _ (joinsplit_shape _ _) js _ Fj), (objects_bytes _ _ _ (joinsplit_shape _ _) js _ Fj).
    cbn [bind].
    match goal with |- match bind ?r _ with Ok _ => _ | Err _ => _ end => destruct r; cbn [bind]; [|reflexivity] end.
    destruct (le2i cv false =? 2) eqn:Two.
    + destruct (5 <? zlen lj); cbn [bind guard]; [reflexivity|].
      destruct cpk as [cpk|]; cbn [validate_bytes bind add_opt]; [|reflexivity].
      destruct (zlen cpk =? 32); cbn [negb guard bind]; [|reflexivity].
      match goal with |- match bind ?r _ with Ok _ => _ | Err _ => _ end => destruct r; cbn [bind]; [|reflexivity] end.
      same. rewrite (same_holds _ _ _ Hv). destruct (leqb cv [2; 0; 0; 0]).
      * same. rewrite (class_hsigs_value H _ _ pk cpk Hpk js lj Fj). cbn [bind].
        rewrite (class_primary_inputs_value H _ _ cpk js lj Fj). cbn [bind]. cbv zeta.
        same. eexists. split; [reflexivity|]. fields.
        split; [eexists; split; [reflexivity|field]|]. repeat (split; [field|]). field.
      * cbn [bind]. cbv zeta.
        same. eexists. split; [reflexivity|]. fields.
        split; [eexists; split; [reflexivity|field]|]. repeat (split; [field|]). field.
    + cbn [bind]. same. rewrite (same_holds _ _ _ Hv).
      destruct (leqb cv [2; 0; 0; 0]) eqn:L.
      * apply leqb_eq in L. subst cv. discriminate.
      * cbn [bind]. cbv zeta.
        same. eexists. split; [reflexivity|]. fields.
        split; [eexists; split; [reflexivity|field]|]. repeat (split; [field|]). field.
  - subst j. cbn [none sequence bind len_opt guard].
    match goal with |- match bind ?r _ with Ok _ => _ | Err _ => _ end => destruct r; cbn [bind]; [|reflexivity] end.
    match goal with |- match bind ?r _ with Ok _ => _ | Err _ => _ end => destruct r; cbn [bind]; [|reflexivity] end.
    same. rewrite (same_holds _ _ _ Hv). destruct (leqb cv [2; 0; 0; 0]); reflexivity.
Qed.
