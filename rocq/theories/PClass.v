(* C77: an object of any of the classes is a record of the model, whatever the types
   of the arguments it was made of.  [made] (the values of programs that make
   objects with the constructors), [holds], [buffer_of], [objects_of],
   [outpoint_value] ... [sapling_tx_value] and [some_outpoint] ...
   [some_sapling_tx] are in SClass.v; the calls are in MClass.v. *)
From Coq Require Import String.
From Verif Require Import Py SHash LBase MNet MUtils MShared MTx MDecred MZcash MClass SClass LClass LMade2 PZSign.
Open Scope list_scope.
Open Scope Z_scope.

(* given bytes, bytearrays, ByteData objects and objects of the right classes, a
   constructor returns an object with the fields and bytes of the record, or raises
   the same exception *)
Theorem outpoint_call : forall t i ct ci,
  holds t ct -> holds i ci ->
  match Outpoint (Some ct) (Some ci) with
  | Ok o => exists v, call_Outpoint t i = Ok v /\ outpoint_value v o
  | Err e => call_Outpoint t i = Err e
  end.
Proof. exact outpoint_agrees. Qed.
Print Assumptions outpoint_call.
Theorem txin_call : forall o s r q po cs cr cq,
  holds o (op_bytes po) -> buffer_of s cs -> buffer_of r cr -> holds q cq ->
  match TxIn po cs cr cq with
  | Ok i => exists v, call_TxIn o s r q = Ok v /\ txin_value v i
  | Err e => call_TxIn o s r q = Err e
  end.
Proof. exact txin_agrees. Qed.
Print Assumptions txin_call.
Theorem txout_call : forall v s cv cs,
  holds v cv -> holds s cs ->
  match TxOut cv cs with
  | Ok o => exists r, call_TxOut v s = Ok r /\ txout_value r o
  | Err e => call_TxOut v s = Err e
  end.
Proof. exact txout_agrees. Qed.
Print Assumptions txout_call.
Theorem item_call : forall i ci,
  holds i ci ->
  match WitnessStackItem ci with
  | Ok o => exists r, call_WitnessStackItem i = Ok r /\ item_value r o
  | Err e => call_WitnessStackItem i = Err e
  end.
Proof. exact item_agrees. Qed.
Print Assumptions item_call.
Theorem witness_call : forall s l,
  objects_of item_value l s ->
  match InputWitness l with
  | Ok w => exists v, call_InputWitness s = Ok v /\ witness_value v w
  | Err e => call_InputWitness s = Err e
  end.
Proof. exact witness_agrees. Qed.
Print Assumptions witness_call.
Theorem tx_call : forall H net v f i o w l cv cf li lo lw cl,
  holds v cv -> holds_optional f cf -> objects_of txin_value li i -> objects_of txout_value lo o ->
  optional_objects_of witness_value lw w -> holds l cl ->
  (cf <> None -> buffer_of v cv /\ buffer_of l cl) ->
  match Tx H net cv cf li lo lw cl with
  | Ok t => exists r, call_Tx H net v f i o w l = Ok r /\ tx_value r t
  | Err e => call_Tx H net v f i o w l = Err e
  end.
Proof. exact tx_agrees. Qed.
Print Assumptions tx_call.
Theorem doutpoint_call : forall net t i e ct ci ce,
  holds t ct -> holds i ci -> holds e ce ->
  match DecredOutpoint net ct ci ce with
  | Ok o => exists v, call_DecredOutpoint net t i e = Ok v /\ doutpoint_value v o
  | Err x => call_DecredOutpoint net t i e = Err x
  end.
Proof. exact doutpoint_agrees. Qed.
Print Assumptions doutpoint_call.
Theorem dtxin_call : forall net o q po cq,
  holds o (dop_bytes po) -> holds q cq ->
  match DecredTxIn net po cq with
  | Ok i => exists v, call_DecredTxIn net o q = Ok v /\ dtxin_value v i
  | Err e => call_DecredTxIn net o q = Err e
  end.
Proof. exact dtxin_agrees. Qed.
Print Assumptions dtxin_call.
Theorem dtxout_call : forall net v r s cv cr cs,
  holds v cv -> holds_optional r cr -> holds s cs ->
  match DecredTxOut net cv cr cs with
  | Ok o => exists w, call_DecredTxOut net v r s = Ok w /\ dtxout_value w o
  | Err e => call_DecredTxOut net v r s = Err e
  end.
Proof. exact dtxout_agrees. Qed.
Print Assumptions dtxout_call.
Theorem dwitness_call : forall net v g i s r cv cg ci cs cr,
  holds v cv -> holds g cg -> holds i ci -> buffer_of s cs -> buffer_of r cr ->
  match DecredInputWitness net cv cg ci cs cr with
  | Ok w => exists x, call_DecredInputWitness net v g i s r = Ok x /\ dwitness_value x w
  | Err e => call_DecredInputWitness net v g i s r = Err e
  end.
Proof. exact dwitness_agrees. Qed.
Print Assumptions dwitness_call.
Theorem dtx_call : forall H net v i o l e w cv li lo cl ce lw,
  holds v cv -> objects_of dtxin_value li i -> objects_of dtxout_value lo o -> holds l cl -> holds e ce ->
  objects_of dwitness_value lw w ->
  match DecredTx H net cv li lo cl ce lw with
  | Ok t => exists r, call_DecredTx H net v i o l e w = Ok r /\ dtx_value r t
  | Err x => call_DecredTx H net v i o l e w = Err x
  end.
Proof. exact dtx_agrees. Qed.
Print Assumptions dtx_call.
Theorem sprout_zkproof_call : forall net a a' b b' c c' k h ca ca' cb cb' cc cc' ck ch,
  holds a ca -> holds a' ca' -> holds b cb -> holds b' cb' -> holds c cc -> holds c' cc' -> holds k ck -> holds h ch ->
  match SproutZkproof net ca ca' cb cb' cc cc' ck ch with
  | Ok z => exists v, call_SproutZkproof net a a' b b' c c' k h = Ok v /\ sprout_zkproof_value v z
  | Err e => call_SproutZkproof net a a' b b' c c' k h = Err e
  end.
Proof. exact sprout_zkproof_agrees. Qed.
Print Assumptions sprout_zkproof_call.
Theorem sapling_zkproof_call : forall net a b c ca cb cc,
  holds a ca -> holds b cb -> holds c cc ->
  match SaplingZkproof net ca cb cc with
  | Ok z => exists v, call_SaplingZkproof net a b c = Ok v /\ sapling_zkproof_value v z
  | Err e => call_SaplingZkproof net a b c = Err e
  end.
Proof. exact sapling_zkproof_agrees. Qed.
Print Assumptions sapling_zkproof_call.
Theorem sprout_joinsplit_call : forall net o w a n c e r m z t co cw ca cn cc ce cr cm pz ct,
  holds o co -> holds w cw -> holds a ca -> holds n cn -> holds c cc -> holds e ce -> holds r cr -> holds m cm ->
  sprout_zkproof_value z pz -> holds t ct ->
  match SproutJoinsplit net co cw ca cn cc ce cr cm pz ct with
  | Ok j => exists v, call_SproutJoinsplit net o w a n c e r m z t = Ok v /\ sprout_joinsplit_value v j
  | Err x => call_SproutJoinsplit net o w a n c e r m z t = Err x
  end.
Proof. exact (joinsplit_agrees CSproutJoinsplit CSproutZkproof sprout_zkproof_value zk_bytes sprout_zkproof_shape). Qed.
Print Assumptions sprout_joinsplit_call.
Theorem sapling_joinsplit_call : forall net o w a n c e r m z t co cw ca cn cc ce cr cm pz ct,
  holds o co -> holds w cw -> holds a ca -> holds n cn -> holds c cc -> holds e ce -> holds r cr -> holds m cm ->
  sapling_zkproof_value z pz -> holds t ct ->
  match SaplingJoinsplit net co cw ca cn cc ce cr cm pz ct with
  | Ok j => exists v, call_SaplingJoinsplit net o w a n c e r m z t = Ok v /\ sapling_joinsplit_value v j
  | Err x => call_SaplingJoinsplit net o w a n c e r m z t = Err x
  end.
Proof. exact (joinsplit_agrees CSaplingJoinsplit CSaplingZkproof sapling_zkproof_value szk_bytes sapling_zkproof_shape). Qed.
Print Assumptions sapling_joinsplit_call.
Theorem shielded_spend_call : forall net c a n r z s cc ca cn cr pz cs,
  holds c cc -> holds a ca -> holds n cn -> holds r cr -> sapling_zkproof_value z pz -> holds s cs ->
  match SaplingShieldedSpend net cc ca cn cr pz cs with
  | Ok x => exists v, call_SaplingShieldedSpend net c a n r z s = Ok v /\ shielded_spend_value v x
  | Err e => call_SaplingShieldedSpend net c a n r z s = Err e
  end.
Proof. exact shielded_spend_agrees. Qed.
Print Assumptions shielded_spend_call.
Theorem shielded_output_call : forall net c m e x y z cc cm ce cx cy pz,
  holds c cc -> holds m cm -> holds e ce -> holds x cx -> holds y cy -> sapling_zkproof_value z pz ->
  match SaplingShieldedOutput net cc cm ce cx cy pz with
  | Ok o => exists v, call_SaplingShieldedOutput net c m e x y z = Ok v /\ shielded_output_value v o
  | Err e0 => call_SaplingShieldedOutput net c m e x y z = Err e0
  end.
Proof. exact shielded_output_agrees. Qed.
Print Assumptions shielded_output_call.
Theorem sprout_tx_call : forall H net v i o l j pk sg cv li lo cl lj cpk csg,
  holds v cv -> objects_of txin_value li i -> objects_of txout_value lo o -> holds l cl ->
  optional_objects_of sprout_joinsplit_value lj j -> holds_optional pk cpk -> holds_optional sg csg ->
  match SproutTx H net (Some cv) li lo cl lj cpk csg with
  | Ok t => exists r, call_SproutTx H net v i o l j pk sg = Ok r /\ sprout_tx_value r t
  | Err x => call_SproutTx H net v i o l j pk sg = Err x
  end.
Proof. exact sprout_tx_agrees. Qed.
Print Assumptions sprout_tx_call.
Theorem overwinter_tx_call : forall H net i o l e j pk sg li lo cl ce lj cpk csg,
  objects_of txin_value li i -> objects_of txout_value lo o -> holds l cl -> holds e ce ->
  objects_of sprout_joinsplit_value lj j -> holds_optional pk cpk -> holds_optional sg csg ->
  match OverwinterTx H net li lo cl ce lj cpk csg with
  | Ok t => exists r, call_OverwinterTx H net i o l e j pk sg = Ok r /\ overwinter_tx_value r t
  | Err x => call_OverwinterTx H net i o l e j pk sg = Err x
  end.
Proof. exact overwinter_tx_agrees. Qed.
Print Assumptions overwinter_tx_call.
Theorem sapling_tx_call : forall H net i o l e w s u j pk sg bs li lo cl ce cw ls lu lj cpk csg cbs,
  objects_of txin_value li i -> objects_of txout_value lo o -> holds l cl -> holds e ce -> holds w cw ->
  optional_objects_of shielded_spend_value ls s -> optional_objects_of shielded_output_value lu u ->
  optional_objects_of sapling_joinsplit_value lj j -> holds_optional pk cpk -> holds_optional sg csg ->
  holds_optional bs cbs ->
  match SaplingTx H net li lo cl ce cw ls lu lj cpk csg cbs with
  | Ok t => exists r, call_SaplingTx H net i o l e w s u j pk sg bs = Ok r /\ sapling_tx_value r t
  | Err x => call_SaplingTx H net i o l e w s u j pk sg bs = Err x
  end.
Proof. exact sapling_tx_agrees. Qed.
Print Assumptions sapling_tx_call.

(* every object of a class that a program can make is a record which the
   constructor of the model returns *)
Theorem every_outpoint_is_a_record : forall H v, made H v -> instance COutpoint v = true -> exists x, some_outpoint x /\ outpoint_value v x.
Proof. exact outpoint_record. Qed.
Print Assumptions every_outpoint_is_a_record.
Theorem every_txin_is_a_record : forall H v, made H v -> instance CTxIn v = true -> exists x, some_txin x /\ txin_value v x.
Proof. exact txin_record. Qed.
Print Assumptions every_txin_is_a_record.
Theorem every_txout_is_a_record : forall H v, made H v -> instance CTxOut v = true -> exists x, some_txout x /\ txout_value v x.
Proof. exact txout_record. Qed.
Print Assumptions every_txout_is_a_record.
Theorem every_item_is_a_record : forall H v, made H v -> instance CWitnessStackItem v = true -> exists x, some_item x /\ item_value v x.
Proof. exact item_record. Qed.
Print Assumptions every_item_is_a_record.
Theorem every_witness_is_a_record : forall H v, made H v -> instance CInputWitness v = true -> exists x, some_witness x /\ witness_value v x.
Proof. exact witness_record. Qed.
Print Assumptions every_witness_is_a_record.
Theorem every_tx_is_a_record : forall H v, made H v -> instance CTx v = true -> exists x, some_tx H x /\ tx_value v x.
Proof. exact tx_record. Qed.
Print Assumptions every_tx_is_a_record.
Theorem every_doutpoint_is_a_record : forall H v, made H v -> instance CDecredOutpoint v = true -> exists x, some_doutpoint x /\ doutpoint_value v x.
Proof. exact doutpoint_record. Qed.
Print Assumptions every_doutpoint_is_a_record.
Theorem every_dtxin_is_a_record : forall H v, made H v -> instance CDecredTxIn v = true -> exists x, some_dtxin x /\ dtxin_value v x.
Proof. exact dtxin_record. Qed.
Print Assumptions every_dtxin_is_a_record.
Theorem every_dtxout_is_a_record : forall H v, made H v -> instance CDecredTxOut v = true -> exists x, some_dtxout x /\ dtxout_value v x.
Proof. exact dtxout_record. Qed.
Print Assumptions every_dtxout_is_a_record.
Theorem every_dwitness_is_a_record : forall H v, made H v -> instance CDecredInputWitness v = true -> exists x, some_dwitness x /\ dwitness_value v x.
Proof. exact dwitness_record. Qed.
Print Assumptions every_dwitness_is_a_record.
Theorem every_dtx_is_a_record : forall H v, made H v -> instance CDecredTx v = true -> exists x, some_dtx H x /\ dtx_value v x.
Proof. exact dtx_record. Qed.
Print Assumptions every_dtx_is_a_record.
Theorem every_sprout_zkproof_is_a_record : forall H v, made H v -> instance CSproutZkproof v = true -> exists x, some_sprout_zkproof x /\ sprout_zkproof_value v x.
Proof. exact sprout_zkproof_record. Qed.
Print Assumptions every_sprout_zkproof_is_a_record.
Theorem every_sapling_zkproof_is_a_record : forall H v, made H v -> instance CSaplingZkproof v = true -> exists x, some_sapling_zkproof x /\ sapling_zkproof_value v x.
Proof. exact sapling_zkproof_record. Qed.
Print Assumptions every_sapling_zkproof_is_a_record.
Theorem every_sprout_joinsplit_is_a_record : forall H v, made H v -> instance CSproutJoinsplit v = true -> exists x, some_sprout_joinsplit x /\ sprout_joinsplit_value v x.
Proof. exact sprout_joinsplit_record. Qed.
Print Assumptions every_sprout_joinsplit_is_a_record.
Theorem every_sapling_joinsplit_is_a_record : forall H v, made H v -> instance CSaplingJoinsplit v = true -> exists x, some_sapling_joinsplit x /\ sapling_joinsplit_value v x.
Proof. exact sapling_joinsplit_record. Qed.
Print Assumptions every_sapling_joinsplit_is_a_record.
Theorem every_shielded_spend_is_a_record : forall H v, made H v -> instance CSaplingShieldedSpend v = true -> exists x, some_shielded_spend x /\ shielded_spend_value v x.
Proof. exact spend_record. Qed.
Print Assumptions every_shielded_spend_is_a_record.
Theorem every_shielded_output_is_a_record : forall H v, made H v -> instance CSaplingShieldedOutput v = true -> exists x, some_shielded_output x /\ shielded_output_value v x.
Proof. exact output_record. Qed.
Print Assumptions every_shielded_output_is_a_record.
Theorem every_sprout_tx_is_a_record : forall H v, made H v -> instance CSproutTx v = true -> exists x, some_sprout_tx H x /\ sprout_tx_value v x.
Proof. exact sprout_tx_record. Qed.
Print Assumptions every_sprout_tx_is_a_record.
Theorem every_overwinter_tx_is_a_record : forall H v, made H v -> instance COverwinterTx v = true -> exists x, some_overwinter_tx H x /\ overwinter_tx_value v x.
Proof. exact overwinter_tx_record. Qed.
Print Assumptions every_overwinter_tx_is_a_record.
Theorem every_sapling_tx_is_a_record : forall H v, made H v -> instance CSaplingTx v = true -> exists x, some_sapling_tx H x /\ sapling_tx_value v x.
Proof. exact sapling_tx_record. Qed.
Print Assumptions every_sapling_tx_is_a_record.

(** * Examples *)

Definition le4 (n : Z) : bytes := [n; 0; 0; 0].
Definition ex_id : bytes := zrepeat 7 32.

(* bytes for the id and a bytearray for the index; a ByteData for the value *)
Example ex_outpoint : exists v, call_Outpoint (PBytes ex_id) (PArray (le4 1)) = Ok v /\ made small v /\
  instance COutpoint v = true /\ holds v (ex_id ++ le4 1).
Proof. eexists. split; [reflexivity|]. split; [apply (made_outpoint small (PBytes ex_id) (PArray (le4 1))); reflexivity|]. split; reflexivity. Qed.
Example ex_txout : exists v, call_TxOut (PObj CByteData (zrepeat 2 8) []) (PBytes [81]) = Ok v /\ made small v /\
  instance CTxOut v = true /\ holds v (zrepeat 2 8 ++ [1; 81]).
Proof. eexists. split; [reflexivity|]. split; [apply (made_txout small (PObj CByteData (zrepeat 2 8) []) (PBytes [81])); reflexivity|]. split; reflexivity. Qed.
(* arguments that are too short are refused by both *)
Example ex_short : Outpoint (Some (zrepeat 7 31)) (Some (le4 1)) = Err ValueError /\
  call_Outpoint (PArray (zrepeat 7 31)) (PBytes (le4 1)) = Err ValueError.
Proof. split; reflexivity. Qed.

(* a transaction from a list of inputs, a tuple of outputs and a list of witnesses *)
Definition ex_value {A} (r : res A) (d : A) : A := match r with Ok a => a | Err _ => d end.
Definition ex_in : pv := ex_value (call_TxIn (PBytes (ex_id ++ le4 1)) (PBytes [1; 2]) (PArray [3]) (PBytes (le4 4))) PNone.
Definition ex_out : pv := ex_value (call_TxOut (PBytes (zrepeat 2 8)) (PBytes [81])) PNone.
Definition ex_item : pv := ex_value (call_WitnessStackItem (PArray [5; 6])) PNone.
Definition ex_wit : pv := ex_value (call_InputWitness (PList [ex_item])) PNone.
Lemma ex_in_made : made small ex_in.
Proof. apply (made_txin small (PBytes (ex_id ++ le4 1)) (PBytes [1; 2]) (PArray [3]) (PBytes (le4 4))). reflexivity. Qed.
Lemma ex_out_made : made small ex_out.
Proof. apply (made_txout small (PBytes (zrepeat 2 8)) (PBytes [81])). reflexivity. Qed.
Lemma ex_item_made : made small ex_item.
Proof. apply (made_item small (PArray [5; 6])). reflexivity. Qed.
Lemma ex_list_made l : Forall (made small) l -> made small (PList l) /\ made small (PTuple l).
Proof. intros F. rewrite Forall_forall in F. split; constructor; exact F. Qed.
Lemma ex_wit_made : made small ex_wit.
Proof.
  apply (made_witness small (PList [ex_item])); [|reflexivity].
  apply ex_list_made. constructor; [exact ex_item_made|constructor].
Qed.
Definition ex_call_tx : res pv :=
  call_Tx small BitcoinMain (PBytes (le4 1)) (PArray [0; 1]) (PList [ex_in]) (PTuple [ex_out]) (PList [ex_wit]) (PBytes (le4 0)).
Definition ex_tx : pv := ex_value ex_call_tx PNone.
Example ex_tx_ok : ex_call_tx = Ok ex_tx.
Proof. vm_compute. reflexivity. Qed.
Example ex_tx_made : made small ex_tx.
Proof.
  pose proof ex_tx_ok as E. unfold ex_call_tx in E. refine (made_tx _ _ _ _ _ _ _ _ _ _ _ _ E); apply ex_list_made;
    (constructor; [|constructor]); [exact ex_in_made|exact ex_out_made|exact ex_wit_made].
Qed.
Example ex_tx_bytes : instance CTx ex_tx = true /\
  holds ex_tx (le4 1 ++ [0; 1] ++ [1] ++ (ex_id ++ le4 1) ++ [3; 1; 2; 3] ++ le4 4 ++ [1] ++ zrepeat 2 8 ++ [1; 81]
               ++ [1; 2; 5; 6] ++ le4 0).
Proof. split; vm_compute; reflexivity. Qed.
(* and its objects are those of the records *)
Example ex_in_value : exists i, some_txin i /\ txin_value ex_in i.
Proof. exact (every_txin_is_a_record small _ ex_in_made eq_refl). Qed.

(* Decred *)
Definition ex_din : pv := ex_value (call_DecredTxIn DecredMain (PBytes (ex_id ++ le4 1 ++ [0])) (PBytes (le4 4))) PNone.
Definition ex_dout : pv := ex_value (call_DecredTxOut DecredMain (PBytes (zrepeat 2 8)) (PBytes [0; 0]) (PArray [81])) PNone.
Definition ex_dwit : pv :=
  ex_value (call_DecredInputWitness DecredMain (PBytes (zrepeat 2 8)) (PBytes (le4 0)) (PBytes (le4 0)) (PArray [1]) (PBytes [2])) PNone.
Definition ex_call_dtx : res pv :=
  call_DecredTx small DecredMain (PBytes (le4 1)) (PList [ex_din]) (PTuple [ex_dout]) (PBytes (le4 0)) (PBytes (le4 0)) (PList [ex_dwit]).
Definition ex_dtx : pv := ex_value ex_call_dtx PNone.
Example ex_dtx_ok : ex_call_dtx = Ok ex_dtx.
Proof. vm_compute. reflexivity. Qed.
Example ex_dtx_made : made small ex_dtx /\ instance CDecredTx ex_dtx = true.
Proof.
  split; [|vm_compute; reflexivity].
  pose proof ex_dtx_ok as E. unfold ex_call_dtx in E. refine (made_dtx _ _ _ _ _ _ _ _ _ _ _ _ E); apply ex_list_made; (constructor; [|constructor]).
  - apply (made_dtxin small DecredMain (PBytes (ex_id ++ le4 1 ++ [0])) (PBytes (le4 4))). reflexivity.
  - apply (made_dtxout small DecredMain (PBytes (zrepeat 2 8)) (PBytes [0; 0]) (PArray [81])). reflexivity.
  - apply (made_dwitness small DecredMain (PBytes (zrepeat 2 8)) (PBytes (le4 0)) (PBytes (le4 0)) (PArray [1]) (PBytes [2])). reflexivity.
Qed.

(* Zcash: a shielded spend, and a Sapling transaction with it *)
Definition ex_proof : pv := ex_value (call_SaplingZkproof ZcashSaplingMain (PBytes (zrepeat 1 48)) (PArray (zrepeat 2 96)) (PBytes (zrepeat 3 48))) PNone.
Lemma ex_proof_made : made small ex_proof.
Proof. apply (made_sapling_zkproof small ZcashSaplingMain (PBytes (zrepeat 1 48)) (PArray (zrepeat 2 96)) (PBytes (zrepeat 3 48))). vm_compute. reflexivity. Qed.
Definition ex_spend : pv :=
  ex_value (call_SaplingShieldedSpend ZcashSaplingMain (PBytes (zrepeat 1 32)) (PBytes (zrepeat 2 32)) (PArray (zrepeat 3 32))
    (PBytes (zrepeat 4 32)) ex_proof (PBytes (zrepeat 5 64))) PNone.
Lemma ex_spend_made : made small ex_spend.
Proof.
  eapply (made_shielded_spend small ZcashSaplingMain (PBytes (zrepeat 1 32)) (PBytes (zrepeat 2 32)) (PArray (zrepeat 3 32))
    (PBytes (zrepeat 4 32)) ex_proof (PBytes (zrepeat 5 64))); [exact ex_proof_made|vm_compute; reflexivity].
Qed.
Definition ex_call_sapling_tx : res pv :=
  call_SaplingTx small ZcashSaplingMain (PList [ex_in]) (PList [ex_out]) (PBytes (le4 0)) (PArray (le4 0)) (PBytes (zrepeat 0 8))
    (PTuple [ex_spend]) (PList []) (PTuple []) PNone PNone (PBytes (zrepeat 9 64)).
Definition ex_sapling_tx : pv := ex_value ex_call_sapling_tx PNone.
Example ex_sapling_tx_ok : ex_call_sapling_tx = Ok ex_sapling_tx.
Proof. vm_compute. reflexivity. Qed.
Example ex_sapling_tx_made : made small ex_sapling_tx /\ instance CSaplingTx ex_sapling_tx = true.
Proof.
  split; [|vm_compute; reflexivity].
  pose proof ex_sapling_tx_ok as E. unfold ex_call_sapling_tx in E. refine (made_sapling_tx _ _ _ _ _ _ _ _ _ _ _ _ _ _ _ _ _ _ _ E); apply ex_list_made.
  - constructor; [exact ex_in_made|constructor].
  - constructor; [exact ex_out_made|constructor].
  - constructor; [exact ex_spend_made|constructor].
  - constructor.
  - constructor.
Qed.
