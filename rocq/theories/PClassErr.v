(* C78 and C79: what the constructors do with arguments of other types.  The calls
   are in MClass.v; [holds], [an_object], [not_iterable], [byte_like] and [made] are
   in SClass.v.  A type is wrong if it is not the one the docstring of the
   constructor names. *)
From Coq Require Import String Lia.
From Verif Require Import Py SHash SNum LBase MNet MUtils MShared MTx MDecred MZcash MClass SClass LVarint LClass LMade2 LClassErr PZSign PClass.
Open Scope list_scope.
Open Scope Z_scope.

(** * C78: an argument of a wrong type is refused, with ValueError *)

(* These ten raise nothing else, whatever they are given. *)
Theorem outpoint_exceptions_partial : forall a b e, call_Outpoint a b = Err e -> e = ValueError.
Proof. exact err_outpoint. Qed.
Print Assumptions outpoint_exceptions_partial.
Theorem txout_exceptions_partial : forall a b e, call_TxOut a b = Err e -> e = ValueError.
Proof. exact err_txout. Qed.
Print Assumptions txout_exceptions_partial.
Theorem item_exceptions_partial : forall a e, call_WitnessStackItem a = Err e -> e = ValueError.
Proof. exact err_item. Qed.
Print Assumptions item_exceptions_partial.
Theorem doutpoint_exceptions_partial : forall net a b c e, call_DecredOutpoint net a b c = Err e -> e = ValueError.
Proof. exact err_doutpoint. Qed.
Print Assumptions doutpoint_exceptions_partial.
Theorem dtxin_exceptions_partial : forall net a b e, call_DecredTxIn net a b = Err e -> e = ValueError.
Proof. exact err_dtxin. Qed.
Print Assumptions dtxin_exceptions_partial.
Theorem dtxout_exceptions_partial : forall net a b c e, call_DecredTxOut net a b c = Err e -> e = ValueError.
Proof. exact err_dtxout. Qed.
Print Assumptions dtxout_exceptions_partial.
Theorem sprout_zkproof_exceptions_partial : forall net a b c d e f g h x,
  call_SproutZkproof net a b c d e f g h = Err x -> x = ValueError.
Proof. exact err_sprout_zkproof. Qed.
Print Assumptions sprout_zkproof_exceptions_partial.
Theorem sapling_zkproof_exceptions_partial : forall net a b c e, call_SaplingZkproof net a b c = Err e -> e = ValueError.
Proof. exact err_sapling_zkproof. Qed.
Print Assumptions sapling_zkproof_exceptions_partial.
Theorem shielded_spend_exceptions_partial : forall net a b c d z e x,
  call_SaplingShieldedSpend net a b c d z e = Err x -> x = ValueError.
Proof. exact err_spend. Qed.
Print Assumptions shielded_spend_exceptions_partial.
Theorem shielded_output_exceptions_partial : forall net a b c d e z x,
  call_SaplingShieldedOutput net a b c d e z = Err x -> x = ValueError.
Proof. exact err_output. Qed.
Print Assumptions shielded_output_exceptions_partial.

(* Nothing but bytes, bytearray and ByteData of the right size passes the first two
   of these and the other fields with a size. *)
Theorem outpoint_needs_bytes_partial : forall a b v, call_Outpoint a b = Ok v ->
  (exists t, holds a t /\ zlen t = 32) /\ (exists i, holds b i /\ zlen i = 4).
Proof.
  intros a b v E. unfold call_Outpoint in E. destruct (sized a 32) eqn:A; [|discriminate]. destruct (sized b 4) eqn:B; [|discriminate].
  split; [exists a0; apply (sized_Ok _ _ _ A)|exists a1; apply (sized_Ok _ _ _ B)].
Qed.
Print Assumptions outpoint_needs_bytes_partial.
Theorem txout_needs_bytes_partial : forall a b v, call_TxOut a b = Ok v ->
  (exists t, holds a t /\ zlen t = 8) /\ byte_like b.
Proof.
  intros a b v E. unfold call_TxOut in E. destruct (sized a 8) eqn:A; [|discriminate]. destruct (unsized b) eqn:B; [|discriminate].
  split; [exists a0; apply (sized_Ok _ _ _ A)|exists a1; apply (unsized_Ok _ _ B)].
Qed.
Print Assumptions txout_needs_bytes_partial.

(* The rest refuse some arguments with other exceptions, or accept them. *)

(* an outpoint need not be an Outpoint *)
Theorem outpoint_of_bytes_refuted : exists o s r q v,
  instance COutpoint o = false /\ call_TxIn o s r q = Ok v /\ instance CTxIn v = true.
Proof. exists (PBytes (ex_id ++ le4 1)), (PBytes [1; 2]), (PArray [3]), (PBytes (le4 4)), ex_in. repeat split; reflexivity. Qed.
Print Assumptions outpoint_of_bytes_refuted.
Theorem decred_outpoint_of_bytes_refuted : exists o q v,
  instance CDecredOutpoint o = false /\ call_DecredTxIn DecredMain o q = Ok v /\ instance CDecredTxIn v = true.
Proof. exists (PBytes (ex_id ++ le4 1 ++ [0])), (PBytes (le4 4)), ex_din. repeat split; reflexivity. Qed.
Print Assumptions decred_outpoint_of_bytes_refuted.
(* a script that is a ByteData: TypeError *)
Theorem script_object_refuted : exists o s r q, call_TxIn o s r q = Err TypeError /\ byte_like s /\ byte_like r.
Proof.
  exists (PBytes (ex_id ++ le4 1)), (PObj CByteData [1; 2] []), (PBytes [3]), (PBytes (le4 4)).
  split; [reflexivity|]. split; eexists; reflexivity.
Qed.
Print Assumptions script_object_refuted.
(* a flag that is a number: AttributeError *)
Theorem flag_number_refuted :
  call_Tx small BitcoinMain (PBytes (le4 1)) (PInt 1) (PList [ex_in]) (PList [ex_out]) PNone (PBytes (le4 0)) = Err AttributeError.
Proof. reflexivity. Qed.
Print Assumptions flag_number_refuted.
(* None for a list: TypeError *)
Theorem list_none_refuted :
  call_Tx small BitcoinMain (PBytes (le4 1)) PNone PNone (PList [ex_out]) PNone (PBytes (le4 0)) = Err TypeError /\
  call_InputWitness PNone = Err TypeError.
Proof. split; reflexivity. Qed.
Print Assumptions list_none_refuted.
(* a version that is a ByteData, with a flag: TypeError *)
Theorem version_object_refuted :
  call_Tx small BitcoinMain (PObj CByteData (le4 1) []) (PBytes [0; 1]) (PList [ex_in]) (PList [ex_out]) (PList [ex_wit]) (PBytes (le4 0)) = Err TypeError.
Proof. vm_compute. reflexivity. Qed.
Print Assumptions version_object_refuted.
(* a Sapling transaction with a spend and no binding signature: TypeError *)
Theorem binding_sig_none_refuted :
  call_SaplingTx small ZcashSaplingMain (PList [ex_in]) (PList [ex_out]) (PBytes (le4 0)) (PArray (le4 0)) (PBytes (zrepeat 0 8))
    (PTuple [ex_spend]) (PList []) (PTuple []) PNone PNone PNone = Err TypeError.
Proof. vm_compute. reflexivity. Qed.
Print Assumptions binding_sig_none_refuted.
(* empty bytes or the empty string for an empty list: accepted *)
Theorem empty_bytes_for_a_list_refuted :
  (exists v, call_InputWitness (PBytes []) = Ok v /\ instance CInputWitness v = true) /\
  (exists v, call_InputWitness (PStr []) = Ok v /\ instance CInputWitness v = true).
Proof. split; eexists; split; reflexivity. Qed.
Print Assumptions empty_bytes_for_a_list_refuted.

(** * C79: which exceptions, and for which arguments *)

(* The object given as an outpoint matters only by its bytes. *)
Theorem txin_outpoint_class : forall o o' b s r q, holds o b -> holds o' b ->
  match call_TxIn o s r q, call_TxIn o' s r q with
  | Ok v, Ok v' => exists c, holds v c /\ holds v' c
  | Err e, Err e' => e = e'
  | _, _ => False
  end.
Proof.
  intros o o' b s r q A A'. unfold call_TxIn.
  assert (E : sized o 36 = sized o' 36) by (unfold sized; unfold holds in A, A'; rewrite A, A'; reflexivity). rewrite E.
  destruct (sized o' 36); cbn [bind]; [|reflexivity]. destruct (unsized s); cbn [bind]; [|reflexivity].
  destruct (unsized r); cbn [bind]; [|reflexivity]. destruct (sized q 4); cbn [bind]; [|reflexivity].
  destruct (guard _ _); cbn [bind]; [|reflexivity]. destruct (VarInt _ _); cbn [bind]; [|reflexivity].
  destruct (plus s r); cbn [bind]; [|reflexivity]. eexists. split; reflexivity.
Qed.
Print Assumptions txin_outpoint_class.
Theorem dtxin_outpoint_class : forall net o o' b q, holds o b -> holds o' b ->
  match call_DecredTxIn net o q, call_DecredTxIn net o' q with
  | Ok v, Ok v' => exists c, holds v c /\ holds v' c
  | Err e, Err e' => e = e'
  | _, _ => False
  end.
Proof.
  intros net o o' b q A A'. unfold call_DecredTxIn.
  assert (E : sized o 37 = sized o' 37) by (unfold sized; unfold holds in A, A'; rewrite A, A'; reflexivity). rewrite E.
  destruct (decred_only net); cbn [bind]; [|reflexivity].
  destruct (sized o' 37); cbn [bind]; [|reflexivity]. destruct (sized q 4); cbn [bind]; [|reflexivity]. eexists. split; reflexivity.
Qed.
Print Assumptions dtxin_outpoint_class.

(* TxIn and DecredInputWitness: TypeError exactly when all else is right and a script
   is an object *)
Theorem txin_exceptions : forall o s r q e, call_TxIn o s r q = Err e ->
  e = ValueError \/ (e = TypeError /\ (an_object s \/ an_object r)).
Proof. exact err_txin. Qed.
Print Assumptions txin_exceptions.
Theorem txin_script_object : forall o s r q co cs cr cq,
  holds o co -> zlen co = 36 -> holds s cs -> holds r cr -> zlen cs + zlen cr <= 1650 -> holds q cq -> zlen cq = 4 ->
  an_object s \/ an_object r -> call_TxIn o s r q = Err TypeError.
Proof.
  intros o s r q co cs cr cq O Lo S R L Q Lq X. unfold call_TxIn, sized, unsized. unfold holds in *. rewrite O, S, R, Q, Lo, Lq.
  cbn [Z.eqb Pos.eqb negb guard bind]. replace (1650 <? zlen cs + zlen cr) with false by (symmetry; apply Z.ltb_ge; lia). cbn [guard bind].
  rewrite VarInt_None by (pose proof (zlen_nonneg cs); pose proof (zlen_nonneg cr); lia). cbn [bind].
  destruct X as [[c [b [a ->]]]|[c [b [a ->]]]]; [reflexivity|]. destruct s; reflexivity.
Qed.
Print Assumptions txin_script_object.
Theorem dwitness_exceptions : forall net a b c s r e, call_DecredInputWitness net a b c s r = Err e ->
  e = ValueError \/ (e = TypeError /\ (an_object s \/ an_object r)).
Proof. exact err_dwitness. Qed.
Print Assumptions dwitness_exceptions.

(* InputWitness: TypeError exactly for None and numbers *)
Theorem witness_exceptions : forall s, call_InputWitness s = Err TypeError <-> not_iterable s.
Proof.
  intros s. split.
  - intros E. destruct (err_witness s _ E) as [X|[_ X]]; [discriminate|exact X].
  - intros [->|[n ->]]; reflexivity.
Qed.
Print Assumptions witness_exceptions.
Theorem witness_other_exceptions : forall s e, call_InputWitness s = Err e -> e = ValueError \/ e = TypeError.
Proof. intros s e E. destruct (err_witness s _ E) as [X|[X _]]; auto. Qed.
Print Assumptions witness_other_exceptions.

(* Tx: AttributeError exactly when the version and lock time are right and the flag
   is neither None nor byte-like *)
Theorem tx_exceptions : forall H net v f i o w l e, call_Tx H net v f i o w l = Err e ->
  e = ValueError \/
  (e = AttributeError /\ f <> PNone /\ ~ byte_like f) \/
  (e = TypeError /\ (not_iterable i \/ not_iterable o \/ (not_iterable w /\ w <> PNone) \/
                     (f <> PNone /\ (an_object v \/ an_object l)))).
Proof. exact err_tx. Qed.
Print Assumptions tx_exceptions.
Theorem tx_flag_not_bytes : forall H net v f i o w l cv cl, holds v cv -> zlen cv = 4 -> holds l cl -> zlen cl = 4 ->
  f <> PNone -> ~ byte_like f -> call_Tx H net v f i o w l = Err AttributeError.
Proof.
  intros H net v f i o w l cv cl V Lv L Ll N B. unfold call_Tx, sized. unfold holds in V, L. rewrite V, L, Lv, Ll.
  cbn [Z.eqb Pos.eqb negb guard bind].
  assert (C : byte_content f = None) by (destruct (byte_content f) eqn:C; [exfalso; apply B; eexists; exact C|reflexivity]).
  unfold same_bytes. rewrite C. destruct f; try congruence; reflexivity.
Qed.
Print Assumptions tx_flag_not_bytes.

Theorem dtx_exceptions : forall H net v i o l e w x, call_DecredTx H net v i o l e w = Err x ->
  x = ValueError \/ (x = TypeError /\ (not_iterable i \/ not_iterable o \/ not_iterable w)).
Proof. exact err_dtx. Qed.
Print Assumptions dtx_exceptions.

(* a joinsplit: TypeError only for a vpub_old or vpub_new that is no bytes *)
Theorem sprout_joinsplit_exceptions : forall net a b c d e f g h z n x,
  call_SproutJoinsplit net a b c d e f g h z n = Err x ->
  x = ValueError \/ (x = TypeError /\ (~ byte_like a \/ ~ byte_like b)).
Proof. intros net. exact (err_joinsplit net CSproutJoinsplit CSproutZkproof). Qed.
Print Assumptions sprout_joinsplit_exceptions.
Theorem sapling_joinsplit_exceptions : forall net a b c d e f g h z n x,
  call_SaplingJoinsplit net a b c d e f g h z n = Err x ->
  x = ValueError \/ (x = TypeError /\ (~ byte_like a \/ ~ byte_like b)).
Proof. intros net. exact (err_joinsplit net CSaplingJoinsplit CSaplingZkproof). Qed.
Print Assumptions sapling_joinsplit_exceptions.

(* the transactions of Zcash, with joinsplits that a program can make *)
Theorem sprout_tx_exceptions : forall H net v i o l j pk sg, made H j -> forall x,
  call_SproutTx H net v i o l j pk sg = Err x ->
  x = ValueError \/ (x = TypeError /\ (not_iterable i \/ not_iterable o \/ not_iterable j \/ sg = PNone)).
Proof. exact err_sprout_tx. Qed.
Print Assumptions sprout_tx_exceptions.
Theorem overwinter_tx_exceptions : forall H net i o l e j pk sg, made H j -> forall x,
  call_OverwinterTx H net i o l e j pk sg = Err x ->
  x = ValueError \/ (x = TypeError /\ (not_iterable i \/ not_iterable o \/ not_iterable j)).
Proof. exact err_overwinter_tx. Qed.
Print Assumptions overwinter_tx_exceptions.
Theorem sapling_tx_exceptions : forall H net i o l e w s u j pk sg bs, made H j -> forall x,
  call_SaplingTx H net i o l e w s u j pk sg bs = Err x ->
  x = ValueError \/
  (x = TypeError /\ (not_iterable i \/ not_iterable o \/ not_iterable s \/ not_iterable u \/ not_iterable j \/ bs = PNone)).
Proof. exact err_sapling_tx. Qed.
Print Assumptions sapling_tx_exceptions.

(* utils.le2i, which SproutJoinsplit calls on both of its amounts before they are validated:
   a list or tuple of ints is read like bytes, and the first item that is no byte decides what is
   raised *)
Theorem le2i_of_items : forall v vs, v = PList vs \/ v = PTuple vs ->
  (forall b, vs = map PInt b -> all_bytes b -> le_integer v = Ok (le_value b)) /\
  (forall b n rest, vs = map PInt b ++ PInt n :: rest -> all_bytes b -> ~ 0 <= n < 256 ->
     le_integer v = Err ValueError) /\
  (forall b w rest, vs = map PInt b ++ w :: rest -> all_bytes b -> (forall n, w <> PInt n) ->
     le_integer v = Err TypeError).
Proof. exact le_items. Qed.
Print Assumptions le2i_of_items.
Example le2i_of_items_ex :
  le_integer (PList [PInt 1; PInt 255]) = Ok 65281 /\ le_integer (PTuple [PInt 1; PInt 256; PNone]) = Err ValueError /\
  le_integer (PList [PInt 1; PNone; PInt 256]) = Err TypeError /\ le_integer (PList [PInt (-1)]) = Err ValueError.
Proof. repeat split; reflexivity. Qed.

(** * Examples *)

Example ex_wrong_size : call_Outpoint (PStr [97]) (PBytes (le4 1)) = Err ValueError /\ call_TxOut (PInt 5) (PBytes []) = Err ValueError.
Proof. split; reflexivity. Qed.
Example ex_outpoint_class : exists v v',
  call_TxIn (PBytes (ex_id ++ le4 1)) (PBytes []) (PBytes []) (PBytes (le4 4)) = Ok v /\
  call_TxIn (ex_value (call_Outpoint (PBytes ex_id) (PBytes (le4 1))) PNone) (PBytes []) (PBytes []) (PBytes (le4 4)) = Ok v' /\
  v <> v' /\ object_bytes v = object_bytes v'.
Proof. do 2 eexists. split; [reflexivity|]. split; [reflexivity|]. split; [discriminate|reflexivity]. Qed.
Example ex_script_object : call_TxIn (PBytes (ex_id ++ le4 1)) (PBytes [1]) (PObj CVarInt [2] []) (PBytes (le4 4)) = Err TypeError.
Proof. eapply txin_script_object; try reflexivity; [vm_compute; discriminate|]. right. do 3 eexists. reflexivity. Qed.
Example ex_flag : call_Tx small BitcoinMain (PBytes (le4 1)) (PStr []) PNone PNone PNone (PBytes (le4 0)) = Err AttributeError.
Proof. eapply tx_flag_not_bytes; try reflexivity; [discriminate|]. intros [b B]. discriminate. Qed.
(* an empty string is no list of joinsplits, and passes *)
Example ex_overwinter_empty : exists v,
  call_OverwinterTx small ZcashOverwinterMain (PList [ex_in]) (PList [ex_out]) (PBytes (le4 0)) (PBytes (le4 0)) (PStr []) PNone PNone = Ok v.
Proof. eexists. vm_compute. reflexivity. Qed.
Example ex_overwinter_none :
  call_OverwinterTx small ZcashOverwinterMain (PList [ex_in]) (PList [ex_out]) (PBytes (le4 0)) (PBytes (le4 0)) PNone PNone PNone = Err TypeError.
Proof. vm_compute. reflexivity. Qed.
