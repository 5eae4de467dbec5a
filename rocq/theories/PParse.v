(* C35, C53, C54: parsers always end, and read no more than they are given *)
From Coq Require Import String.
From Verif Require Import Py SNum SNet SScript MNet MUtils MShared MScript MTx MZcash MDecred STx SZcash SDecred SParse SHash LParse PTx PZcash.
Open Scope list_scope.
Open Scope Z_scope.

(* nine bytes that announce 2^64 - 1 items *)
Definition huge : bytes := 255 :: zrepeat 255 8.

(** * C35.  Each parser returns an object of its class or raises one of
    ValueError, IndexError and NotImplementedError; every item of a list has
    cost at least its smallest encoding, so the lists are bounded by the input. *)
Theorem parse_varint_ends : forall net s, ends [ValueError; IndexError] (fun v => 0 <= vi_number v < 2 ^ 64 /\ 1 <= zlen s) (VarInt_from_bytes net s).
Proof. intros net s. eapply ends_weaken; [apply ends_VarInt_from_bytes|apply incl_refl|cbn; tauto]. Qed.
Print Assumptions parse_varint_ends.
Example parse_varint_ends_ex : VarInt_from_bytes BitcoinMain [] = Err IndexError /\
  (exists v, VarInt_from_bytes BitcoinMain huge = Ok v /\ vi_number v = 2 ^ 64 - 1).
Proof. split; [vm_compute; reflexivity|eexists; split; vm_compute; reflexivity]. Qed.

Theorem parse_outpoint_ends : forall s, ends [ValueError] (fun o => outpoint_obj o /\ 36 <= zlen s) (Outpoint_from_bytes s).
Proof. exact ends_outpoint. Qed.
Print Assumptions parse_outpoint_ends.
Example parse_outpoint_ends_ex : Outpoint_from_bytes (zrepeat 1 35) = Err ValueError /\ exists o, Outpoint_from_bytes (zrepeat 1 99) = Ok o.
Proof. split; [vm_compute; reflexivity|]. eexists. vm_compute. reflexivity. Qed.

Theorem parse_txin_ends : forall net s, all_bytes s -> ends parse_errors (fun i => txin_obj i /\ 41 <= zlen s) (TxIn_from_bytes net s).
Proof. intros net s B. eapply ends_weaken; [apply ends_txin, LUtils.all_bytes_is_bytes, B|apply incl_refl|cbn; tauto]. Qed.
Print Assumptions parse_txin_ends.
Example parse_txin_ends_ex : TxIn_from_bytes BitcoinMain (zrepeat 1 36 ++ huge) = Err ValueError /\ TxIn_from_bytes BitcoinMain (zrepeat 1 36) = Err IndexError /\
  exists i, TxIn_from_bytes BitcoinMain (zrepeat 1 36 ++ 0 :: zrepeat 1 4) = Ok i.
Proof. split; [vm_compute; reflexivity|split; [vm_compute; reflexivity|eexists; vm_compute; reflexivity]]. Qed.

Theorem parse_txout_ends : forall net s, ends parse_errors (fun o => txout_obj o /\ 9 <= zlen s) (TxOut_from_bytes net s).
Proof. intros net s. eapply ends_weaken; [apply ends_txout|apply incl_refl|cbn; tauto]. Qed.
Print Assumptions parse_txout_ends.
Example parse_txout_ends_ex : TxOut_from_bytes BitcoinMain (zrepeat 1 8 ++ huge) = Err NotImplementedError /\
  exists o, TxOut_from_bytes BitcoinMain (zrepeat 1 8 ++ [0]) = Ok o.
Proof. split; [vm_compute; reflexivity|]. eexists. vm_compute. reflexivity. Qed.

Theorem parse_witness_ends : forall net s, all_bytes s ->
  ends parse_errors (fun w => witness_obj w /\ zlen (wit_stack w) <= zlen s) (InputWitness_from_bytes net s).
Proof. intros net s B. eapply ends_weaken; [apply ends_witness, LUtils.all_bytes_is_bytes, B|apply incl_refl|cbn; tauto]. Qed.
Print Assumptions parse_witness_ends.
Example parse_witness_ends_ex : InputWitness_from_bytes BitcoinMain (huge ++ [1; 7; 0]) = Err IndexError /\
  exists w, InputWitness_from_bytes BitcoinMain [2; 1; 7; 0] = Ok w /\ zlen (wit_stack w) = 2.
Proof. split; [vm_compute; reflexivity|]. eexists. split; vm_compute; reflexivity. Qed.

Theorem parse_tx_ends : forall H net s, all_bytes s ->
  ends parse_errors (fun t => tx_obj H net t /\
      41 * zlen (tx_tx_ins t) + 9 * zlen (tx_tx_outs t) + zlen (the_witnesses t) <= zlen s /\
      Forall (fun w => zlen (wit_stack w) <= zlen s) (the_witnesses t)) (Tx_from_bytes H net s).
Proof. intros H net s B. apply ends_tx, LUtils.all_bytes_is_bytes, B. Qed.
Print Assumptions parse_tx_ends.
Example parse_tx_ends_ex : Tx_from_bytes toy BitcoinMain ([1; 0; 0; 0] ++ huge) = Err ValueError /\
  Tx_from_bytes toy BitcoinMain (slice_to (tx_bytes ex_segwit) (zlen (tx_bytes ex_segwit) - 3)) = Err ValueError /\
  exists t, Tx_from_bytes toy BitcoinMain (tx_bytes ex_segwit) = Ok t.
Proof. split; [vm_compute; reflexivity|split; [vm_compute; reflexivity|eexists; vm_compute; reflexivity]]. Qed.

Theorem parse_zcash_parts_end : forall net s,
  ends parse_errors (fun j => sprout_joinsplit_obj net j /\ 1802 <= zlen s) (SproutJoinsplit_from_bytes net s) /\
  ends parse_errors (fun j => sapling_joinsplit_obj net j /\ 1698 <= zlen s) (SaplingJoinsplit_from_bytes net s) /\
  ends parse_errors (fun j => spend_obj net j /\ 384 <= zlen s) (SaplingShieldedSpend_from_bytes net s) /\
  ends parse_errors (fun j => shielded_output_obj net j /\ 948 <= zlen s) (SaplingShieldedOutput_from_bytes net s).
Proof.
  intros net s. split; [|split; [|split]]; (eapply ends_weaken; [|apply incl_refl|]).
  1: apply ends_sprout_js. 2: apply ends_sapling_js. 3: apply ends_spend. 4: apply ends_sout.
  all: cbn; tauto.
Qed.
Print Assumptions parse_zcash_parts_end.
Example parse_zcash_parts_end_ex : SaplingShieldedSpend_from_bytes ZcashSaplingMain (zrepeat 1 383) = Err ValueError /\
  exists s, SaplingShieldedSpend_from_bytes ZcashSaplingMain (zrepeat 1 384) = Ok s.
Proof. split; [vm_compute; reflexivity|]. eexists. vm_compute. reflexivity. Qed.

Theorem parse_overwinter_ends : forall H net s, all_bytes s ->
  ends parse_errors (fun t => overwinter_obj H net t /\
      41 * zlen (ow_tx_ins t) + 9 * zlen (ow_tx_outs t) + 1802 * zlen (ow_tx_joinsplits t) <= zlen s) (OverwinterTx_from_bytes H net s).
Proof. intros H net s B. apply ends_overwinter, LUtils.all_bytes_is_bytes, B. Qed.
Print Assumptions parse_overwinter_ends.
Example parse_overwinter_ends_ex :
  OverwinterTx_from_bytes toy ZcashOverwinterMain ([3; 0; 0; 0x80; 0x70; 0x82; 0xc4; 0x03] ++ huge) = Err ValueError /\
  OverwinterTx_from_bytes toy ZcashOverwinterMain ([3; 0; 0; 0x80; 0x70; 0x82; 0xc4; 0x03]) = Err IndexError.
Proof. split; vm_compute; reflexivity. Qed.

Theorem parse_sapling_ends : forall H net s, all_bytes s ->
  ends parse_errors (fun t => sapling_obj H net t /\
      41 * zlen (sa_tx_ins t) + 9 * zlen (sa_tx_outs t) + 384 * zlen (sa_tx_shielded_spends t)
      + 948 * zlen (sa_tx_shielded_outputs t) + 1698 * zlen (sa_tx_joinsplits t) <= zlen s) (SaplingTx_from_bytes H net s).
Proof. intros H net s B. apply ends_sapling, LUtils.all_bytes_is_bytes, B. Qed.
Print Assumptions parse_sapling_ends.
Example parse_sapling_ends_ex :
  SaplingTx_from_bytes toy ZcashSaplingMain ([4; 0; 0; 0x80; 0x85; 0x20; 0x2f; 0x89; 0; 0] ++ zrepeat 1 16 ++ huge) = Err ValueError.
Proof. vm_compute. reflexivity. Qed.

(* version 1 transactions always end in TypeError or one of the others: see C22 *)
Theorem parse_sprout_ends : forall H net s, all_bytes s ->
  ends (TypeError :: parse_errors) (fun t => sprout_obj H net t /\ exists js, sp_tx_joinsplits t = Some js /\
      41 * zlen (sp_tx_ins t) + 9 * zlen (sp_tx_outs t) + 1802 * zlen js <= zlen s) (SproutTx_from_bytes H net s).
Proof. intros H net s B. apply ends_sprout, LUtils.all_bytes_is_bytes, B. Qed.
Print Assumptions parse_sprout_ends.
Example parse_sprout_ends_ex : SproutTx_from_bytes toy ZcashSproutMain ([2; 0; 0; 0] ++ huge) = Err ValueError /\
  SproutTx_from_bytes toy ZcashSproutMain ([1; 0; 0; 0; 1] ++ zrepeat 1 36 ++ 0 :: zrepeat 1 4 ++ 0 :: zrepeat 0 4) = Err TypeError.
Proof. split; vm_compute; reflexivity. Qed.

Theorem parse_decred_ends : forall net s,
  ends [ValueError] (fun _ => True) (DecredOutpoint_from_bytes net s) /\
  ends [ValueError] (fun _ => True) (DecredTxIn_from_bytes net s) /\
  ends parse_errors (fun _ => True) (DecredTxOut_from_bytes net s) /\
  DecredInputWitness_from_bytes s = Err NotImplementedError /\
  DecredTx_from_bytes s = Err NotImplementedError.
Proof. intros net s. split; [apply ends_decred_outpoint|split; [apply ends_decred_txin|split; [apply ends_decred_txout|split; reflexivity]]]. Qed.
Print Assumptions parse_decred_ends.
Example parse_decred_ends_ex : DecredOutpoint_from_bytes DecredMain (zrepeat 1 36) = Err ValueError /\
  exists o, DecredTxOut_from_bytes DecredMain (zrepeat 1 10 ++ [1; 9]) = Ok o.
Proof. split; [vm_compute; reflexivity|]. eexists. vm_compute. reflexivity. Qed.

(** * C53: how scripts and signature scripts can fail *)
Theorem serialize_ends : forall net text, ends [ValueError; NotImplementedError] (fun _ => True) (serialize net text).
Proof. exact serialize_errors. Qed.
Print Assumptions serialize_ends.
Example serialize_ends_ex : serialize BitcoinMain (lit "OP_DUP 1") = Err ValueError /\ serialize BitcoinMain (lit "OP_CODESEPARATOR") = Err NotImplementedError /\
  serialize BitcoinMain (lit "OP_NONSENSE") = Err ValueError.
Proof. repeat split; vm_compute; reflexivity. Qed.

Theorem deserialize_ends : forall net s, all_bytes s -> ends parse_errors (fun _ => True) (deserialize net s).
Proof. intros net s B. apply deserialize_errors, LUtils.all_bytes_is_bytes, B. Qed.
Print Assumptions deserialize_ends.
Example deserialize_ends_ex : deserialize BitcoinMain [5; 1] = Err IndexError /\ deserialize BitcoinMain [0xab] = Err NotImplementedError /\
  deserialize BitcoinMain [78; 1; 2; 3] = Err NotImplementedError /\ deserialize BitcoinMain [0xfe] = Err ValueError.
Proof. repeat split; vm_compute; reflexivity. Qed.

Theorem parse_script_sig_total : forall net s, all_bytes s -> exists stack redeem, TxIn_parse_script_sig net s = Ok (stack, redeem).
Proof. intros net s B. apply parse_script_sig_Ok, LUtils.all_bytes_is_bytes, B. Qed.
Print Assumptions parse_script_sig_total.
Example parse_script_sig_total_ex : TxIn_parse_script_sig BitcoinMain [5; 1] = Ok ([5; 1], []).
Proof. vm_compute. reflexivity. Qed.
