(* C77: what values a program can hold, and when an object of one of the classes is
   a given record of the model.  pv, cls and the calls are those of MClass.v, the
   records those of MTx.v, MDecred.v and MZcash.v. *)
From Coq Require Import String.
From Verif Require Import Py SHash MNet MUtils MTx MDecred MZcash MClass.
Open Scope list_scope.
Open Scope Z_scope.

(* The values of a program that makes its objects with the constructors.  Objects
   of ByteData and VarInt may be anything: they can be changed, and no class check
   accepts them. *)
Inductive made (H : hashes) : pv -> Prop :=
  | made_none : made H PNone
  | made_int : forall n, made H (PInt n)
  | made_str : forall s, made H (PStr s)
  | made_bytes : forall b, made H (PBytes b)
  | made_array : forall b, made H (PArray b)
  | made_list : forall vs, (forall v, In v vs -> made H v) -> made H (PList vs)
  | made_tuple : forall vs, (forall v, In v vs -> made H v) -> made H (PTuple vs)
  | made_bytedata : forall b attrs, made H (PObj CByteData b attrs)
  | made_varint : forall b attrs, made H (PObj CVarInt b attrs)
  | made_outpoint : forall a b v, call_Outpoint a b = Ok v -> made H v
  | made_txin : forall a b c d v, call_TxIn a b c d = Ok v -> made H v
  | made_txout : forall a b v, call_TxOut a b = Ok v -> made H v
  | made_item : forall a v, call_WitnessStackItem a = Ok v -> made H v
  | made_witness : forall a v, made H a -> call_InputWitness a = Ok v -> made H v
  | made_tx : forall net a b c d e f v, made H c -> made H d -> made H e ->
      call_Tx H net a b c d e f = Ok v -> made H v
  | made_doutpoint : forall net a b c v, call_DecredOutpoint net a b c = Ok v -> made H v
  | made_dtxin : forall net a b v, call_DecredTxIn net a b = Ok v -> made H v
  | made_dtxout : forall net a b c v, call_DecredTxOut net a b c = Ok v -> made H v
  | made_dwitness : forall net a b c d e v, call_DecredInputWitness net a b c d e = Ok v -> made H v
  | made_dtx : forall net a b c d e f v, made H b -> made H c -> made H f ->
      call_DecredTx H net a b c d e f = Ok v -> made H v
  | made_sprout_zkproof : forall net a b c d e f g h v,
      call_SproutZkproof net a b c d e f g h = Ok v -> made H v
  | made_sapling_zkproof : forall net a b c v, call_SaplingZkproof net a b c = Ok v -> made H v
  | made_sprout_joinsplit : forall net a b c d e f g h z n v, made H z ->
      call_SproutJoinsplit net a b c d e f g h z n = Ok v -> made H v
  | made_sapling_joinsplit : forall net a b c d e f g h z n v, made H z ->
      call_SaplingJoinsplit net a b c d e f g h z n = Ok v -> made H v
  | made_shielded_spend : forall net a b c d z e v, made H z ->
      call_SaplingShieldedSpend net a b c d z e = Ok v -> made H v
  | made_shielded_output : forall net a b c d e z v, made H z ->
      call_SaplingShieldedOutput net a b c d e z = Ok v -> made H v
  | made_sprout_tx : forall net a b c d e f g v, made H b -> made H c -> made H e ->
      call_SproutTx H net a b c d e f g = Ok v -> made H v
  | made_overwinter_tx : forall net a b c d e f g v, made H a -> made H b -> made H e ->
      call_OverwinterTx H net a b c d e f g = Ok v -> made H v
  | made_sapling_tx : forall net a b c d e f g h i j k v, made H a -> made H b -> made H f -> made H g -> made H h ->
      call_SaplingTx H net a b c d e f g h i j k = Ok v -> made H v.

(* bytes, bytearray or ByteData with content b; bytes or bytearray with content b *)
Definition holds (v : pv) (b : bytes) : Prop := byte_content v = Some b.
Definition buffer_of (v : pv) (b : bytes) : Prop := v = PBytes b \/ v = PArray b.

(* the same for an argument or attribute that may be None *)
Definition holds_optional (v : pv) (b : option bytes) : Prop :=
  match b with None => v = PNone | Some b => holds v b end.

(* the attribute k is there and satisfies P *)
Definition has (attrs : list (str * pv)) (k : string) (P : pv -> Prop) : Prop :=
  exists v, lookup (lit k) attrs = Some v /\ P v.
Definition has_bytes (attrs : list (str * pv)) (k : string) (b : bytes) : Prop := has attrs k (fun v => holds v b).
Definition has_optional (attrs : list (str * pv)) (k : string) (b : option bytes) : Prop :=
  has attrs k (fun v => holds_optional v b).

(* a tuple of objects; any sequence of objects; None or any sequence of objects *)
Definition tuple_of {A} (is : pv -> A -> Prop) (l : list A) (v : pv) : Prop :=
  exists vs, v = PTuple vs /\ Forall2 is vs l.
Definition objects_of {A} (is : pv -> A -> Prop) (l : list A) (v : pv) : Prop :=
  exists vs, sequence v = Ok vs /\ Forall2 is vs l.
Definition optional_objects_of {A} (is : pv -> A -> Prop) (l : option (list A)) (v : pv) : Prop :=
  match l with None => v = PNone | Some l => v <> PNone /\ objects_of is l v end.

(** * Objects of tx.py *)

Definition outpoint_value (v : pv) (o : outpoint) : Prop :=
  exists attrs, v = PObj COutpoint (op_bytes o) attrs /\
    has_bytes attrs "tx_id" (op_tx_id o) /\ has_bytes attrs "index" (op_index o).

(* the attribute outpoint need not be an Outpoint *)
Definition txin_value (v : pv) (i : txin) : Prop :=
  exists attrs, v = PObj CTxIn (ti_bytes i) attrs /\
    has_bytes attrs "outpoint" (op_bytes (ti_outpoint i)) /\
    has_bytes attrs "stack_script" (ti_stack_script i) /\ has_bytes attrs "redeem_script" (ti_redeem_script i) /\
    has_bytes attrs "script_sig" (ti_script_sig i) /\ has_bytes attrs "sequence" (ti_sequence i).

Definition txout_value (v : pv) (o : txout) : Prop :=
  exists attrs, v = PObj CTxOut (to_bytes_ o) attrs /\
    has_bytes attrs "value" (to_value o) /\ has_bytes attrs "output_script" (to_output_script o).

Definition item_value (v : pv) (i : witem) : Prop :=
  exists attrs, v = PObj CWitnessStackItem (wi_bytes i) attrs /\ has_bytes attrs "item" (wi_item i).

Definition witness_value (v : pv) (w : witness) : Prop :=
  exists attrs, v = PObj CInputWitness (wit_bytes w) attrs /\ has attrs "stack" (tuple_of item_value (wit_stack w)).

Definition tx_value (v : pv) (t : tx) : Prop :=
  exists attrs, v = PObj CTx (tx_bytes t) attrs /\
    has_bytes attrs "version" (tx_version t) /\ has_optional attrs "flag" (tx_flag t) /\
    has attrs "tx_ins" (tuple_of txin_value (tx_tx_ins t)) /\
    has attrs "tx_outs" (tuple_of txout_value (tx_tx_outs t)) /\
    has attrs "tx_witnesses" (match tx_tx_witnesses t with
                              | None => fun v => v = PNone
                              | Some l => tuple_of witness_value l
                              end) /\
    has_bytes attrs "lock_time" (tx_lock_time t) /\
    has_bytes attrs "tx_id_le" (tx_tx_id_le t) /\ has_bytes attrs "tx_id" (tx_tx_id t) /\
    has_optional attrs "wtx_id" (tx_wtx_id t) /\
    match tx_wtx_id_le t with
    | Some b => has_bytes attrs "wtx_id_le" b
    | None => lookup (lit "wtx_id_le") attrs = None
    end.

(** * Objects of decred.py *)

Definition doutpoint_value (v : pv) (o : doutpoint) : Prop :=
  exists attrs, v = PObj CDecredOutpoint (dop_bytes o) attrs /\
    has_bytes attrs "tx_id" (dop_tx_id o) /\ has_bytes attrs "index" (dop_index o) /\
    has_bytes attrs "tree" (dop_tree o).

(* the attribute outpoint need not be a DecredOutpoint *)
Definition dtxin_value (v : pv) (i : dtxin) : Prop :=
  exists attrs, v = PObj CDecredTxIn (dti_bytes i) attrs /\
    has_bytes attrs "outpoint" (dop_bytes (dti_outpoint i)) /\ has_bytes attrs "sequence" (dti_sequence i).

Definition dtxout_value (v : pv) (o : dtxout) : Prop :=
  exists attrs, v = PObj CDecredTxOut (dto_bytes o) attrs /\
    has_bytes attrs "value" (dto_value o) /\ has_bytes attrs "version" (dto_version o) /\
    has attrs "output_script_len" (eq (PInt (dto_output_script_len o))) /\
    has_bytes attrs "output_script" (dto_output_script o).

Definition dwitness_value (v : pv) (w : dwitness) : Prop :=
  exists attrs, v = PObj CDecredInputWitness (dw_bytes w) attrs /\
    has_bytes attrs "value" (dw_value w) /\ has_bytes attrs "height" (dw_height w) /\
    has_bytes attrs "index" (dw_index w) /\ has attrs "script_len" (eq (PInt (dw_script_len w))) /\
    has_bytes attrs "stack_script" (dw_stack_script w) /\ has_bytes attrs "redeem_script" (dw_redeem_script w) /\
    has_bytes attrs "script_sig" (dw_script_sig w).

Definition dtx_value (v : pv) (t : dtx) : Prop :=
  exists attrs, v = PObj CDecredTx (dtx_bytes t) attrs /\
    has_bytes attrs "version" (dtx_version t) /\
    has attrs "tx_ins" (objects_of dtxin_value (dtx_tx_ins t)) /\
    has attrs "tx_outs" (objects_of dtxout_value (dtx_tx_outs t)) /\
    has_bytes attrs "lock_time" (dtx_lock_time t) /\ has_bytes attrs "expiry" (dtx_expiry t) /\
    has attrs "tx_witnesses" (objects_of dwitness_value (dtx_tx_witnesses t)) /\
    has_bytes attrs "tx_id_le" (dtx_tx_id_le t) /\ has_bytes attrs "tx_id" (dtx_tx_id t).

(** * Objects of zcash_shared.py, sprout.py, overwinter.py and sapling.py *)

Definition sprout_zkproof_value (v : pv) (z : sprout_zkproof) : Prop :=
  exists attrs, v = PObj CSproutZkproof (zk_bytes z) attrs /\
    has_bytes attrs "pi_sub_a" (zk_pi_sub_a z) /\ has_bytes attrs "pi_prime_sub_a" (zk_pi_prime_sub_a z) /\
    has_bytes attrs "pi_sub_b" (zk_pi_sub_b z) /\ has_bytes attrs "pi_prime_sub_b" (zk_pi_prime_sub_b z) /\
    has_bytes attrs "pi_sub_c" (zk_pi_sub_c z) /\ has_bytes attrs "pi_prime_sub_c" (zk_pi_prime_sub_c z) /\
    has_bytes attrs "pi_sub_k" (zk_pi_sub_k z) /\ has_bytes attrs "pi_sub_h" (zk_pi_sub_h z).

Definition sapling_zkproof_value (v : pv) (z : sapling_zkproof) : Prop :=
  exists attrs, v = PObj CSaplingZkproof (szk_bytes z) attrs /\
    has_bytes attrs "pi_sub_a" (szk_pi_sub_a z) /\ has_bytes attrs "pi_sub_b" (szk_pi_sub_b z) /\
    has_bytes attrs "pi_sub_c" (szk_pi_sub_c z).

Definition joinsplit_value {P} (c : cls) (is_proof : pv -> P -> Prop) (v : pv) (j : joinsplit P) : Prop :=
  exists attrs, v = PObj c (js_bytes j) attrs /\
    has_bytes attrs "vpub_old" (js_vpub_old j) /\ has_bytes attrs "vpub_new" (js_vpub_new j) /\
    has_bytes attrs "anchor" (js_anchor j) /\ has_bytes attrs "nullifiers" (js_nullifiers j) /\
    has_bytes attrs "commitments" (js_commitments j) /\ has_bytes attrs "ephemeral_key" (js_ephemeral_key j) /\
    has_bytes attrs "random_seed" (js_random_seed j) /\ has_bytes attrs "vmacs" (js_vmacs j) /\
    has attrs "zkproof" (fun v => is_proof v (js_zkproof j)) /\ has_bytes attrs "encoded_notes" (js_encoded_notes j).
Definition sprout_joinsplit_value := joinsplit_value CSproutJoinsplit sprout_zkproof_value.
Definition sapling_joinsplit_value := joinsplit_value CSaplingJoinsplit sapling_zkproof_value.

Definition shielded_spend_value (v : pv) (s : shielded_spend) : Prop :=
  exists attrs, v = PObj CSaplingShieldedSpend (ss_bytes s) attrs /\
    has_bytes attrs "cv" (ss_cv s) /\ has_bytes attrs "anchor" (ss_anchor s) /\
    has_bytes attrs "nullifier" (ss_nullifier s) /\ has_bytes attrs "rk" (ss_rk s) /\
    has attrs "zkproof" (fun v => sapling_zkproof_value v (ss_zkproof s)) /\
    has_bytes attrs "spend_auth_sig" (ss_spend_auth_sig s).

Definition shielded_output_value (v : pv) (s : shielded_output) : Prop :=
  exists attrs, v = PObj CSaplingShieldedOutput (so_bytes s) attrs /\
    has_bytes attrs "cv" (so_cv s) /\ has_bytes attrs "cmu" (so_cmu s) /\
    has_bytes attrs "ephemeral_key" (so_ephemeral_key s) /\ has_bytes attrs "enc_ciphertext" (so_enc_ciphertext s) /\
    has_bytes attrs "out_ciphertext" (so_out_ciphertext s) /\
    has attrs "zkproof" (fun v => sapling_zkproof_value v (so_zkproof s)).

(* a tuple of bytes *)
Definition bytes_tuple (l : list bytes) (v : pv) : Prop := v = PTuple (map PBytes l).

Definition sprout_tx_value (v : pv) (t : sprout_tx) : Prop :=
  exists attrs, v = PObj CSproutTx (sp_bytes t) attrs /\
    has_bytes attrs "version" (sp_version t) /\
    has attrs "tx_ins" (tuple_of txin_value (sp_tx_ins t)) /\
    has attrs "tx_outs" (tuple_of txout_value (sp_tx_outs t)) /\
    (exists l, sp_tx_joinsplits t = Some l /\ has attrs "tx_joinsplits" (tuple_of sprout_joinsplit_value l)) /\
    has_bytes attrs "lock_time" (sp_lock_time t) /\
    has_optional attrs "joinsplit_pubkey" (sp_joinsplit_pubkey t) /\
    has_optional attrs "joinsplit_sig" (sp_joinsplit_sig t) /\
    has attrs "hsigs" (bytes_tuple (sp_hsigs t)) /\ has attrs "primary_inputs" (bytes_tuple (sp_primary_inputs t)) /\
    has_bytes attrs "tx_id_le" (sp_tx_id_le t) /\ has_bytes attrs "tx_id" (sp_tx_id t).

Definition overwinter_tx_value (v : pv) (t : overwinter_tx) : Prop :=
  exists attrs, v = PObj COverwinterTx (ow_bytes t) attrs /\
    has_bytes attrs "header" (ow_header t) /\ has_bytes attrs "group_id" (ow_group_id t) /\
    has_bytes attrs "version" (ow_version t) /\
    has attrs "tx_ins" (tuple_of txin_value (ow_tx_ins t)) /\
    has attrs "tx_outs" (tuple_of txout_value (ow_tx_outs t)) /\
    has_bytes attrs "lock_time" (ow_lock_time t) /\ has_bytes attrs "expiry_height" (ow_expiry_height t) /\
    has attrs "tx_joinsplits" (tuple_of sprout_joinsplit_value (ow_tx_joinsplits t)) /\
    has_optional attrs "joinsplit_pubkey" (ow_joinsplit_pubkey t) /\
    has_optional attrs "joinsplit_sig" (ow_joinsplit_sig t) /\
    has attrs "hsigs" (bytes_tuple (ow_hsigs t)) /\ has attrs "primary_inputs" (bytes_tuple (ow_primary_inputs t)) /\
    has_bytes attrs "tx_id_le" (ow_tx_id_le t) /\ has_bytes attrs "tx_id" (ow_tx_id t).

Definition sapling_tx_value (v : pv) (t : sapling_tx) : Prop :=
  exists attrs, v = PObj CSaplingTx (sa_bytes t) attrs /\
    has_bytes attrs "header" (sa_header t) /\ has_bytes attrs "group_id" (sa_group_id t) /\
    has attrs "tx_ins" (tuple_of txin_value (sa_tx_ins t)) /\
    has attrs "tx_outs" (tuple_of txout_value (sa_tx_outs t)) /\
    has_bytes attrs "lock_time" (sa_lock_time t) /\ has_bytes attrs "expiry_height" (sa_expiry_height t) /\
    has_bytes attrs "value_balance" (sa_value_balance t) /\
    has attrs "tx_shielded_spends" (tuple_of shielded_spend_value (sa_tx_shielded_spends t)) /\
    has attrs "tx_shielded_outputs" (tuple_of shielded_output_value (sa_tx_shielded_outputs t)) /\
    has attrs "tx_joinsplits" (tuple_of sapling_joinsplit_value (sa_tx_joinsplits t)) /\
    has_optional attrs "joinsplit_pubkey" (sa_joinsplit_pubkey t) /\
    has_optional attrs "joinsplit_sig" (sa_joinsplit_sig t) /\ has_optional attrs "binding_sig" (sa_binding_sig t) /\
    has attrs "hsigs" (bytes_tuple (sa_hsigs t)) /\ has attrs "primary_inputs" (bytes_tuple (sa_primary_inputs t)) /\
    has_bytes attrs "tx_id_le" (sa_tx_id_le t) /\ has_bytes attrs "tx_id" (sa_tx_id t).

(** * The records that the constructors of the model return *)

Definition some_outpoint (o : outpoint) : Prop := exists t i, Outpoint (Some t) (Some i) = Ok o.
Definition some_txin (x : txin) : Prop := exists o s r q, some_outpoint o /\ TxIn o s r q = Ok x.
Definition some_txout (x : txout) : Prop := exists v s, TxOut v s = Ok x.
Definition some_item (x : witem) : Prop := exists i, WitnessStackItem i = Ok x.
Definition some_witness (x : witness) : Prop := exists l, Forall some_item l /\ InputWitness l = Ok x.
Definition some_tx (H : hashes) (x : tx) : Prop := exists net v f li lo lw l,
  Forall some_txin li /\ Forall some_txout lo /\ (forall w, lw = Some w -> Forall some_witness w) /\
  Tx H net v f li lo lw l = Ok x.

Definition some_doutpoint (x : doutpoint) : Prop := exists net t i e, DecredOutpoint net t i e = Ok x.
Definition some_dtxin (x : dtxin) : Prop := exists net o q, some_doutpoint o /\ DecredTxIn net o q = Ok x.
Definition some_dtxout (x : dtxout) : Prop := exists net v r s, DecredTxOut net v (Some r) s = Ok x.
Definition some_dwitness (x : dwitness) : Prop := exists net v g i s r, DecredInputWitness net v g i s r = Ok x.
Definition some_dtx (H : hashes) (x : dtx) : Prop := exists net v li lo l e lw,
  Forall some_dtxin li /\ Forall some_dtxout lo /\ Forall some_dwitness lw /\ DecredTx H net v li lo l e lw = Ok x.

Definition some_sprout_zkproof (x : sprout_zkproof) : Prop :=
  exists net a a' b b' c c' k h, SproutZkproof net a a' b b' c c' k h = Ok x.
Definition some_sapling_zkproof (x : sapling_zkproof) : Prop := exists net a b c, SaplingZkproof net a b c = Ok x.
Definition some_sprout_joinsplit (x : sprout_joinsplit) : Prop := exists net o w a n c e r m z t,
  some_sprout_zkproof z /\ SproutJoinsplit net o w a n c e r m z t = Ok x.
Definition some_sapling_joinsplit (x : sapling_joinsplit) : Prop := exists net o w a n c e r m z t,
  some_sapling_zkproof z /\ SaplingJoinsplit net o w a n c e r m z t = Ok x.
Definition some_shielded_spend (x : shielded_spend) : Prop := exists net c a n r z s,
  some_sapling_zkproof z /\ SaplingShieldedSpend net c a n r z s = Ok x.
Definition some_shielded_output (x : shielded_output) : Prop := exists net c m e y t z,
  some_sapling_zkproof z /\ SaplingShieldedOutput net c m e y t z = Ok x.
Definition some_sprout_tx (H : hashes) (x : sprout_tx) : Prop := exists net v li lo l lj pk sg,
  Forall some_txin li /\ Forall some_txout lo /\ Forall some_sprout_joinsplit lj /\
  SproutTx H net (Some v) li lo l (Some lj) pk sg = Ok x.
Definition some_overwinter_tx (H : hashes) (x : overwinter_tx) : Prop := exists net li lo l e lj pk sg,
  Forall some_txin li /\ Forall some_txout lo /\ Forall some_sprout_joinsplit lj /\
  OverwinterTx H net li lo l e lj pk sg = Ok x.
Definition some_sapling_tx (H : hashes) (x : sapling_tx) : Prop := exists net li lo l e w ls lu lj pk sg bs,
  Forall some_txin li /\ Forall some_txout lo /\ Forall some_shielded_spend ls /\ Forall some_shielded_output lu /\
  Forall some_sapling_joinsplit lj /\ SaplingTx H net li lo l e w (Some ls) (Some lu) (Some lj) pk sg bs = Ok x.

(** * Arguments of other types *)

(* what len() and a loop refuse, and an object of one of the classes *)
Definition not_iterable (v : pv) : Prop := v = PNone \/ exists n, v = PInt n.
Definition an_object (v : pv) : Prop := exists c b attrs, v = PObj c b attrs.
Definition byte_like (v : pv) : Prop := exists b, holds v b.
