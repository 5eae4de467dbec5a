(* Bitcoin transactions on the wire: the original format and BIP144.
   Independent of the model, except that the last part says which fields of the
   model's objects are meant. *)
From Coq Require Import String.
From Verif Require Import Py SNum SNet SScript MNet MUtils MShared MTx.
Open Scope list_scope.
Open Scope Z_scope.

Record input := { in_txid : bytes; in_index : bytes; in_script : bytes; in_sequence : bytes }.
Record output := { out_value : bytes; out_script : bytes }.
(* a witness is a stack of byte strings; [None] is a transaction in the original
   format, [Some ws] one with marker and flag followed by the witnesses ws *)
Record transaction := {
  t_version : bytes;
  t_ins : list input;
  t_outs : list output;
  t_witness : option (list (list bytes));
  t_lock : bytes
}.

Definition count {A} (l : list A) : Z := Z.of_nat (length l).

Definition outpoint_wire (i : input) : bytes := in_txid i ++ in_index i.
Definition string_wire (s : bytes) : bytes := compactsize (len s) ++ s.
Definition input_wire (i : input) : bytes := outpoint_wire i ++ string_wire (in_script i) ++ in_sequence i.
Definition output_wire (o : output) : bytes := out_value o ++ string_wire (out_script o).
Definition vector_wire {A} (w : A -> bytes) (l : list A) : bytes := compactsize (count l) ++ concat (map w l).
Definition stack_wire (st : list bytes) : bytes := vector_wire string_wire st.

Definition marker_and_flag : bytes := [0; 1].

Definition wire_tx (t : transaction) : bytes :=
  t_version t ++
  (match t_witness t with Some _ => marker_and_flag | None => [] end) ++
  vector_wire input_wire (t_ins t) ++ vector_wire output_wire (t_outs t) ++
  (match t_witness t with Some ws => concat (map stack_wire ws) | None => [] end) ++
  t_lock t.

Definition stripped (t : transaction) : transaction :=
  {| t_version := t_version t; t_ins := t_ins t; t_outs := t_outs t; t_witness := None; t_lock := t_lock t |}.

(* well-formed parts: fixed widths, and sizes that CompactSize can express *)
Definition input_ok (i : input) : Prop :=
  len (in_txid i) = 32 /\ len (in_index i) = 4 /\ len (in_sequence i) = 4 /\ len (in_script i) < 2 ^ 64.
Definition output_ok (o : output) : Prop := len (out_value o) = 8 /\ len (out_script o) < 2 ^ 64.
Definition stack_ok (st : list bytes) : Prop := count st < 2 ^ 64 /\ Forall (fun s => len s < 2 ^ 64) st.
Definition transaction_ok (t : transaction) : Prop :=
  len (t_version t) = 4 /\ len (t_lock t) = 4 /\
  1 <= count (t_ins t) < 2 ^ 64 /\ 1 <= count (t_outs t) < 2 ^ 64 /\
  Forall input_ok (t_ins t) /\ Forall output_ok (t_outs t) /\
  match t_witness t with Some ws => Forall stack_ok ws | None => True end.
(* BIP144: one witness for each input *)
Definition bip144 (t : transaction) : Prop :=
  match t_witness t with Some ws => count ws = count (t_ins t) | None => True end.

(* a scriptSig of pushes of 1 to 1000 bytes in their smallest form, and opcodes *)
Definition canonical_script (net_name : str) (s : bytes) : Prop :=
  exists es, Forall (standard_element net_name) es /\ s = concat (map wire es).

(* scripts that the library cannot turn into text: after some opcodes and
   complete pushes comes a direct push that runs past the end, an OP_PUSHDATA1
   without length, OP_CODESEPARATOR, OP_PUSHDATA4, or a byte that is no opcode *)
Inductive stuck (net_name : str) : bytes -> Prop :=
| stuck_direct : forall r d, overrun Direct r d -> stuck net_name r
| stuck_pushdata1 : stuck net_name [76]
| stuck_refused : forall c t, c = 171 \/ c = 78 -> stuck net_name (c :: t)
| stuck_unknown : forall c t, unknown_opcode net_name c -> stuck net_name (c :: t).
Definition refused_script (net_name : str) (s : bytes) : Prop :=
  exists es r, Forall (element_ok net_name) es /\ all_bytes r /\ stuck net_name r /\ s = concat (map wire es) ++ r.

(* scriptSigs that survive parsing: canonical ones, refused ones, and those that
   end in an opcode or in a push of something that is refused as a script *)
Definition kept_script (net_name : str) (s : bytes) : Prop :=
  canonical_script net_name s \/ refused_script net_name s \/
  exists es e, Forall (element_ok net_name) (es ++ [e]) /\ s = concat (map wire (es ++ [e])) /\
    match e with Op _ _ => True | Push _ d => refused_script net_name d end.

(** * The model's objects *)

(* objects are what constructors return *)
Definition outpoint_obj (o : outpoint) : Prop := Outpoint (Some (op_tx_id o)) (Some (op_index o)) = Ok o.
Definition txin_obj (i : txin) : Prop :=
  outpoint_obj (ti_outpoint i) /\
  TxIn (ti_outpoint i) (ti_stack_script i) (ti_redeem_script i) (ti_sequence i) = Ok i.
Definition txout_obj (o : txout) : Prop := TxOut (to_value o) (to_output_script o) = Ok o.
Definition witem_obj (w : witem) : Prop := WitnessStackItem (wi_item w) = Ok w.
Definition witness_obj (w : witness) : Prop :=
  Forall witem_obj (wit_stack w) /\ InputWitness (wit_stack w) = Ok w.
Definition tx_obj (H : hashes) (net : network) (t : tx) : Prop :=
  Forall txin_obj (tx_tx_ins t) /\ Forall txout_obj (tx_tx_outs t) /\
  match tx_tx_witnesses t with Some ws => Forall witness_obj ws | None => True end /\
  Tx H net (tx_version t) (tx_flag t) (tx_tx_ins t) (tx_tx_outs t) (tx_tx_witnesses t) (tx_lock_time t) = Ok t.

(* the fields of an object *)
Definition the_input (i : txin) : input :=
  {| in_txid := op_tx_id (ti_outpoint i); in_index := op_index (ti_outpoint i);
     in_script := ti_script_sig i; in_sequence := ti_sequence i |}.
Definition the_output (o : txout) : output := {| out_value := to_value o; out_script := to_output_script o |}.
Definition the_stack (w : witness) : list bytes := map wi_item (wit_stack w).
Definition the_witnesses (t : tx) : list witness :=
  match tx_tx_witnesses t with Some ws => ws | None => [] end.
Definition the_tx (t : tx) : transaction :=
  {| t_version := tx_version t;
     t_ins := map the_input (tx_tx_ins t);
     t_outs := map the_output (tx_tx_outs t);
     t_witness := match tx_flag t with Some _ => Some (map the_stack (the_witnesses t)) | None => None end;
     t_lock := tx_lock_time t |}.

(* Overwinter and Sapling refuse the canonical CompactSize of 253, 254 and 255
   (see C04) *)
Definition readable_size (net_name : str) (n : Z) : Prop :=
  ~ In net_name upgraded_zcash \/ ~ 253 <= n <= 255.

(* what the parser is able to read back, see C24:
   - scriptSigs survive (the parser may take the last push of a scriptSig for a
     redeem script, and writes both parts again), except in a coinbase input;
   - output scripts are shorter than 252 bytes;
   - upgraded Zcash cannot read some sizes *)
Definition coinbase_input (i : input) : Prop := in_txid i = repeat 0 32 /\ in_index i = [255; 255; 255; 255].
Definition parsable_in (net_name : str) (i : input) : Prop :=
  readable_size net_name (len (in_script i)) /\ (coinbase_input i \/ kept_script net_name (in_script i)).
Definition parsable_stack (net_name : str) (st : list bytes) : Prop :=
  readable_size net_name (count st) /\ Forall (fun s => readable_size net_name (len s)) st.
Definition kept_tx (net_name : str) (t : transaction) : Prop :=
  readable_size net_name (count (t_ins t)) /\ readable_size net_name (count (t_outs t)) /\
  Forall (parsable_in net_name) (t_ins t) /\
  match t_witness t with Some ws => Forall (parsable_stack net_name) ws | None => True end.
Definition parsable (net_name : str) (t : transaction) : Prop :=
  kept_tx net_name t /\ Forall (fun o => len (out_script o) < 252) (t_outs t).
