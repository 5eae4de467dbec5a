(* Decred transactions: full, prefix-only and witness-signing serializations, and
   signature digests (dcrd wire/msgtx.go and txscript/sighash.go).
   Independent of the model, except that the last part says which fields of the
   model's objects are meant. *)
From Coq Require Import String.
From Verif Require Import Py SNum SNet STx SSig MNet MUtils MShared MTx MDecred.
Open Scope list_scope.
Open Scope Z_scope.

Record dinput := { di_txid : bytes; di_index : bytes; di_tree : bytes; di_sequence : bytes }.
Record doutput := { do_value : bytes; do_version : bytes; do_script : bytes }.
(* the witness of an input: what it spends, and its signature script *)
Record dspend := { ds_value : bytes; ds_height : bytes; ds_index : bytes; ds_script : bytes }.
Record dtransaction := {
  d_version : bytes;
  d_ins : list dinput;
  d_outs : list doutput;
  d_lock : bytes;
  d_expiry : bytes;
  d_spends : list dspend
}.

Definition dinput_wire (i : dinput) : bytes := di_txid i ++ di_index i ++ di_tree i ++ di_sequence i.
Definition doutput_wire (o : doutput) : bytes := do_value o ++ do_version o ++ string_wire (do_script o).
Definition dspend_wire (s : dspend) : bytes := ds_value s ++ ds_height s ++ ds_index s ++ string_wire (ds_script s).

Definition dprefix_body (t : dtransaction) : bytes :=
  vector_wire dinput_wire (d_ins t) ++ vector_wire doutput_wire (d_outs t) ++ d_lock t ++ d_expiry t.
(* the full transaction *)
Definition dwire (t : dtransaction) : bytes :=
  d_version t ++ dprefix_body t ++ vector_wire dspend_wire (d_spends t).
(* the upper half of the version tells what follows: 1 the prefix only, 2 the
   witnesses, 3 the scripts that are signed *)
Definition dprefix_wire (t : dtransaction) : bytes := firstn 2 (d_version t) ++ [1; 0] ++ dprefix_body t.
Definition dwitness_wire (t : dtransaction) : bytes :=
  firstn 2 (d_version t) ++ [2; 0] ++ vector_wire dspend_wire (d_spends t).
Definition dsigning_wire (version : bytes) (scripts : list bytes) : bytes :=
  firstn 2 version ++ [3; 0] ++ vector_wire string_wire scripts.

(** * Signature digests *)

Definition dwith_sequence (q : bytes) (i : dinput) : dinput :=
  {| di_txid := di_txid i; di_index := di_index i; di_tree := di_tree i; di_sequence := q |}.
Definition dother_input (ty : sigtype) (i : dinput) : dinput :=
  match ty with All => i | Single => dwith_sequence [0; 0; 0; 0] i end.
(* the outputs before the signed one: value -1, no script *)
Definition dnull_output : doutput := {| do_value := repeat 255 8; do_version := [0; 0]; do_script := [] |}.

Definition with_ins_outs (ins : list dinput) (outs : list doutput) (t : dtransaction) : dtransaction :=
  {| d_version := d_version t; d_ins := ins; d_outs := outs; d_lock := d_lock t; d_expiry := d_expiry t; d_spends := d_spends t |}.

(* the transaction whose prefix is signed *)
Definition dsigned_tx (ty : sigtype) (anyone : bool) (n : nat) (t : dtransaction) : dtransaction :=
  let signed := firstn 1 (skipn n (d_ins t)) in
  with_ins_outs
    (if anyone then signed
     else map (dother_input ty) (firstn n (d_ins t)) ++ signed ++ map (dother_input ty) (skipn (S n) (d_ins t)))
    (match ty with All => d_outs t | Single => repeat dnull_output n ++ firstn 1 (skipn n (d_outs t)) end)
    t.
(* the scripts that are signed: the script code at the place of the signed input *)
Definition dscripts (k n : nat) (code : bytes) : list bytes := repeat [] n ++ code :: repeat [] (k - S n).
Definition dsigned_scripts (anyone : bool) (n : nat) (code : bytes) (t : dtransaction) : list bytes :=
  if anyone then [code] else dscripts (length (d_ins t)) n code.

Definition dpreimage (hash : bytes -> bytes) ty anyone n code t : bytes :=
  le_bytes 4 (type_number ty anyone) ++ hash (dprefix_wire (dsigned_tx ty anyone n t)) ++
  hash (dsigning_wire (d_version t) (dsigned_scripts anyone n code t)).

(** * What the library hashes *)

(* as many outputs as there are inputs, and all inputs even with ANYONECANPAY *)
Definition dlib_tx (ty : sigtype) (n : nat) (t : dtransaction) : dtransaction :=
  with_ins_outs (d_ins (dsigned_tx ty false n t))
    (match ty with
     | All => d_outs t
     | Single => repeat dnull_output n ++ firstn 1 (skipn n (d_outs t)) ++ repeat dnull_output (length (d_ins t) - S n)
     end) t.
Definition dlib_preimage (hash : bytes -> bytes) ty anyone n code t : bytes :=
  le_bytes 4 (type_number ty anyone) ++ hash (dprefix_wire (dlib_tx ty n t)) ++
  hash (dsigning_wire (d_version t) (dscripts (length (d_spends t)) n code)).
(* the transaction with the scripts to sign in place of the signature scripts *)
Definition dwith_script (code : bytes) (s : dspend) : dspend :=
  {| ds_value := ds_value s; ds_height := ds_height s; ds_index := ds_index s; ds_script := code |}.
Definition dsigning_copy (n : nat) (code : bytes) (t : dtransaction) : dtransaction :=
  {| d_version := d_version t; d_ins := d_ins t; d_outs := d_outs t; d_lock := d_lock t; d_expiry := d_expiry t;
     d_spends := map (dwith_script []) (firstn n (d_spends t)) ++ map (dwith_script code) (firstn 1 (skipn n (d_spends t))) ++
                 map (dwith_script []) (skipn (S n) (d_spends t)) |}.
(* transactions have at most 100000 bytes *)
Definition fits (t : dtransaction) : bool := len (dwire t) <=? 100000.

(** * The model's objects *)

Section Objects.
  Context (H : hashes) (net : network).
  Definition doutpoint_obj (o : doutpoint) : Prop := DecredOutpoint net (dop_tx_id o) (dop_index o) (dop_tree o) = Ok o.
  Definition dtxin_obj (i : dtxin) : Prop :=
    doutpoint_obj (dti_outpoint i) /\ DecredTxIn net (dti_outpoint i) (dti_sequence i) = Ok i.
  Definition dtxout_obj (o : dtxout) : Prop := DecredTxOut net (dto_value o) (Some (dto_version o)) (dto_output_script o) = Ok o.
  Definition dwitness_obj (w : dwitness) : Prop :=
    DecredInputWitness net (dw_value w) (dw_height w) (dw_index w) (dw_stack_script w) (dw_redeem_script w) = Ok w.
  Definition dtx_obj (t : dtx) : Prop :=
    Forall dtxin_obj (dtx_tx_ins t) /\ Forall dtxout_obj (dtx_tx_outs t) /\ Forall dwitness_obj (dtx_tx_witnesses t) /\
    DecredTx H net (dtx_version t) (dtx_tx_ins t) (dtx_tx_outs t) (dtx_lock_time t) (dtx_expiry t) (dtx_tx_witnesses t) = Ok t.
End Objects.

Definition the_dinput (i : dtxin) : dinput :=
  {| di_txid := dop_tx_id (dti_outpoint i); di_index := dop_index (dti_outpoint i); di_tree := dop_tree (dti_outpoint i);
     di_sequence := dti_sequence i |}.
Definition the_doutput (o : dtxout) : doutput :=
  {| do_value := dto_value o; do_version := dto_version o; do_script := dto_output_script o |}.
Definition the_dspend (w : dwitness) : dspend :=
  {| ds_value := dw_value w; ds_height := dw_height w; ds_index := dw_index w; ds_script := dw_script_sig w |}.
Definition the_dtx (t : dtx) : dtransaction :=
  {| d_version := dtx_version t; d_ins := map the_dinput (dtx_tx_ins t); d_outs := map the_doutput (dtx_tx_outs t);
     d_lock := dtx_lock_time t; d_expiry := dtx_expiry t; d_spends := map the_dspend (dtx_tx_witnesses t) |}.
(* well-formed parts: fixed widths, and sizes that CompactSize can express *)
Definition dinput_ok (i : dinput) : Prop :=
  len (di_txid i) = 32 /\ len (di_index i) = 4 /\ len (di_tree i) = 1 /\ len (di_sequence i) = 4.
Definition doutput_ok (o : doutput) : Prop := len (do_value o) = 8 /\ len (do_version o) = 2 /\ len (do_script o) < 2 ^ 64.
Definition dspend_ok (s : dspend) : Prop :=
  len (ds_value s) = 8 /\ len (ds_height s) = 4 /\ len (ds_index s) = 4 /\ len (ds_script s) < 2 ^ 64.
Definition dtransaction_ok (t : dtransaction) : Prop :=
  len (d_version t) = 4 /\ len (d_lock t) = 4 /\ len (d_expiry t) = 4 /\ 1 <= count (d_ins t) /\ 1 <= count (d_outs t) /\
  Forall dinput_ok (d_ins t) /\ Forall doutput_ok (d_outs t) /\ Forall dspend_ok (d_spends t) /\ len (dwire t) <= 100000.
(* the call for a hash type *)
Definition ddigest (H : hashes) ty (net : network) (t : dtx) (n : Z) (script : option bytes) (anyone : bool) : res bytes :=
  match ty with
  | All => decred_sighash_all H net t n script anyone
  | Single => decred_sighash_single H net t n script anyone
  end.

(** * What the digests cover *)

(* two signing requests agree on what a hash type covers in the library: with SINGLE
   too, all inputs (but not the sequence numbers of the others), and the
   number of witnesses *)
Definition dcovered_same (ty : sigtype) (n : nat) (t : dtransaction) (n' : nat) (t' : dtransaction) : Prop :=
  firstn 2 (d_version t) = firstn 2 (d_version t') /\ d_lock t = d_lock t' /\ d_expiry t = d_expiry t' /\
  map (dwith_sequence []) (d_ins t) = map (dwith_sequence []) (d_ins t') /\
  (ty = All -> d_ins t = d_ins t' /\ d_outs t = d_outs t') /\
  (ty = Single -> nth_error (d_outs t) n = nth_error (d_outs t') n') /\
  length (d_spends t) = length (d_spends t').
(* the messages hashed for a digest *)
Definition dmessages hash ty anyone n code t : list bytes :=
  [dlib_preimage hash ty anyone n code t; dprefix_wire (dlib_tx ty n t); dsigning_wire (d_version t) (dscripts (length (d_spends t)) n code)].
(* the messages of the digest that Decred defines *)
Definition dspec_messages hash ty anyone n code t : list bytes :=
  [dpreimage hash ty anyone n code t; dprefix_wire (dsigned_tx ty anyone n t); dsigning_wire (d_version t) (dsigned_scripts anyone n code t)].
