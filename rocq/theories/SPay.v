(* Paying to an address and spending what was paid: the outputs that inputs refer to, and
   the steps of a wallet *)
From Verif Require Import Py MNet MUtils MAddr MScript MTx MBuilder SNum SNet SHash SAddr STx SSig SInterp SSign.
Open Scope list_scope.
Open Scope Z_scope.

(* input i refers to output o of transaction t *)
Definition refers (H : hashes) (name : str) (i : input) (t : transaction) (o : output) : Prop :=
  in_txid i = double_hash H name (wire_tx (stripped t)) /\
  nth_error (t_outs t) (Z.to_nat (le_value (in_index i))) = Some o.

(* every input of t spends an output of a known transaction *)
Definition valid (W : world) (H : hashes) (name : str) (known : list transaction) (t : transaction) : Prop :=
  forall n i, nth_error (t_ins t) n = Some i ->
    exists t0 o, In t0 known /\ refers H name i t0 o /\ accepted W H name t n (out_value o) (out_script o) = true.

(* a payment that somebody received: output number c_at of c_from *)
Record coin := { c_from : tx; c_at : Z; c_value : Z; c_key : bytes }.

(* o is that output; it was made for the address of the key *)
Definition received (H : hashes) (net : network) (witness : bool) (c : coin) (o : txout) : Prop :=
  nth_error (tx_tx_outs (c_from c)) (Z.to_nat (c_at c)) = Some o /\
  exists cashaddr s, make_pkh_address H net (c_key c) witness cashaddr = Ok (Some s) /\ simple_output H net (c_value c) s = Ok (AnyOut o).

(* i is made by simple.py as the input that spends it *)
Definition claimed (net : network) (c : coin) (i : txin) : Prop :=
  exists o sequence, simple_outpoint net (hex (tx_tx_id (c_from c))) (c_at c) None = Ok (AnyOutpoint o) /\
    simple_unsigned_input net (AnyOutpoint o) sequence = Ok (AnyIn i).
