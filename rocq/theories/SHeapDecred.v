(* C72, C73: when a heap object is a given Decred transaction or part of one.  The
   records (doutpoint, dtxin, ...) are those of MDecred.v. *)
From Coq Require Import String.
From Verif Require Import Py MDecred MHeap SHeap SHeapTx.
Open Scope list_scope.
Open Scope Z_scope.

Definition is_doutpoint (h : heap) (v : val) (o : doutpoint) : Prop :=
  object h v (dop_bytes o)
    [(lit "tx_id", VB (dop_tx_id o)); (lit "index", VB (dop_index o)); (lit "tree", VB (dop_tree o))].

Definition is_dtxin (h : heap) (v : val) (i : dtxin) : Prop :=
  exists o, is_doutpoint h o (dti_outpoint i) /\
    object h v (dti_bytes i) [(lit "outpoint", o); (lit "sequence", VB (dti_sequence i))].

Definition is_dtxout (h : heap) (v : val) (o : dtxout) : Prop :=
  object h v (dto_bytes o)
    [(lit "value", VB (dto_value o)); (lit "version", VB (dto_version o));
     (lit "output_script_len", VInt (dto_output_script_len o)); (lit "output_script", VB (dto_output_script o))].

Definition is_dwitness (h : heap) (v : val) (w : dwitness) : Prop :=
  object h v (dw_bytes w)
    [(lit "value", VB (dw_value w)); (lit "height", VB (dw_height w)); (lit "index", VB (dw_index w));
     (lit "script_len", VInt (dw_script_len w)); (lit "stack_script", VB (dw_stack_script w));
     (lit "redeem_script", VB (dw_redeem_script w)); (lit "script_sig", VB (dw_script_sig w))].

(* v refers to an immutable object with these bytes and exactly these
   attributes; what the attributes refer to may change *)
Definition sealed (h : heap) (v : val) (b : bytes) (fields : list (str * val)) : Prop :=
  exists l attrs, v = VRef l /\ nth_error h l = Some (CObj true attrs) /\
    (forall k, assoc k attrs = assoc k ((lit "_bytes", VB b) :: fields)).

(* the object has the bytes and ids of t, and vi, vo, vw as its lists *)
Definition dtx_shell (h : heap) (v : val) (t : dtx) (vi vo vw : val) : Prop :=
  sealed h v (dtx_bytes t)
    [(lit "version", VB (dtx_version t)); (lit "tx_ins", vi); (lit "tx_outs", vo);
     (lit "lock_time", VB (dtx_lock_time t)); (lit "expiry", VB (dtx_expiry t)); (lit "tx_witnesses", vw);
     (lit "tx_id_le", VB (dtx_tx_id_le t)); (lit "tx_id", VB (dtx_tx_id t))].

(* the three lists contain these inputs, outputs and witnesses now *)
Definition lists_hold (h : heap) (vi vo vw : val) (ins : list dtxin) (outs : list dtxout) (wits : list dwitness) : Prop :=
  sequence_of h (is_dtxin h) vi ins /\ sequence_of h (is_dtxout h) vo outs /\ sequence_of h (is_dwitness h) vw wits.

(* the object is the transaction t *)
Definition is_dtx (h : heap) (v : val) (t : dtx) : Prop :=
  exists vi vo vw, dtx_shell h v t vi vo vw /\
    lists_hold h vi vo vw (dtx_tx_ins t) (dtx_tx_outs t) (dtx_tx_witnesses t).

(* t with other lists, but its own bytes and ids *)
Definition with_lists (t : dtx) (ins : list dtxin) (outs : list dtxout) (wits : list dwitness) : dtx :=
  {| dtx_version := dtx_version t; dtx_tx_ins := ins; dtx_tx_outs := outs;
     dtx_lock_time := dtx_lock_time t; dtx_expiry := dtx_expiry t; dtx_tx_witnesses := wits;
     dtx_tx_id_le := dtx_tx_id_le t; dtx_tx_id := dtx_tx_id t; dtx_bytes := dtx_bytes t |}.

(* an argument that may be left out, or else the attribute *)
Definition given (argument attribute : val) : val := match argument with VNone => attribute | _ => argument end.
