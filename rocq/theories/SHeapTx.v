(* C62: when a heap object is a given transaction or part of one.  The records
   (outpoint, txin, ...) are those of MTx.v, [frozen] is in SHeap.v. *)
From Coq Require Import String.
From Verif Require Import Py MTx MHeap SHeap.
Open Scope list_scope.
Open Scope Z_scope.

(* v refers to an immutable object with these bytes and exactly these
   attributes, from which nothing mutable can be reached *)
Definition object (h : heap) (v : val) (b : bytes) (fields : list (str * val)) : Prop :=
  exists l attrs, v = VRef l /\ nth_error h l = Some (CObj true attrs) /\
    (forall k, assoc k attrs = assoc k ((lit "_bytes", VB b) :: fields)) /\ frozen h v.

Definition is_outpoint (h : heap) (v : val) (o : outpoint) : Prop :=
  object h v (op_bytes o) [(lit "tx_id", VB (op_tx_id o)); (lit "index", VB (op_index o))].

Definition is_txin (h : heap) (v : val) (i : txin) : Prop :=
  exists o, is_outpoint h o (ti_outpoint i) /\
    object h v (ti_bytes i)
      [(lit "outpoint", o); (lit "stack_script", VB (ti_stack_script i)); (lit "redeem_script", VB (ti_redeem_script i));
       (lit "script_sig", VB (ti_script_sig i)); (lit "sequence", VB (ti_sequence i))].

Definition is_txout (h : heap) (v : val) (o : txout) : Prop :=
  object h v (to_bytes_ o) [(lit "value", VB (to_value o)); (lit "output_script", VB (to_output_script o))].

Definition is_item (h : heap) (v : val) (i : witem) : Prop := object h v (wi_bytes i) [(lit "item", VB (wi_item i))].

Definition is_witness (h : heap) (v : val) (w : witness) : Prop :=
  exists vs, Forall2 (is_item h) vs (wit_stack w) /\ object h v (wit_bytes w) [(lit "stack", VTuple vs)].

Definition optional (b : option bytes) : val := match b with Some b => VB b | None => VNone end.

(* None, or a sequence of objects *)
Definition is_optional_tuple {A} (is : val -> A -> Prop) (v : val) (l : option (list A)) : Prop :=
  match l with None => v = VNone | Some l => exists vs, v = VTuple vs /\ Forall2 is vs l end.

Definition is_tx (h : heap) (v : val) (t : tx) : Prop :=
  exists ins outs wits, Forall2 (is_txin h) ins (tx_tx_ins t) /\ Forall2 (is_txout h) outs (tx_tx_outs t) /\
    is_optional_tuple (is_witness h) wits (tx_tx_witnesses t) /\
    object h v (tx_bytes t)
      ([(lit "version", VB (tx_version t)); (lit "flag", optional (tx_flag t)); (lit "tx_ins", VTuple ins);
        (lit "tx_outs", VTuple outs); (lit "tx_witnesses", wits); (lit "lock_time", VB (tx_lock_time t));
        (lit "tx_id_le", VB (tx_tx_id_le t))] ++
       match tx_wtx_id_le t with
       | Some b => [(lit "wtx_id_le", VB b); (lit "tx_id", VB (tx_tx_id t)); (lit "wtx_id", optional (tx_wtx_id t))]
       | None => [(lit "tx_id", VB (tx_tx_id t)); (lit "wtx_id", optional (tx_wtx_id t)); (lit "wtx_le", VNone)]
       end).

(* the argument is a list object, or a tuple, of such objects *)
Definition sequence_of {A} (h : heap) (is : val -> A -> Prop) (v : val) (l : list A) : Prop :=
  exists vs, (v = VTuple vs \/ exists a, v = VRef a /\ nth_error h a = Some (CList vs)) /\ Forall2 is vs l.

Definition optional_sequence_of {A} (h : heap) (is : val -> A -> Prop) (v : val) (l : option (list A)) : Prop :=
  match l with None => v = VNone | Some l => sequence_of h is v l end.
