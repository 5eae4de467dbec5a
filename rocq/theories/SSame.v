(* C105: what it means that two objects compare equal, and that they are the same thing *)
From Coq Require Import List ZArith.
From Verif Require Import Py MShared MNet MTx MDecred STx SDecred.
Open Scope list_scope.
Open Scope Z_scope.

(* an object whose bytes are b *)
Definition with_bytes (b : bytes) : pyvalue := VByteData {| bd_bytes := b; bd_immutable := true; bd_attrs := [] |}.
(* x == y, for objects with these bytes *)
Definition equal (a b : bytes) : Prop := py_eq (Err TypeError) (with_bytes a) (with_bytes b) = Ok true.

(* all that can be read from two transactions, except how script sigs are divided into stack script and redeem script,
   and whether there is no list of witnesses or an empty one *)
Definition same_tx (t u : tx) : Prop :=
  tx_bytes t = tx_bytes u /\ tx_version t = tx_version u /\ tx_flag t = tx_flag u /\
  map the_input (tx_tx_ins t) = map the_input (tx_tx_ins u) /\ tx_tx_outs t = tx_tx_outs u /\
  the_witnesses t = the_witnesses u /\ tx_lock_time t = tx_lock_time u /\
  tx_tx_id_le t = tx_tx_id_le u /\ tx_tx_id t = tx_tx_id u /\ tx_wtx_id_le t = tx_wtx_id_le u /\ tx_wtx_id t = tx_wtx_id u.
Definition same_decred (t u : dtx) : Prop :=
  dtx_bytes t = dtx_bytes u /\ dtx_version t = dtx_version u /\ dtx_tx_ins t = dtx_tx_ins u /\ dtx_tx_outs t = dtx_tx_outs u /\
  dtx_lock_time t = dtx_lock_time u /\ dtx_expiry t = dtx_expiry u /\
  map the_dspend (dtx_tx_witnesses t) = map the_dspend (dtx_tx_witnesses u) /\
  dtx_tx_id_le t = dtx_tx_id_le u /\ dtx_tx_id t = dtx_tx_id u.
