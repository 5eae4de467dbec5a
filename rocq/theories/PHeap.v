(* C62: objects of the transaction classes behave as the values of MTx.v.
   [is_outpoint] ... [is_tx], [sequence_of] are in SHeapTx.v; [run] is any
   sequence of operations of a program (MHeap.v); [closed] (LHeap.v) says that the
   _bytes attributes in the heap refer to cells of the heap. *)
From Coq Require Import String.
From Verif Require Import Py SHash LBase MNet MUtils MShared MTx MHeap MHeapTx SHeap SHeapTx LHeap LHeapTx.
Open Scope list_scope.
Open Scope Z_scope.

(* += on byte-like values appends the bytes *)
Theorem iadd_appends : forall h v w h' v' a b, content h v = Some a -> content h w = Some b ->
  iadd h v w = Ok (h', v') -> content h' v' = Some (a ++ b).
Proof. exact iadd_content. Qed.
Print Assumptions iadd_appends.

(* each constructor, given bytes and objects, returns an object with the fields
   and bytes of the record, or raises the same exception *)
Theorem outpoint_object : forall h tx_id index, closed h ->
  match Outpoint (Some tx_id) (Some index) with
  | Ok o => exists h' l, new_outpoint h (VB tx_id) (VB index) = Ok (h', l) /\ is_outpoint h' (VRef l) o /\ closed h'
  | Err e => new_outpoint h (VB tx_id) (VB index) = Err e
  end.
Proof. intros h a b Cl. exact (outpoint_agrees h Cl a b). Qed.
Print Assumptions outpoint_object.
Theorem txin_object : forall h o v stack redeem sequence, closed h -> is_outpoint h v o ->
  match TxIn o stack redeem sequence with
  | Ok i => exists h' l, new_txin h v (VB stack) (VB redeem) (VB sequence) = Ok (h', l) /\ is_txin h' (VRef l) i /\ closed h'
  | Err e => new_txin h v (VB stack) (VB redeem) (VB sequence) = Err e
  end.
Proof. intros h o v s r q Cl. exact (txin_agrees h Cl o v s r q). Qed.
Print Assumptions txin_object.
Theorem txout_object : forall h value script, closed h ->
  match TxOut value script with
  | Ok o => exists h' l, new_txout h (VB value) (VB script) = Ok (h', l) /\ is_txout h' (VRef l) o /\ closed h'
  | Err e => new_txout h (VB value) (VB script) = Err e
  end.
Proof. intros h v s Cl. exact (txout_agrees h Cl v s). Qed.
Print Assumptions txout_object.
Theorem witness_item_object : forall h b, closed h ->
  match WitnessStackItem b with
  | Ok i => exists h' l, new_item h (VB b) = Ok (h', l) /\ is_item h' (VRef l) i /\ closed h'
  | Err e => new_item h (VB b) = Err e
  end.
Proof. intros h b Cl. exact (item_agrees h Cl b). Qed.
Print Assumptions witness_item_object.
Theorem witness_object : forall h v stack, closed h -> sequence_of h (is_item h) v stack ->
  match InputWitness stack with
  | Ok w => exists h' l, new_witness h v = Ok (h', l) /\ is_witness h' (VRef l) w /\ closed h'
  | Err e => new_witness h v = Err e
  end.
Proof. intros h v l Cl. exact (witness_agrees h Cl v l). Qed.
Print Assumptions witness_object.
Theorem tx_object : forall H net h version flag vi ins vo outs vw wits lock, closed h ->
  sequence_of h (is_txin h) vi ins -> sequence_of h (is_txout h) vo outs -> optional_sequence_of h (is_witness h) vw wits ->
  match Tx H net version flag ins outs wits lock with
  | Ok t => exists h' l, new_tx H net h (VB version) (optional flag) vi vo vw (VB lock) = Ok (h', l) /\ is_tx h' (VRef l) t /\ closed h'
  | Err e => new_tx H net h (VB version) (optional flag) vi vo vw (VB lock) = Err e
  end.
Proof. intros H net h v f vi ins vo outs vw ws lt Cl. exact (tx_agrees h Cl H net v f vi ins vo outs vw ws lt). Qed.
Print Assumptions tx_object.

(* whatever a program does afterwards - to the lists it passed, to other objects
   or to this one - the object stays that transaction *)
Theorem tx_object_forever : forall h v t ops, is_tx h v t -> is_tx (run h ops) v t.
Proof. intros h v t ops. apply tx_preserved, run_preserves. Qed.
Print Assumptions tx_object_forever.
Theorem part_object_forever : forall h v ops,
  (forall o, is_outpoint h v o -> is_outpoint (run h ops) v o) /\ (forall i, is_txin h v i -> is_txin (run h ops) v i) /\
  (forall o, is_txout h v o -> is_txout (run h ops) v o) /\ (forall w, is_witness h v w -> is_witness (run h ops) v w).
Proof.
  intros h v ops. pose proof (run_preserves ops h) as P.
  split; [|split; [|split]]; intros x; [apply outpoint_preserved|apply txin_preserved|apply txout_preserved|apply witness_preserved]; exact P.
Qed.
Print Assumptions part_object_forever.

(* reading wtx_id_le from a transaction without witnesses fails *)
Theorem wtx_id_le_missing : forall h l t, is_tx h (VRef l) t ->
  getattr h l (lit "wtx_id_le") = match tx_wtx_id_le t with Some b => Ok (VB b) | None => Err AttributeError end.
Proof.
  intros h l t [ins [outs [wits [_ [_ [_ [l' [attrs [E [N [A _]]]]]]]]]]]. injection E as <-. unfold getattr. rewrite N, A.
  destruct (tx_wtx_id_le t); reflexivity.
Qed.
Print Assumptions wtx_id_le_missing.

(* a transaction with one input and one output from lists, one of which is then emptied *)
Example tx_object_ex :
  let made :=
    ' (h, o) <- new_outpoint [] (VB (zrepeat 7 32)) (VB [1; 2; 3; 4]) ;;
    ' (h, i) <- new_txin h (VRef o) (VB [0x51]) (VB []) (VB [9; 9; 9; 9]) ;;
    ' (h, p) <- new_txout h (VB (zrepeat 3 8)) (VB [0x52]) ;;
    let h := h ++ [CList [VRef i]; CList [VRef p]] in
    let n := length h in
    ' (h, l) <- new_tx toy BitcoinMain h (VB [1; 0; 0; 0]) VNone (VRef (n - 2)) (VRef (n - 1)) VNone (VB [0; 0; 0; 0]) ;;
    Ok (h, l, n, i) in
  match made with
  | Ok (h, l, n, i) =>
      let h' := run h [OMutateList (n - 2) []; OAttrIadd l (lit "tx_ins") (VTuple [VNone]); OSetattr l (lit "flag") (VB [])] in
      items h (VRef (n - 2)) = Some [VRef i] /\ items h' (VRef (n - 2)) = Some [] /\
      getattr h' l (lit "tx_ins") = Ok (VTuple [VRef i]) /\ getattr h' l (lit "flag") = Ok VNone /\
      content h' (VRef l) = Some ([1; 0; 0; 0] ++ [1] ++ (zrepeat 7 32 ++ [1; 2; 3; 4] ++ [1; 0x51] ++ [9; 9; 9; 9]) ++
                                  [1] ++ (zrepeat 3 8 ++ [1; 0x52]) ++ [0; 0; 0; 0])
  | Err _ => False
  end.
Proof. vm_compute. repeat split. Qed.
