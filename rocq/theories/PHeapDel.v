(* Property C104: deleting attributes of immutable objects.  [frozen], [view] are in SHeap.v, [reaches], [can_write] in SHeapDel.v, [is_tx]
   in SHeapTx.v; [del_run] is any sequence of operations and deletions. *)
From Coq Require Import String.
From Verif Require Import Py SHash MNet MUtils MTx MHeap MHeapTx MHeapDel SHeap SHeapTx SHeapDel LHeap LHeapTx LHeapDel PHeap.
Open Scope list_scope.
Open Scope Z_scope.

(* C104, false: every attribute of every transaction object can be deleted, its bytes among them, and two statements replace
   its bytes by any others, while tx_id stays *)
Theorem deletion_refuted : forall h l t, is_tx h (VRef l) t ->
  (forall k v, k <> flag_name -> getattr h l k = Ok v ->
     getattr (del_run h [DDel l k]) l k = Err AttributeError) /\
  content (del_run h [DDel l (lit "_bytes")]) (VRef l) = None /\
  forall b, let h' := del_run h [DDel l flag_name; DOp (OSetattr l (lit "_bytes") (VB b))] in
    content h (VRef l) = Some (tx_bytes t) /\ content h' (VRef l) = Some b /\ getattr h' l (lit "tx_id") = Ok (VB (tx_tx_id t)).
Proof. exact tx_deletion_lemma. Qed.
Print Assumptions deletion_refuted.

(* exactly: what is deleted is gone and nothing else changes, whether the object is immutable or not *)
Theorem deletion_exact : forall h l k, k <> flag_name ->
  (forall v, getattr h l k = Ok v ->
     exists h', delattr h l k = Ok h' /\ getattr h' l k = Err AttributeError /\
       (forall l' k', l' <> l \/ k' <> k -> getattr h' l' k' = getattr h l' k') /\
       (k <> lit "_bytes" -> forall w, content h' w = content h w) /\
       (k = lit "_bytes" -> content h' (VRef l) = None) /\ (forall l', can_write h' l' <-> can_write h l')) /\
  (forall e, getattr h l k = Err e -> delattr h l k = Err AttributeError).
Proof.
  intros h l k N. split; [intros v; exact (deletion_lemma h l k v N)|intros e; exact (no_deletion h l k e N)].
Qed.
Print Assumptions deletion_exact.

(* exactly: without its flag an object can be written to again, and looks as before until then *)
Theorem flag_deletion : forall h l, (can_write h l -> delattr h l flag_name = Err AttributeError) /\
  forall attrs, nth_error h l = Some (CObj true attrs) ->
  exists h', delattr h l flag_name = Ok h' /\ (forall w, content h' w = content h w) /\ (forall l' k, getattr h' l' k = getattr h l' k) /\
    forall k v, exists h'', setattr h' l k v = Ok h'' /\ getattr h'' l k = Ok v /\
      (k = lit "_bytes" -> forall b, v = VB b -> content h'' (VRef l) = Some b).
Proof. intros h l. split; [exact (mutable_flag h l)|exact (thaw_lemma h l)]. Qed.
Print Assumptions flag_deletion.

(* C104, the part that holds: an object stays what it is while nothing is deleted from it or from what it consists of *)
Theorem spared_forever_partial : forall h v ops, frozen h v -> (forall l k, In (DDel l k) ops -> ~ reaches h v l) ->
  forall depth, view depth (del_run h ops) v = view depth h v.
Proof. exact spared_lemma. Qed.
Print Assumptions spared_forever_partial.

(* an outpoint, another one that loses its index and its flag and gets other bytes; the first stays *)
Example deletion_ex :
  let made :=
    ' (h, o) <- new_outpoint [] (VB (zrepeat 7 32)) (VB [1; 2; 3; 4]) ;;
    ' (h, p) <- new_outpoint h (VB (zrepeat 8 32)) (VB [5; 6; 7; 8]) ;;
    Ok (h, o, p) in
  match made with
  | Ok (h, o, p) =>
      let h' := del_run h [DDel p (lit "index"); DOp (OSetattr p (lit "index") VNone); DDel p flag_name;
                           DOp (OSetattr p (lit "_bytes") (VB [9]))] in
      getattr h' p (lit "index") = Err AttributeError /\ content h' (VRef p) = Some [9] /\
      getattr h' p (lit "tx_id") = Ok (VB (zrepeat 8 32)) /\
      content h' (VRef o) = Some (zrepeat 7 32 ++ [1; 2; 3; 4]) /\ view 3 h' (VRef o) = view 3 h (VRef o)
  | Err _ => False
  end.
Proof. vm_compute. repeat split. Qed.

(* there are transaction objects *)
Example deletion_refuted_ex : exists h l t, is_tx h (VRef l) t.
Proof.
  assert (closed []) as C0 by (intros l i attrs E; destruct l; discriminate E).
  destruct (outpoint_object [] (zrepeat 7 32) [1; 2; 3; 4] C0) as (h1 & l1 & _ & O & C1).
  destruct (txin_object h1 _ (VRef l1) [0x51] [] [9; 9; 9; 9] C1 O) as (h2 & l2 & _ & I & C2).
  destruct (txout_object h2 (zrepeat 3 8) [0x52] C2) as (h3 & l3 & N3 & U & C3).
  assert (preserves h2 h3) as Pr by exact (construct_preserves h2 [VB (zrepeat 3 8); VB [1]; VB [0x52]] _ h3 l3 N3).
  pose proof (txin_preserved h2 h3 Pr _ _ I) as I3.
  eassert (sequence_of h3 (is_txin h3) (VTuple [VRef l2]) [_]) as S1 by (exists [VRef l2]; split; [left; reflexivity|constructor; [exact I3|constructor]]).
  eassert (sequence_of h3 (is_txout h3) (VTuple [VRef l3]) [_]) as S2 by (exists [VRef l3]; split; [left; reflexivity|constructor; [exact U|constructor]]).
  destruct (tx_object toy BitcoinMain h3 [1; 0; 0; 0] None _ _ _ _ VNone None [0; 0; 0; 0] C3 S1 S2 eq_refl) as (h4 & l4 & _ & T & _).
  exists h4, l4. eexists. exact T.
Qed.
