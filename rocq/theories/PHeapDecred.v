(* C72, C73: objects of the Decred classes.  [is_doutpoint] ... [is_dtx],
   [dtx_shell], [lists_hold] are in SHeapDecred.v; [run] is any sequence of
   operations of a program (MHeap.v); [closed] (LHeap.v) says that the _bytes
   attributes in the heap refer to cells of the heap. *)
From Coq Require Import String.
From Verif Require Import Py SHash LBase MNet MUtils MShared MTx MDecred MHeap MHeapTx MHeapDecred SHeap SHeapTx SHeapDecred LHeap LHeapTx LHeapDecred.
Open Scope list_scope.
Open Scope Z_scope.

(* C73: each constructor, given bytes and objects, returns an object with the
   fields and bytes of the record, or raises the same exception *)
Theorem decred_outpoint_object : forall net h tx_id index tree, closed h ->
  match DecredOutpoint net tx_id index tree with
  | Ok o => exists h' l, new_doutpoint net h (VB tx_id) (VB index) (VB tree) = Ok (h', l) /\ is_doutpoint h' (VRef l) o /\ closed h'
  | Err e => new_doutpoint net h (VB tx_id) (VB index) (VB tree) = Err e
  end.
Proof. intros net h a b c Cl. exact (doutpoint_agrees net h Cl a b c). Qed.
Print Assumptions decred_outpoint_object.
Theorem decred_txin_object : forall net h v o sequence, closed h -> is_doutpoint h v o ->
  match DecredTxIn net o sequence with
  | Ok i => exists h' l, new_dtxin net h v (VB sequence) = Ok (h', l) /\ is_dtxin h' (VRef l) i /\ closed h'
  | Err e => new_dtxin net h v (VB sequence) = Err e
  end.
Proof. intros net h v o q Cl. exact (dtxin_agrees net h Cl o v q). Qed.
Print Assumptions decred_txin_object.
Theorem decred_txout_object : forall net h value version script, closed h ->
  match DecredTxOut net value (Some version) script with
  | Ok o => exists h' l, new_dtxout net h (VB value) (VB version) (VB script) = Ok (h', l) /\ is_dtxout h' (VRef l) o /\ closed h'
  | Err e => new_dtxout net h (VB value) (VB version) (VB script) = Err e
  end.
Proof. intros net h a v s Cl. exact (dtxout_agrees net h Cl a v s). Qed.
Print Assumptions decred_txout_object.
Theorem decred_witness_object : forall net h value height index stack redeem, closed h ->
  match DecredInputWitness net value height index stack redeem with
  | Ok w => exists h' l, new_dwitness net h (VB value) (VB height) (VB index) (VB stack) (VB redeem) = Ok (h', l) /\ is_dwitness h' (VRef l) w /\ closed h'
  | Err e => new_dwitness net h (VB value) (VB height) (VB index) (VB stack) (VB redeem) = Err e
  end.
Proof. intros net h a g i s r Cl. exact (dwitness_agrees net h Cl a g i s r). Qed.
Print Assumptions decred_witness_object.
Theorem decred_part_forever : forall h v ops,
  (forall o, is_doutpoint h v o -> is_doutpoint (run h ops) v o) /\ (forall i, is_dtxin h v i -> is_dtxin (run h ops) v i) /\
  (forall o, is_dtxout h v o -> is_dtxout (run h ops) v o) /\ (forall w, is_dwitness h v w -> is_dwitness (run h ops) v w).
Proof.
  intros h v ops. pose proof (run_preserves ops h) as P.
  split; [|split; [|split]]; intros x; [apply doutpoint_preserved|apply dtxin_preserved|apply dtxout_preserved|apply dwitness_preserved]; exact P.
Qed.
Print Assumptions decred_part_forever.

(* a new transaction: its lists are the arguments, not copies of them *)
Theorem decred_tx_object : forall H net h version vi vo lock expiry vw ins outs wits, closed h ->
  lists_hold h vi vo vw ins outs wits ->
  match DecredTx H net version ins outs lock expiry wits with
  | Ok t => exists h' l, new_dtx H net h (VB version) vi vo (VB lock) (VB expiry) vw = Ok (h', l) /\
              is_dtx h' (VRef l) t /\ dtx_shell h' (VRef l) t vi vo vw /\ closed h'
  | Err e => new_dtx H net h (VB version) vi vo (VB lock) (VB expiry) vw = Err e
  end.
Proof.
  intros H net h v vi vo lt ex vw ins outs wits Cl L. pose proof (dtx_agrees H net h Cl v vi vo lt ex vw ins outs wits L) as A.
  destruct (DecredTx H net v ins outs lt ex wits) as [t|e] eqn:E; [|exact A]. destruct A as [h' [l [N [Sh [C [P O]]]]]].
  exists h', l. split; [exact N|]. split; [|split; assumption]. exists vi, vo, vw. split; [exact Sh|].
  assert (dtx_tx_ins t = ins /\ dtx_tx_outs t = outs /\ dtx_tx_witnesses t = wits) as [-> [-> ->]].
  { revert E. unfold DecredTx. intros E. repeat (let x := fresh in apply bind_Ok in E; destruct E as [x [_ E]]).
    apply Ok_inj in E. subst t. repeat split. }
  apply (lists_preserved h); [exact P| |exact L]. intros a I. apply O.
  destruct L as [[x [Qx _]] [[y [Qy _]] [z [Qz _]]]].
  assert (forall v vs, (v = VTuple vs \/ exists a, v = VRef a /\ nth_error h a = Some (CList vs)) -> v = VRef a -> (a < length h)%nat) as K.
  { intros w ws [->|[b [-> Nb]]] X; [discriminate|]. injection X as ->. eapply nth_lt, Nb. }
  destruct I as [I|[I|[I|[]]]]; [exact (K _ _ Qx I)|exact (K _ _ Qy I)|exact (K _ _ Qz I)].
Qed.
Print Assumptions decred_tx_object.

(* whatever a program does afterwards, the bytes, the ids and the other attributes stay, ... *)
Theorem decred_tx_shell_forever : forall h v t vi vo vw ops, dtx_shell h v t vi vo vw -> dtx_shell (run h ops) v t vi vo vw.
Proof. intros h v t vi vo vw ops. apply dtx_shell_preserved, run_preserves. Qed.
Print Assumptions decred_tx_shell_forever.
(* ... and the methods read what the lists contain at that time *)
Theorem decred_tx_methods : forall H h l t vi vo vw ins outs wits,
  dtx_shell h (VRef l) t vi vo vw -> lists_hold h vi vo vw ins outs wits ->
  let now := with_lists t ins outs wits in
  content h (VRef l) = Some (dtx_bytes t) /\ dtx_prefix_hash H h l = Ok (dtx_tx_id_le t) /\
  dtx_prefix h l = decred_prefix now /\ dtx_witness h l = decred_witness now /\
  dtx_witness_signing h l = decred_witness_signing now /\ dtx_calculate_fee h l = Ok (decred_calculate_fee now).
Proof.
  intros H h l t vi vo vw ins outs wits Sh L. cbv zeta.
  split; [|split; [|split; [|split; [|split]]]].
  - destruct Sh as [l' [a [E [N A]]]]. injection E as <-. unfold content. rewrite N, A. reflexivity.
  - exact (prefix_hash_kept H h l t vi vo vw Sh).
  - exact (prefix_now h l t vi vo vw ins outs wits Sh L).
  - exact (witness_now h l t vi vo vw ins outs wits Sh L).
  - exact (witness_signing_now h l t vi vo vw ins outs wits Sh L).
  - exact (fee_now h l t vi vo vw ins outs wits Sh L).
Qed.
Print Assumptions decred_tx_methods.
(* copy takes the arguments it is given, and otherwise what the lists contain at that time *)
Theorem decred_tx_copy : forall H net h l t vi vo vw version ai ao lock expiry aw ins outs wits, closed h ->
  dtx_shell h (VRef l) t vi vo vw -> lists_hold h (given ai vi) (given ao vo) (given aw vw) ins outs wits ->
  match DecredTx H net (or_self version (dtx_version t)) ins outs (or_self lock (dtx_lock_time t)) (or_self expiry (dtx_expiry t)) wits with
  | Ok c => exists h' l', dtx_copy H net h l (optional version) ai ao (optional lock) (optional expiry) aw = Ok (h', l') /\
              is_dtx h' (VRef l') c /\ dtx_shell h' (VRef l') c (given ai vi) (given ao vo) (given aw vw) /\ closed h'
  | Err e => dtx_copy H net h l (optional version) ai ao (optional lock) (optional expiry) aw = Err e
  end.
Proof.
  intros H net h l t vi vo vw version ai ao lock expiry aw ins outs wits Cl Sh L.
  rewrite (copy_given H net h l t vi vo vw version ai ao lock expiry aw Sh). apply decred_tx_object; assumption.
Qed.
Print Assumptions decred_tx_copy.

(* C72: a transaction made from tuples stays that transaction; one made from
   lists does as long as the three list objects are not changed *)
Theorem decred_tx_forever_partial : forall h v t vi vo vw ops, dtx_shell h v t vi vo vw ->
  lists_hold h vi vo vw (dtx_tx_ins t) (dtx_tx_outs t) (dtx_tx_witnesses t) ->
  (forall a, In (VRef a) [vi; vo; vw] -> nth_error (run h ops) a = nth_error h a) -> is_dtx (run h ops) v t.
Proof.
  intros h v t vi vo vw ops Sh L K. exists vi, vo, vw. split; [apply (dtx_shell_preserved h), Sh; apply run_preserves|].
  apply (lists_preserved h); [apply run_preserves|exact K|exact L].
Qed.
Print Assumptions decred_tx_forever_partial.
Theorem decred_tx_tuples_forever : forall h v t is os ws ops, dtx_shell h v t (VTuple is) (VTuple os) (VTuple ws) ->
  lists_hold h (VTuple is) (VTuple os) (VTuple ws) (dtx_tx_ins t) (dtx_tx_outs t) (dtx_tx_witnesses t) -> is_dtx (run h ops) v t.
Proof.
  intros h v t is os ws ops Sh L. apply (decred_tx_forever_partial h v t _ _ _ ops Sh L).
  intros a [I|[I|[I|[]]]]; discriminate.
Qed.
Print Assumptions decred_tx_tuples_forever.

(* C72 fails for lists: after the caller appends to the list of inputs, the
   transaction has one more input, but its bytes and its id are the old ones: its
   id is not the hash of its prefix, and its copy has other bytes and another id *)
Definition dtx_ex : res (heap * nat * nat * nat) :=
  ' (h, o) <- new_doutpoint DecredMain [] (VB (zrepeat 7 32)) (VB [1; 2; 3; 4]) (VB [0]) ;;
  ' (h, i) <- new_dtxin DecredMain h (VRef o) (VB [9; 9; 9; 9]) ;;
  ' (h, p) <- new_dtxout DecredMain h (VB [3; 0; 0; 0; 0; 0; 0; 0]) (VB [0; 0]) (VB [0x52]) ;;
  ' (h, w) <- new_dwitness DecredMain h (VB [5; 0; 0; 0; 0; 0; 0; 0]) (VB [1; 0; 0; 0]) (VB [2; 0; 0; 0]) (VB [0x51]) (VB [0x53]) ;;
  let h := h ++ [CList [VRef i]; CList [VRef p]; CList [VRef w]] in
  let n := (length h - 3)%nat in
  ' (h, l) <- new_dtx toy DecredMain h (VB [1; 0; 0; 0]) (VRef n) (VRef (1 + n)) (VB [0; 0; 0; 0]) (VB [0; 0; 0; 0]) (VRef (2 + n)) ;;
  Ok (h, l, n, i).
Theorem decred_tx_forever_refuted : exists h l n i b id p b' id' p',
  dtx_ex = Ok (h, l, n, i) /\ content h (VRef l) = Some b /\ getattr h l (lit "tx_id_le") = Ok (VB id) /\
  dtx_prefix h l = Ok p /\ blake256 toy p = id /\
  let after := run h [OMutateList n [VRef i; VRef i]] in
  content after (VRef l) = Some b /\ getattr after l (lit "tx_id_le") = Ok (VB id) /\
  items after (VRef n) = Some [VRef i; VRef i] /\ getattr after l (lit "tx_ins") = Ok (VRef n) /\
  dtx_prefix after l = Ok p' /\ blake256 toy p' <> id /\
  match dtx_copy toy DecredMain after l VNone VNone VNone VNone VNone VNone with
  | Ok (h', c) => content h' (VRef c) = Some b' /\ getattr h' c (lit "tx_id_le") = Ok (VB id')
  | Err _ => False
  end /\ b' <> b /\ id' <> id.
Proof.
  do 10 eexists. split; [vm_compute; reflexivity|]. split; [vm_compute; reflexivity|]. split; [vm_compute; reflexivity|].
  split; [vm_compute; reflexivity|]. split; [vm_compute; reflexivity|]. cbv zeta. split; [vm_compute; reflexivity|].
  split; [vm_compute; reflexivity|]. split; [vm_compute; reflexivity|]. split; [vm_compute; reflexivity|].
  split; [vm_compute; reflexivity|]. split; [vm_compute; discriminate|].
  split; [vm_compute; split; reflexivity|]. split; vm_compute; discriminate.
Qed.
Print Assumptions decred_tx_forever_refuted.

(* C20 fails for Decred transactions made from lists: += on tx_ins raises but
   the transaction has one more input afterwards *)
Theorem immutable_decred_refuted : exists h l n i,
  dtx_ex = Ok (h, l, n, i) /\
  let '(h', r) := step h (OAttrIadd l (lit "tx_ins") (VTuple [VRef i])) in
  r = Err TypeError /\ getattr h l (lit "tx_ins") = Ok (VRef n) /\ getattr h' l (lit "tx_ins") = Ok (VRef n) /\
  items h (VRef n) = Some [VRef i] /\ items h' (VRef n) = Some [VRef i; VRef i].
Proof. do 4 eexists. split; [vm_compute; reflexivity|]. vm_compute. repeat split. Qed.
Print Assumptions immutable_decred_refuted.

(* the same transaction through the value model: the methods of C73 on it *)
Example dtx_methods_ex :
  match dtx_ex with
  | Ok (h, l, n, i) =>
      dtx_calculate_fee h l = Ok 2 /\ dtx_witness_signing h l = Ok [1; 0; 3; 0; 1; 2; 0x51; 0x53] /\
      content h (VRef l) = Some ([1; 0; 0; 0] ++ [1] ++ (zrepeat 7 32 ++ [1; 2; 3; 4] ++ [0] ++ [9; 9; 9; 9]) ++
        [1] ++ ([3; 0; 0; 0; 0; 0; 0; 0] ++ [0; 0] ++ [1; 0x52]) ++ [0; 0; 0; 0] ++ [0; 0; 0; 0] ++
        [1] ++ ([5; 0; 0; 0; 0; 0; 0; 0] ++ [1; 0; 0; 0] ++ [2; 0; 0; 0] ++ [2; 0x51; 0x53]))
  | Err _ => False
  end.
Proof. vm_compute. repeat split. Qed.
