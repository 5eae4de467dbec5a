(* C63: what happens to a serialization whose last bytes are missing *)
From Coq Require Import String.
From Verif Require Import Py LBase MNet MUtils MShared MScript MTx SHash SNum SNet STx STrunc LTx LTxParse LTrunc PTx.
Open Scope list_scope.
Open Scope Z_scope.

(** * Outpoints and inputs: always refused *)

Theorem outpoint_truncated o p : outpoint_obj o -> cut p (op_bytes o) -> Outpoint_from_bytes p = Err ValueError.
Proof. intros O [q [Q E]]. apply (Outpoint_cut o p q O Q E). Qed.

Theorem txin_truncated name net i p : get_network name = Ok net -> txin_obj i -> readable_size name (len (ti_script_sig i)) ->
  cut p (ti_bytes i) -> exists e, TxIn_from_bytes net p = Err e.
Proof. intros En O R [q [Q E]]. apply (TxIn_cut net i p q O (readable_spec name net _ En R) Q E). Qed.

(* one byte less *)
Example txin_truncated_ex : txin_obj ex_input /\ cut (firstn 41 (ti_bytes ex_input)) (ti_bytes ex_input) /\
  TxIn_from_bytes BitcoinMain (firstn 41 (ti_bytes ex_input)) = Err ValueError /\
  outpoint_obj (ti_outpoint ex_input) /\ cut (firstn 35 (op_bytes (ti_outpoint ex_input))) (op_bytes (ti_outpoint ex_input)).
Proof.
  split; [split; reflexivity|]. split; [exists [255]; split; [discriminate|reflexivity]|].
  split; [vm_compute; reflexivity|]. split; [reflexivity|]. exists [0]. split; [discriminate|reflexivity].
Qed.

(** * Outputs: a cut inside the script is not noticed *)

(* exactly the prefixes that hold the value and the length are accepted; the result
   is an output with a shorter script *)
Theorem txout_truncated net o p : txout_obj o -> len (to_output_script o) < 252 -> cut p (to_bytes_ o) ->
  if 9 <=? len p
  then exists o' s, to_output_script o = to_output_script o' ++ s /\ s <> [] /\ to_value o' = to_value o /\ TxOut_from_bytes net p = Ok o'
  else exists e, TxOut_from_bytes net p = Err e.
Proof.
  intros O L [q [Q E]]. destruct (Z.leb_spec 9 (len p)) as [P|P].
  - destruct (TxOut_cut_accepted net o p q O L Q E P) as [r [R T]]. eexists. exists q. split; [|split; [|split; [|exact T]]]; [exact R|exact Q|reflexivity].
  - destruct (TxOut_from_bytes net p) as [o'|e] eqn:T; [|eauto]. apply TxOut_long in T. change (zlen p) with (len p) in T. exfalso. lia.
Qed.

(* so truncation of an output is not always refused *)
Theorem txout_truncated_refuted : exists o p o', txout_obj o /\ cut p (to_bytes_ o) /\ TxOut_from_bytes BitcoinMain p = Ok o' /\
  to_output_script o = [118; 169; 20; 7] /\ to_output_script o' = [118; 169].
Proof.
  exists {| to_value := [5; 0; 0; 0; 0; 0; 0; 0]; to_output_script := [118; 169; 20; 7]; to_bytes_ := [5; 0; 0; 0; 0; 0; 0; 0; 4; 118; 169; 20; 7] |}.
  exists [5; 0; 0; 0; 0; 0; 0; 0; 4; 118; 169].
  eexists. split; [vm_compute; reflexivity|]. split; [exists [20; 7]; split; [discriminate|reflexivity]|].
  split; [vm_compute; reflexivity|]. auto.
Qed.

Section Hashes.
Context (H : hashes).

(** * Transactions *)

(* Without witness data, every truncation is refused *)
Theorem tx_truncated_partial name net t p : get_network name = Ok net -> tx_obj H net t -> parsable name (the_tx t) ->
  t_witness (the_tx t) = None -> cut p (tx_bytes t) -> exists e, Tx_from_bytes H net p = Err e.
Proof.
  intros En O P W [q [Q E]]. destruct (Tx_from_bytes H net p) as [t'|e] eqn:T; [exfalso|eauto].
  assert (tx_flag t = None) as F.
  { unfold the_tx in W. cbn [t_witness] in W. destruct (tx_flag t); [discriminate|reflexivity]. }
  assert (the_witnesses t = []) as Ws.
  { apply tx_obj_iff in O. destruct O as [_ [_ [_ [A _]]]]. unfold tx_args_ok in A. rewrite !andb_true_iff in A.
    destruct A as [[[[[_ A] _] _] _] _]. unfold wits_ok in A. rewrite F in A. unfold the_witnesses.
    destruct (tx_tx_witnesses t) as [ws|]; [|reflexivity]. cbn [andb] in A. rewrite orb_false_r in A. apply Z.eqb_eq in A.
    destruct ws; [reflexivity|]. rewrite zlen_cons in A. pose proof (zlen_nonneg ws). lia. }
  apply (Tx_cut H name net t p q t') in T; [|assumption..|rewrite Ws; constructor|exact Q|exact E]. destruct T as [T _]. contradiction.
Qed.

(* With or without: exactly one truncation is accepted, the one that ends four bytes
   into the witness data *)
Theorem tx_truncated name net t p : get_network name = Ok net -> tx_obj H net t -> parsable name (the_tx t) ->
  short_witness (the_tx t) -> cut p (tx_bytes t) ->
  ((exists t', Tx_from_bytes H net p = Ok t') <->
   t_witness (the_tx t) <> None /\ len p = length_without_witnesses (the_tx t)).
Proof.
  intros En O P Sh [q [Q E]].
  assert (t_witness (the_tx t) <> None <-> tx_flag t <> None) as W.
  { unfold the_tx. cbn [t_witness]. destruct (tx_flag t); split; intros X; congruence. }
  rewrite W. split.
  - intros [t' T]. destruct (t_witness (the_tx t)) as [ws|] eqn:Ew.
    + apply (Tx_cut H name net t p q t'); try assumption.
      unfold short_witness in Sh. rewrite Ew in Sh. unfold the_tx in Ew. cbn [t_witness] in Ew.
      destruct (tx_flag t); [|discriminate]. injection Ew as <-. rewrite Forall_map in Sh.
      eapply Forall_impl; [|exact Sh]. intros w [S1 S2]. unfold the_stack in S1, S2. rewrite Forall_map in S2.
      unfold count in S1. rewrite map_length in S1. split; [exact S1|exact S2].
    + exfalso. destruct (tx_truncated_partial name net t p En O P Ew) as [e X]; [exists q; auto|]. rewrite X in T. discriminate.
  - intros [F L]. destruct (Tx_cut_accepted H name net t p q En O P F E L) as [_ [_ [t' [_ [_ [T _]]]]]]. eauto.
Qed.

(* what it is taken for: the same transaction without witnesses, whose lock time is
   the last four bytes of what is left; the hypothesis on the sizes is not needed *)
Theorem tx_truncated_result name net t p : get_network name = Ok net -> tx_obj H net t -> parsable name (the_tx t) ->
  t_witness (the_tx t) <> None -> cut p (tx_bytes t) -> len p = length_without_witnesses (the_tx t) ->
  exists front r t', p = front ++ r /\ len r = 4 /\ Tx_from_bytes H net p = Ok t' /\
    the_tx t' = {| t_version := t_version (the_tx t); t_ins := t_ins (the_tx t); t_outs := t_outs (the_tx t);
                   t_witness := Some []; t_lock := r |}.
Proof.
  intros En O P W [q [Q E]] L. apply (Tx_cut_accepted H name net t p q); try assumption.
  unfold the_tx in W. cbn [t_witness] in W. destruct (tx_flag t); congruence.
Qed.

(* every transaction with a witness for each input has such a truncation *)
Theorem tx_truncated_refuted name net t : get_network name = Ok net -> tx_obj H net t -> parsable name (the_tx t) ->
  t_witness (the_tx t) <> None -> bip144 (the_tx t) ->
  exists p t', cut p (tx_bytes t) /\ Tx_from_bytes H net p = Ok t' /\ t_witness (the_tx t') = Some [].
Proof.
  intros En O P W B. destruct (tx_wire H name net t En O) as [Wr K].
  destruct (t_witness (the_tx t)) as [ws|] eqn:Ew; [|congruence].
  assert (exists s0, exists b, concat (map stack_wire ws) = b :: s0) as [s0 [b Es]].
  { unfold bip144 in B. rewrite Ew in B. destruct K as [_ [_ [K _]]]. destruct ws as [|st ws].
    - unfold count in B, K. cbn [length] in B. lia.
    - cbn [map concat]. assert (1 <= zlen (stack_wire st)) as X.
      { unfold stack_wire, vector_wire. rewrite zlen_app. pose proof (zlen_compactsize_pos (count st)). pose proof (zlen_nonneg (concat (map string_wire st))). lia. }
      destruct (stack_wire st) as [|b l]; [rewrite zlen_nil in X; lia|]. cbn [app]. eauto. }
  set (front := t_version (the_tx t) ++ marker_and_flag ++ vector_wire input_wire (t_ins (the_tx t)) ++ vector_wire output_wire (t_outs (the_tx t))).
  assert (len (t_lock (the_tx t)) = 4) as L4 by apply K.
  assert (tx_bytes t = front ++ (b :: s0) ++ t_lock (the_tx t)) as Eb.
  { rewrite Wr. unfold wire_tx, front. rewrite Ew, Es, <- !app_assoc. reflexivity. }
  set (rest := (b :: s0) ++ t_lock (the_tx t)) in *.
  assert (5 <= zlen rest) as Lr.
  { unfold rest. rewrite zlen_app, zlen_cons. change (zlen (t_lock (the_tx t))) with (len (t_lock (the_tx t))). pose proof (zlen_nonneg s0). lia. }
  assert (zlen (firstn 4 rest) = 4) as L1. { unfold zlen in *. rewrite firstn_length. lia. }
  assert (zlen (skipn 4 rest) = zlen rest - 4) as L2. { unfold zlen in *. rewrite skipn_length. lia. }
  assert (cut (front ++ firstn 4 rest) (tx_bytes t)) as C.
  { exists (skipn 4 rest). split; [intros X; rewrite X, zlen_nil in L2; lia|]. rewrite Eb, <- app_assoc, firstn_skipn. reflexivity. }
  destruct (tx_truncated_result name net t (front ++ firstn 4 rest) En O P) as [f [r [t' [_ [_ [T Et]]]]]];
    [rewrite Ew; discriminate|exact C| |].
  - unfold length_without_witnesses, wire_tx, stripped. cbn [t_version t_ins t_outs t_witness t_lock app].
    change (len (front ++ firstn 4 rest)) with (zlen (front ++ firstn 4 rest)). rewrite zlen_app, L1. unfold front.
    change (len (t_version (the_tx t) ++ vector_wire input_wire (t_ins (the_tx t)) ++ vector_wire output_wire (t_outs (the_tx t)) ++ t_lock (the_tx t)))
      with (zlen (t_version (the_tx t) ++ vector_wire input_wire (t_ins (the_tx t)) ++ vector_wire output_wire (t_outs (the_tx t)) ++ t_lock (the_tx t))).
    change (len (t_lock (the_tx t))) with (zlen (t_lock (the_tx t))) in L4. change (len marker_and_flag) with (zlen marker_and_flag).
    rewrite !zlen_app. lia.
  - exists (front ++ firstn 4 rest), t'. rewrite Et. auto.
Qed.
End Hashes.

(* the transaction of PTx.v without its last four bytes is a transaction whose lock
   time is its witness, and one more or one byte less is an error *)
Example tx_truncated_ex :
  tx_obj toy BitcoinMain ex_segwit /\ parsable (lit "bitcoin_main") (the_tx ex_segwit) /\ short_witness (the_tx ex_segwit) /\
  cut (firstn 64 (tx_bytes ex_segwit)) (tx_bytes ex_segwit) /\ length_without_witnesses (the_tx ex_segwit) = 64 /\
  (exists t', Tx_from_bytes toy BitcoinMain (firstn 64 (tx_bytes ex_segwit)) = Ok t' /\ tx_lock_time t' = [1; 2; 3; 4]) /\
  Tx_from_bytes toy BitcoinMain (firstn 63 (tx_bytes ex_segwit)) = Err ValueError /\
  Tx_from_bytes toy BitcoinMain (firstn 65 (tx_bytes ex_segwit)) = Err ValueError.
Proof.
  split; [apply ex_objects|]. split; [apply parsable_ex|]. split.
  { constructor; [|constructor]. split; [vm_compute; reflexivity|]. constructor; [vm_compute; reflexivity|constructor]. }
  split; [exists [0; 0; 0; 0]; split; [discriminate|vm_compute; reflexivity]|]. split; [vm_compute; reflexivity|].
  split; [eexists; split; vm_compute; reflexivity|]. split; vm_compute; reflexivity.
Qed.
Example tx_truncated_partial_ex : tx_obj toy BitcoinMain ex_legacy /\ t_witness (the_tx ex_legacy) = None /\
  cut (firstn 61 (tx_bytes ex_legacy)) (tx_bytes ex_legacy) /\
  Tx_from_bytes toy BitcoinMain (firstn 61 (tx_bytes ex_legacy)) = Err ValueError.
Proof.
  split; [apply ex_objects|]. split; [reflexivity|]. split; [exists [0]; split; [discriminate|vm_compute; reflexivity]|]. vm_compute; reflexivity.
Qed.

Print Assumptions outpoint_truncated.
Print Assumptions txin_truncated.
Print Assumptions txout_truncated.
Print Assumptions txout_truncated_refuted.
Print Assumptions tx_truncated_partial.
Print Assumptions tx_truncated.
Print Assumptions tx_truncated_result.
Print Assumptions tx_truncated_refuted.
