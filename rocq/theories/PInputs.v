(* C92: make_legacy_input, make_witness_input, make_decred_input,
   make_decred_witness and make_tx on Decred.  [the_input] and the [_obj]
   predicates are in STx.v, [the_dinput], [the_dspend], [dtransaction_ok] in
   SDecred.v, [le_bytes] in SNum.v. *)
From Coq Require Import String.
From Verif Require Import Py SNum SNet SHash SScript SAddr MNet MUtils MShared MScript MTx MZcash MDecred MBuilder
  STx SZcash SDecred LDecred LDecredTop LBuilder LBuilderTx LInputs PTx.
Open Scope list_scope.
Open Scope Z_scope.

(* an input with an empty script, of the network's class; an outpoint of the
   other class is refused *)
Theorem make_witness_input_exact : forall name net o q, get_network name = Ok net ->
  (~ 0 <= q < 2 ^ 32 -> make_witness_input net o q = Err OverflowError) /\
  (0 <= q < 2 ^ 32 ->
   match o with
   | AnyOutpoint p =>
       (~ In name decred_names -> outpoint_obj p ->
        exists i, make_witness_input net o q = Ok (AnyIn i) /\ txin_obj i /\
          the_input i = {| in_txid := op_tx_id p; in_index := op_index p; in_script := []; in_sequence := le_bytes 4 q |}) /\
       (In name decred_names -> make_witness_input net o q = Err ValueError)
   | AnyDecredOutpoint p =>
       (In name decred_names -> doutpoint_obj net p ->
        exists i, make_witness_input net o q = Ok (AnyDecredIn i) /\ dtxin_obj net i /\
          the_dinput i = {| di_txid := dop_tx_id p; di_index := dop_index p; di_tree := dop_tree p; di_sequence := le_bytes 4 q |}) /\
       (~ In name decred_names -> make_witness_input net o q = Err ValueError)
   end).
Proof.
  intros name net o q En. split; [intros R; apply (input_overflow net o [] [] q R)|]. intros R. rewrite witness_is_legacy.
  destruct o as [p|p]; (split; [intros N O|intros N]).
  - destruct (input_plain name net En p [] [] q N O R) as [i [E [G [_ [_ T]]]]]; [cbn; lia|]. exists i. auto.
  - apply (legacy_foreign_decred name net En); assumption.
  - destruct (input_decred name net En p [] [] q N O R) as [i [E [G [A B]]]]. exists i. split; [exact E|]. split; [exact G|].
    unfold the_dinput. rewrite A, B. reflexivity.
  - apply (legacy_foreign_plain name net En); assumption.
Qed.
Print Assumptions make_witness_input_exact.

(* make_legacy_input refuses outpoints of the other class too; on Decred it
   drops the scripts it is given *)
Theorem make_legacy_input_foreign : forall name net stack redeem q, get_network name = Ok net -> 0 <= q < 2 ^ 32 ->
  (In name decred_names -> forall p, make_legacy_input net (AnyOutpoint p) stack redeem q = Err ValueError) /\
  (~ In name decred_names -> forall p, make_legacy_input net (AnyDecredOutpoint p) stack redeem q = Err ValueError).
Proof.
  intros name net stack redeem q En R. split; intros N p.
  - apply (legacy_foreign_decred name net En); assumption.
  - apply (legacy_foreign_plain name net En); assumption.
Qed.
Print Assumptions make_legacy_input_foreign.
Theorem make_legacy_input_decred : forall name net o stack redeem q, get_network name = Ok net -> In name decred_names ->
  make_legacy_input net o stack redeem q = make_witness_input net o q.
Proof.
  intros name net o stack redeem q En I. rewrite witness_is_legacy, !(legacy_decred_scripts name net En) by assumption. reflexivity.
Qed.
Print Assumptions make_legacy_input_decred.

(* make_decred_input is the same on Decred, and works nowhere else *)
Theorem make_decred_input_exact : forall name net o q, get_network name = Ok net ->
  (~ 0 <= q < 2 ^ 32 -> make_decred_input net o q = Err OverflowError) /\
  (0 <= q < 2 ^ 32 ->
   (~ In name decred_names -> make_decred_input net o q = Err ValueError) /\
   (In name decred_names ->
    match o with
    | AnyOutpoint _ => make_decred_input net o q = Err ValueError
    | AnyDecredOutpoint p => doutpoint_obj net p ->
        exists i, make_decred_input net o q = Ok (AnyDecredIn i) /\ dtxin_obj net i /\
          the_dinput i = {| di_txid := dop_tx_id p; di_index := dop_index p; di_tree := dop_tree p; di_sequence := le_bytes 4 q |}
    end)).
Proof.
  intros name net o q En. split; [apply decred_input_overflow|]. intros R. split; [intros N; apply (decred_input_elsewhere name net En); assumption|].
  intros I. rewrite <- (legacy_decred_scripts name net En o [] [] q I), <- witness_is_legacy.
  destruct (make_witness_input_exact name net o q En) as [_ W]. specialize (W R). destruct o as [p|p]; [apply (proj2 W I)|apply (proj1 W I)].
Qed.
Print Assumptions make_decred_input_exact.

(* a Decred witness holds its arguments; the fields have fixed widths *)
Theorem make_decred_witness_exact : forall name net value height index stack redeem, get_network name = Ok net ->
  let s := {| ds_value := value; ds_height := height; ds_index := index; ds_script := stack ++ redeem |} in
  (In name decred_names -> dspend_ok s ->
   exists w, make_decred_witness net value height index stack redeem = Ok w /\ dwitness_obj net w /\
     the_dspend w = s /\ dw_stack_script w = stack /\ dw_redeem_script w = redeem) /\
  (~ (In name decred_names /\ dspend_ok s) -> make_decred_witness net value height index stack redeem = Err ValueError).
Proof.
  intros name net v h i st rd En s. unfold make_decred_witness. subst s. unfold dspend_ok. cbn [ds_value ds_height ds_index ds_script].
  change len with (@zlen Z). split.
  - intros I [A [B [C L]]]. pose proof (decred_only_Ok name net En I) as D. rewrite (DecredInputWitness_spec net D), A, B, C.
    destruct (Z.ltb_spec (zlen (st ++ rd)) (2 ^ 64)); [|lia]. cbn [Z.eqb Pos.eqb andb]. eexists. split; [reflexivity|]. split; [|repeat split; reflexivity].
    apply (dwitness_obj_iff net D). cbn. auto.
  - intros N. destruct (LNet.str_mem name decred_names) eqn:M.
    + apply LNet.str_mem_In in M. pose proof (decred_only_Ok name net En M) as D. rewrite (DecredInputWitness_spec net D).
      destruct (_ && _)%bool eqn:E; [|reflexivity]. destruct N. split; [exact M|]. rewrite !andb_true_iff, !Z.eqb_eq, Z.ltb_lt in E. tauto.
    + apply (top_elsewhere toy name net En). intros X. apply LNet.str_mem_In in X. congruence.
Qed.
Print Assumptions make_decred_witness_exact.

(* make_tx on Decred with one witness object: the transaction described, or
   ValueError when there is no such transaction *)
Theorem make_tx_decred_exact : forall H name net v ins outs lock expiry vb sp so w js pk sg bs,
  get_network name = Ok net -> In name decred_names -> 0 <= v < 2 ^ 32 -> 0 <= lock < 2 ^ 32 -> 0 <= expiry < 2 ^ 32 ->
  Forall (dtxin_obj net) ins -> Forall (dtxout_obj net) outs -> dwitness_obj net w ->
  let d := {| d_version := le_bytes 4 v; d_ins := map the_dinput ins; d_outs := map the_doutput outs;
              d_lock := le_bytes 4 lock; d_expiry := le_bytes 4 expiry; d_spends := [the_dspend w] |} in
  let r := make_tx H net v (map AnyDecredIn ins) (map AnyDecredOut outs) lock (Some expiry) vb sp so (DecredWit w) js pk sg bs in
  (dtransaction_ok d -> exists t, r = Ok (AnyDecredTx t) /\ dtx_obj H net t /\ the_dtx t = d) /\
  (~ dtransaction_ok d -> r = Err ValueError).
Proof.
  intros H name net v ins outs lock expiry vb sp so w js pk sg bs En I Rv Rl Re Fi Fo Fw d r.
  assert (r = (t <- DecredTx H net (le_bytes 4 v) ins outs (le_bytes 4 lock) (le_bytes 4 expiry) [w] ;; Ok (AnyDecredTx t))) as E.
  { unfold r. apply (make_tx_decred H name net En); assumption. }
  pose proof (top_rule H name net En I (le_bytes 4 v) ins outs (le_bytes 4 lock) (le_bytes 4 expiry) [w] Fi Fo (Forall_cons _ Fw (Forall_nil _))) as T.
  cbv zeta in T. change (map the_dspend [w]) with [the_dspend w] in T. fold d in T.
  split; intros O; (destruct T as [[O' [t [T [A B]]]]|[O' T]]; [|]); try contradiction; rewrite E, T; cbn [bind].
  - exists t. auto.
  - reflexivity.
Qed.
Print Assumptions make_tx_decred_exact.
(* the numbers are looked at in this order *)
Theorem make_tx_decred_numbers : forall H name net v ins outs lock expiry vb sp so ws js pk sg bs,
  get_network name = Ok net -> In name decred_names ->
  let r := make_tx H net v ins outs lock expiry vb sp so ws js pk sg bs in
  (~ (0 <= v < 2 ^ 32 /\ 0 <= lock < 2 ^ 32) -> r = Err OverflowError) /\
  (0 <= v < 2 ^ 32 -> 0 <= lock < 2 ^ 32 ->
   match expiry with None => r = Err AttributeError | Some e => ~ 0 <= e < 2 ^ 32 -> r = Err OverflowError end).
Proof.
  intros H name net v ins outs lock expiry vb sp so ws js pk sg bs En I r. unfold r, make_tx.
  rewrite (has_true name net _ _ (LNet.decred_only_names name net En) I), !padded4. split.
  - intros R. destruct (Z.leb_spec 0 v); [destruct (Z.ltb_spec v (2 ^ 32))|].
    + rewrite (word_Ok 4 v) by (cbn; lia). cbn [bind]. rewrite word_Err by (cbn; lia). reflexivity.
    + rewrite (word_Err 4 v) by (cbn; lia). reflexivity.
    + rewrite (word_Err 4 v) by (cbn; lia). reflexivity.
  - intros Rv Rl. rewrite !word_Ok by (cbn; lia). cbn [bind]. destruct expiry as [e|]; [|reflexivity].
    intros R. cbn [i2le_padded_opt]. rewrite padded4, word_Err by (cbn; lia). reflexivity.
Qed.
Print Assumptions make_tx_decred_numbers.

(* cases *)
Example make_witness_input_ex : exists i, make_witness_input BitcoinMain (AnyOutpoint (ti_outpoint ex_input)) 7 = Ok (AnyIn i) /\
  outpoint_obj (ti_outpoint ex_input) /\ ti_sequence i = [7; 0; 0; 0].
Proof. eexists. repeat split; vm_compute; reflexivity. Qed.
Example make_decred_input_ex : exists o i, make_outpoint DecredMain (repeat 7 32) 258 (Some 1) = Ok (AnyDecredOutpoint o) /\ doutpoint_obj DecredMain o /\
  make_decred_input DecredMain (AnyDecredOutpoint o) 0xFFFFFFFE = Ok (AnyDecredIn i) /\
  make_legacy_input DecredMain (AnyDecredOutpoint o) [0x51] [0x52] 0xFFFFFFFE = Ok (AnyDecredIn i) /\
  make_legacy_input BitcoinMain (AnyDecredOutpoint o) [0x51] [0x52] 0xFFFFFFFE = Err ValueError /\
  make_witness_input DecredMain (AnyOutpoint (ti_outpoint ex_input)) 7 = Err ValueError.
Proof. do 2 eexists. split; [vm_compute; reflexivity|]. split; [vm_compute; reflexivity|]. split; [vm_compute; reflexivity|]. repeat split; vm_compute; reflexivity. Qed.
Definition ex_dpoint : doutpoint := Eval vm_compute in
  match DecredOutpoint DecredMain (repeat 7 32) (repeat 0 4) [1] with Ok p => p | Err _ => {| dop_tx_id := []; dop_index := []; dop_tree := []; dop_bytes := [] |} end.
Definition ex_din : dtxin := Eval vm_compute in
  match DecredTxIn DecredMain ex_dpoint (repeat 255 4) with Ok i => i | Err _ => {| dti_outpoint := ex_dpoint; dti_sequence := []; dti_bytes := [] |} end.
Example make_tx_decred_ex : exists o w t, DecredTxOut DecredMain (repeat 1 8) (Some (repeat 0 2)) [0x51] = Ok o /\
  make_decred_witness DecredMain (repeat 1 8) (repeat 2 4) (repeat 3 4) [0x51] [0x52] = Ok w /\
  make_tx toy DecredMain 1 [AnyDecredIn ex_din; AnyDecredIn ex_din] [AnyDecredOut o] 258 (Some 7) 0 None None (DecredWit w) None None None None = Ok (AnyDecredTx t) /\
  dtxin_obj DecredMain ex_din /\ dtxout_obj DecredMain o /\ dwitness_obj DecredMain w /\ dtx_expiry t = [7; 0; 0; 0].
Proof.
  do 3 eexists. split; [vm_compute; reflexivity|]. split; [vm_compute; reflexivity|]. split; [vm_compute; reflexivity|].
  split; [split; vm_compute; reflexivity|]. split; [vm_compute; reflexivity|]. split; vm_compute; reflexivity.
Qed.
