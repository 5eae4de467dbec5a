(* Properties C22 to C26: transactions on the wire *)
From Coq Require Import String.
From Verif Require Import Py LBase MNet MUtils MShared MScript MTx SNum SNet SHash SScript STx LTx LTxParse LTxWire.
Open Scope list_scope.
Open Scope Z_scope.

(* C22: constructors accept exactly fields of the right size *)
Theorem outpoint_accepts : forall txid i,
  Outpoint (Some txid) (Some i) =
  if (len txid =? 32) && (len i =? 4)
  then Ok {| op_tx_id := txid; op_index := i; op_bytes := txid ++ i |} else Err ValueError.
Proof. exact Outpoint_spec. Qed.
Print Assumptions outpoint_accepts.
Theorem input_accepts : forall o stack redeem sequence, outpoint_obj o ->
  ((exists i, TxIn o stack redeem sequence = Ok i) <-> len sequence = 4 /\ len (stack ++ redeem) <= 1650) /\
  (TxIn o stack redeem sequence = Err ValueError <-> ~ (len sequence = 4 /\ len (stack ++ redeem) <= 1650)).
Proof.
  intros o s r q O. apply outpoint_obj_iff in O. destruct O as [A [B C]].
  rewrite TxIn_spec, C, zlen_app, A, B. change (32 + 4 =? 36) with true. cbn [andb].
  change (len q) with (zlen q). change (len (s ++ r)) with (zlen (s ++ r)).
  destruct (Z.eqb_spec (zlen q) 4), (Z.leb_spec (zlen (s ++ r)) 1650); cbn [andb].
  1: split; [split; [auto|eauto]|split; [discriminate|intros N; exfalso; apply N; auto]].
  all: split; [split; [intros [i E]; discriminate|lia]|split; [lia|reflexivity]].
Qed.
Print Assumptions input_accepts.
Example input_accepts_ex : exists o, outpoint_obj o /\ op_bytes o = repeat 7 36 /\
  TxIn o [81] [1; 81] [0; 0; 0] = Err ValueError.
Proof. exists {| op_tx_id := repeat 7 32; op_index := repeat 7 4; op_bytes := repeat 7 36 |}. repeat split. Qed.
Theorem output_accepts : forall value script, len script < 2 ^ 64 ->
  TxOut value script =
  if len value =? 8 then Ok {| to_value := value; to_output_script := script; to_bytes_ := output_wire {| out_value := value; out_script := script |} |}
  else Err ValueError.
Proof.
  intros v s L. rewrite TxOut_spec. change (len s) with (zlen s) in L. change (len v) with (zlen v).
  destruct (Z.ltb_spec (zlen s) (2 ^ 64)); [|lia]. rewrite andb_true_r. reflexivity.
Qed.
Print Assumptions output_accepts.
Example output_accepts_ex : TxOut [1; 0; 0; 0; 0; 0; 0; 0] [106; 1; 9] =
  Ok {| to_value := [1; 0; 0; 0; 0; 0; 0; 0]; to_output_script := [106; 1; 9]; to_bytes_ := [1; 0; 0; 0; 0; 0; 0; 0; 3; 106; 1; 9] |}.
Proof. reflexivity. Qed.

(* C22: objects serialize to the wire format of their fields *)
Theorem outpoint_format : forall o, outpoint_obj o ->
  op_bytes o = op_tx_id o ++ op_index o /\ len (op_tx_id o) = 32 /\ len (op_index o) = 4.
Proof. intros o O. apply outpoint_obj_iff in O. destruct O as [A [B C]]. auto. Qed.
Print Assumptions outpoint_format.
Theorem input_format : forall i, txin_obj i -> ti_bytes i = input_wire (the_input i) /\ input_ok (the_input i).
Proof. exact txin_wire. Qed.
Print Assumptions input_format.
Theorem output_format : forall o, txout_obj o -> to_bytes_ o = output_wire (the_output o) /\ output_ok (the_output o).
Proof. exact txout_wire. Qed.
Print Assumptions output_format.
Theorem witness_item_format : forall w, witem_obj w -> wi_bytes w = string_wire (wi_item w) /\ len (wi_item w) < 2 ^ 64.
Proof. intros w O. apply witem_obj_iff in O. destruct O as [A B]. split; [exact B|exact A]. Qed.
Print Assumptions witness_item_format.
Theorem witness_format : forall w, witness_obj w -> wit_bytes w = stack_wire (the_stack w) /\ stack_ok (the_stack w).
Proof. exact witness_wire. Qed.
Print Assumptions witness_format.
Example witness_format_ex : exists i w, witem_obj i /\ witness_obj w /\ the_stack w = [[]; [1; 2]] /\ wit_bytes w = [2; 0; 2; 1; 2].
Proof.
  exists {| wi_item := []; wi_bytes := [0] |},
    {| wit_stack := [{| wi_item := []; wi_bytes := [0] |}; {| wi_item := [1; 2]; wi_bytes := [2; 1; 2] |}]; wit_bytes := [2; 0; 2; 1; 2] |}.
  repeat split. repeat constructor.
Qed.

(* C22: parsing gives the object back, whatever follows *)
Theorem outpoint_roundtrip : forall o rest, outpoint_obj o -> Outpoint_from_bytes (op_bytes o ++ rest) = Ok o.
Proof. exact Outpoint_parse. Qed.
Print Assumptions outpoint_roundtrip.
Theorem output_roundtrip : forall net o rest, txout_obj o -> len (to_output_script o) < 252 ->
  TxOut_from_bytes net (to_bytes_ o ++ rest) = Ok o.
Proof. exact TxOut_parse. Qed.
Print Assumptions output_roundtrip.
Theorem output_long_refused : forall net o rest, txout_obj o -> 252 <= len (to_output_script o) ->
  exists e, TxOut_from_bytes net (to_bytes_ o ++ rest) = Err e /\ (e = NotImplementedError \/ e = ValueError).
Proof.
  intros net o rest O L. destruct (txout_wire o O) as [-> K]. rewrite TxOut_parse_big by (exact K || exact L).
  eexists. split; [reflexivity|]. destruct (_ && _); auto.
Qed.
Print Assumptions output_long_refused.
(* the sizes that upgraded Zcash cannot read are excluded *)
Theorem witness_item_roundtrip_partial : forall name net w rest, get_network name = Ok net -> witem_obj w ->
  readable_size name (len (wi_item w)) -> WitnessStackItem_from_bytes net (wi_bytes w ++ rest) = Ok w.
Proof. intros name net w rest En O R. apply WitnessStackItem_parse; [exact O|]. exact (readable_spec name net _ En R). Qed.
Print Assumptions witness_item_roundtrip_partial.
Theorem witness_roundtrip_partial : forall name net w rest, get_network name = Ok net -> witness_obj w ->
  parsable_stack name (the_stack w) -> InputWitness_from_bytes net (wit_bytes w ++ rest) = Ok w.
Proof.
  intros name net w rest En O R. assert (Forall (fun w => witness_obj w /\ readable_witness net w) [w]) as F.
  { apply (parsable_ws name); [exact En|constructor; [exact O|constructor]|]. constructor; [exact R|constructor]. }
  inversion F as [|? ? [_ K] _]; subst. apply InputWitness_parse; assumption.
Qed.
Print Assumptions witness_roundtrip_partial.
Example parsable_stack_ex : parsable_stack (lit "zcash_sapling_main") [[1]; []] /\ parsable_stack (lit "bitcoin_main") [repeat 1 254].
Proof.
  split; split.
  - right. cbn. lia.
  - constructor; [right; cbn; lia|constructor; [right; cbn; lia|constructor]].
  - right. cbn. lia.
  - constructor; [|constructor]. left. intros I. vm_compute in I. intuition discriminate.
Qed.
(* inputs come back with the same outpoint, script, sequence and bytes; the
   script may be split differently into stack script and redeem script *)
Theorem input_roundtrip_partial : forall name net i, get_network name = Ok net -> txin_obj i -> parsable_in name (the_input i) ->
  exists i', (forall rest, TxIn_from_bytes net (ti_bytes i ++ rest) = Ok i') /\
    txin_obj i' /\ the_input i' = the_input i /\ ti_bytes i' = ti_bytes i.
Proof.
  intros name net i En O [R C]. destruct (TxIn_parse name net i En O) as [i' [P [S O']]].
  - split; [exact (readable_spec name net _ En R)|]. destruct C as [C|C]; [left; apply coinbase_null; [exact C|apply O]|right; exact C].
  - exists i'. split; [exact P|]. split; [exact O'|]. destruct S as [A [B [C' D]]]. split; [|exact D]. unfold the_input. rewrite A, B, C'. reflexivity.
Qed.
Print Assumptions input_roundtrip_partial.
Example input_roundtrip_ex : exists i i', txin_obj i /\ canonical_script (lit "bitcoin_main") (ti_script_sig i) /\
  ti_script_sig i = [0; 2; 81; 82] /\ ti_redeem_script i = [] /\
  TxIn_from_bytes BitcoinMain (ti_bytes i ++ [9]) = Ok i' /\ ti_stack_script i' = [0] /\ ti_redeem_script i' = [2; 81; 82].
Proof.
  exists (txin_of {| op_tx_id := repeat 7 32; op_index := repeat 7 4; op_bytes := repeat 7 36 |} [0; 2; 81; 82] [] (repeat 255 4)).
  eexists. split; [split; reflexivity|]. split.
  { exists [Op 0 (lit "OP_0"); Push Direct [81; 82]]. split; [|reflexivity]. constructor; [|constructor; [|constructor]].
    - split; [|lia]. rewrite LScript.opcodes_of_b. vm_compute. left. reflexivity.
    - split; [repeat constructor; lia|split; [vm_compute; split; discriminate|reflexivity]]. }
  split; [reflexivity|]. split; [reflexivity|]. split; [vm_compute; reflexivity|]. split; reflexivity.
Qed.
(* the split: the last push is taken for a redeem script, together with its push
   opcode, if it can be read as a script *)
Theorem input_split : forall name net i es e rest, get_network name = Ok net -> txin_obj i ->
  readable_size name (len (ti_script_sig i)) -> ~ coinbase_input (the_input i) ->
  Forall (standard_element name) (es ++ [e]) -> ti_script_sig i = concat (map wire (es ++ [e])) ->
  exists i', TxIn_from_bytes net (ti_bytes i ++ rest) = Ok i' /\
    match e with
    | Op _ _ => ti_stack_script i' = ti_script_sig i /\ ti_redeem_script i' = []
    | Push _ d =>
        (refused_script name d -> ti_stack_script i' = ti_script_sig i /\ ti_redeem_script i' = []) /\
        (~ refused_script name d -> ti_stack_script i' = concat (map wire es) /\ ti_redeem_script i' = wire e)
    end.
Proof.
  intros name net i es e rest En O R N F E.
  destruct (TxIn_parse_split name net i es e rest En O) as [i' [P [S1 S2]]]; try assumption; [exact (readable_spec name net _ En R)| |].
  { intros X. apply N. destruct O as [O _]. apply outpoint_obj_iff in O. destruct O as [A [B C]].
    unfold null_outpoint in X. rewrite C in X. apply app_inj_zlen in X; [|rewrite A; reflexivity]. exact X. }
  exists i'. split; [exact P|]. destruct e as [c n|f d]; cbn [redeem_of] in *; [auto|].
  apply Forall_app in F. destruct F as [_ F]. inversion F as [|? ? Se _]; subst. destruct Se as [B _].
  pose proof (refused_iff name net d En B) as K. destruct (deserialize net d) as [s|x].
  - split; intros Q; [|auto]. apply K in Q. destruct Q; discriminate.
  - split; intros Q; [auto|]. exfalso. apply Q, K. eauto.
Qed.
Print Assumptions input_split.
Example input_split_ex : ~ refused_script (lit "bitcoin_main") [81; 82].
Proof.
  intros R. apply (refused_iff (lit "bitcoin_main") BitcoinMain) in R; [|reflexivity|repeat constructor; lia].
  destruct R as [e R]. vm_compute in R. discriminate.
Qed.

(* C22 fails on upgraded Zcash for scripts of 253 to 255 bytes, and everywhere
   for scriptSigs with longer pushes than necessary before a redeem script *)
Theorem input_roundtrip_zcash_refuted : exists i, txin_obj i /\
  canonical_script (lit "zcash_overwinter_main") (ti_script_sig i) /\
  TxIn_from_bytes ZcashOverwinterMain (ti_bytes i) = Err ValueError.
Proof.
  exists (txin_of {| op_tx_id := repeat 7 32; op_index := repeat 7 4; op_bytes := repeat 7 36 |} (repeat 81 253) [] (repeat 255 4)).
  split; [split; vm_compute; reflexivity|]. split; [|vm_compute; reflexivity].
  exists (repeat (Op 81 (lit "OP_1")) 253). split; [|vm_compute; reflexivity].
  assert (standard_element (lit "zcash_overwinter_main") (Op 81 (lit "OP_1"))) as S.
  { split; [|lia]. rewrite LScript.opcodes_of_b.
    assert (existsb (fun o => (fst o =? 81) && leqb (snd o) (lit "OP_1")) (LScript.opcodes_b (lit "zcash_overwinter_main")) = true) as X by (vm_compute; reflexivity).
    apply existsb_exists in X. destruct X as [[c n] [I X]]. cbn [fst snd] in X. apply andb_true_iff in X.
    destruct X as [X1 X2]. apply Z.eqb_eq in X1. apply leqb_eq in X2. subst. exact I. }
  apply Forall_forall. intros e I. apply repeat_spec in I. subst. exact S.
Qed.
Print Assumptions input_roundtrip_zcash_refuted.
Theorem input_roundtrip_refuted : exists i i', txin_obj i /\
  TxIn_from_bytes BitcoinMain (ti_bytes i) = Ok i' /\ ti_script_sig i = [76; 1; 170] /\ ti_script_sig i' = [1; 170].
Proof.
  exists (txin_of {| op_tx_id := repeat 7 32; op_index := repeat 7 4; op_bytes := repeat 7 36 |} [76; 1; 170] [] (repeat 255 4)).
  eexists. split; [split; vm_compute; reflexivity|]. split; [vm_compute; reflexivity|]. split; reflexivity.
Qed.
Print Assumptions input_roundtrip_refuted.

(* C23: what the constructor accepts *)
Theorem tx_accepts : forall H name net v flag ins outs ws lock, get_network name = Ok net ->
  let accepted := len v = 4 /\ len lock = 4 /\ 1 <= count ins < 2 ^ 64 /\ 1 <= count outs < 2 ^ 64 /\
    (flag = None \/ flag = Some marker_and_flag) /\
    (ws = None \/ ws = Some [] \/ exists w, ws = Some w /\ flag <> None /\ count w = count ins) in
  (accepted <-> exists t, Tx H net v flag ins outs ws lock = Ok t) /\
  (~ accepted <-> Tx H net v flag ins outs ws lock = Err ValueError).
Proof.
  intros H name net v flag ins outs ws lock En accepted. rewrite Tx_spec.
  assert (accepted <-> tx_args_ok net v flag ins outs ws lock = true) as A.
  { unfold accepted, tx_args_ok. rewrite !andb_true_iff.
    change (len v) with (zlen v). change (len lock) with (zlen lock). change (count ins) with (zlen ins). change (count outs) with (zlen outs).
    assert (flag_ok net flag = true <-> flag = None \/ flag = Some marker_and_flag) as ->.
    { unfold flag_ok. rewrite (segwit_flag name net En). destruct flag as [f|]; [rewrite leqb_eq|]; intuition congruence. }
    assert (wits_ok flag ws (zlen ins) = true <->
      (ws = None \/ ws = Some [] \/ exists w, ws = Some w /\ flag <> None /\ count w = zlen ins)) as ->; [|rewrite !Z.eqb_eq, !Z.leb_le, !Z.ltb_lt; tauto].
    unfold wits_ok. destruct ws as [w|]; [|intuition]. change (count w) with (zlen w). rewrite orb_true_iff, andb_true_iff, !Z.eqb_eq. split.
    - intros [Z|[F Z]]; [apply zlen_0 in Z; subst; auto|]. right. right. exists w. destruct flag; [|discriminate]. split; [reflexivity|]. split; [discriminate|exact Z].
    - intros [E|[E|[w' [E [F Z]]]]]; [discriminate|injection E as ->; left; reflexivity|]. injection E as <-. right.
      destruct flag; [auto|contradiction]. }
  destruct (tx_args_ok _ _ _ _ _ _ _).
  - split; split; intros X; eauto; try discriminate; [apply A; reflexivity|]. exfalso. apply X, A. reflexivity.
  - split; split; intros X; eauto; try (destruct X as [? X]; discriminate).
    + apply A in X. discriminate.
    + intros Y. apply A in Y. discriminate.
Qed.
Print Assumptions tx_accepts.

(* the bytes are the serialization of the fields, in the BIP144 format if the
   flag comes with witnesses *)
Theorem tx_format_partial : forall H name net t, get_network name = Ok net -> tx_obj H net t ->
  tx_bytes t = wire_tx (the_tx t) /\ transaction_ok (the_tx t) /\
  (bip144 (the_tx t) <-> ~ (tx_flag t <> None /\ the_witnesses t = [])).
Proof.
  intros H name net t En O. destruct (tx_wire H name net t En O) as [W K]. split; [exact W|]. split; [exact K|].
  apply tx_obj_iff in O. destruct O as [_ [_ [_ [A _]]]]. unfold tx_args_ok in A. rewrite !andb_true_iff in A.
  unfold bip144, the_tx. cbn [t_witness t_ins]. unfold count. rewrite map_length. fold (zlen (tx_tx_ins t)).
  destruct (tx_flag t) as [f|]; [|intuition congruence]. rewrite map_length. fold (zlen (the_witnesses t)).
  unfold wits_ok, the_witnesses in *. destruct (tx_tx_witnesses t) as [ws|].
  - cbn [andb] in A. rewrite orb_true_iff, !Z.eqb_eq in A. split.
    + intros E [_ N]. subst ws. unfold zlen in *. cbn [length] in *. lia.
    + intros N. destruct ws as [|w ws]; [exfalso; apply N; split; [discriminate|reflexivity]|]. rewrite zlen_cons in *. pose proof (zlen_nonneg ws). lia.
  - split; [cbn; lia|]. intros N. exfalso. apply N. split; [discriminate|reflexivity].
Qed.
Print Assumptions tx_format_partial.

(* objects for the examples: one input, one output, with and without witness *)
Definition ex_input : txin := txin_of {| op_tx_id := repeat 7 32; op_index := [1; 0; 0; 0]; op_bytes := repeat 7 32 ++ [1; 0; 0; 0] |} [0] [] (repeat 255 4).
Definition ex_output : txout := {| to_value := [5; 0; 0; 0; 0; 0; 0; 0]; to_output_script := [81]; to_bytes_ := [5; 0; 0; 0; 0; 0; 0; 0; 1; 81] |}.
Definition ex_wit : witness := {| wit_stack := [{| wi_item := [3; 4]; wi_bytes := [2; 3; 4] |}]; wit_bytes := [1; 2; 3; 4] |}.
Definition ex_segwit : tx := tx_of toy BitcoinMain [2; 0; 0; 0] (Some [0; 1]) [ex_input] [ex_output] (Some [ex_wit]) [0; 0; 0; 0].
Definition ex_legacy : tx := tx_of toy BitcoinMain [2; 0; 0; 0] None [ex_input] [ex_output] None [0; 0; 0; 0].
Example ex_objects : tx_obj toy BitcoinMain ex_segwit /\ tx_obj toy BitcoinMain ex_legacy /\
  tx_bytes ex_segwit = [2; 0; 0; 0; 0; 1; 1] ++ repeat 7 32 ++ [1; 0; 0; 0; 1; 0; 255; 255; 255; 255; 1; 5; 0; 0; 0; 0; 0; 0; 0; 1; 81; 1; 2; 3; 4; 0; 0; 0; 0].
Proof. repeat split; repeat constructor. Qed.

(* C23 fails for the flag without witnesses: such a transaction is accepted, and
   its bytes are not the serialization of any transaction *)
Theorem tx_format_refuted : exists t, tx_obj toy BitcoinMain t /\ tx_flag t = Some marker_and_flag /\
  forall tr, transaction_ok tr -> bip144 tr -> tx_bytes t <> wire_tx tr.
Proof.
  exists (tx_of toy BitcoinMain [2; 0; 0; 0] (Some [0; 1]) [ex_input] [ex_output] None [0; 0; 0; 0]).
  split; [repeat split; repeat constructor|]. split; [reflexivity|]. intros tr K B.
  match goal with |- ?b <> _ => assert (b = [2; 0; 0; 0] ++ marker_and_flag ++ vector_wire input_wire [the_input ex_input] ++
    vector_wire output_wire [the_output ex_output] ++ [0; 0; 0; 0]) as -> by (vm_compute; reflexivity) end.
  apply (flag_without_witness _ _ _ _ tr K B); [reflexivity|reflexivity|unfold count; cbn [length]; lia|unfold count; cbn [length]; lia| |].
  - constructor; [|constructor]. repeat split.
  - constructor; [|constructor]. repeat split.
Qed.
Print Assumptions tx_format_refuted.

(* C24: serialize, then parse.  Whatever follows is ignored if the transaction is
   in the BIP144 or original format *)
Theorem tx_roundtrip_partial : forall H name net t rest, get_network name = Ok net -> tx_obj H net t -> parsable name (the_tx t) ->
  (bip144 (the_tx t) \/ rest = []) ->
  exists t', Tx_from_bytes H net (tx_bytes t ++ rest) = Ok t' /\ tx_obj H net t' /\ the_tx t' = the_tx t /\
    tx_tx_witnesses t' = Some (match tx_flag t with Some _ => the_witnesses t | None => [] end) /\
    tx_bytes t' = tx_bytes t /\ tx_tx_id t' = tx_tx_id t /\ tx_wtx_id t' = tx_wtx_id t.
Proof. exact tx_parse. Qed.
Print Assumptions tx_roundtrip_partial.
Example parsable_ex : parsable (lit "bitcoin_main") (the_tx ex_segwit) /\ bip144 (the_tx ex_segwit) /\
  exists t', Tx_from_bytes toy BitcoinMain (tx_bytes ex_segwit ++ [1; 2; 3]) = Ok t' /\ tx_tx_id t' = tx_tx_id ex_segwit.
Proof.
  split; [|split; [reflexivity|eexists; split; vm_compute; reflexivity]].
  assert (readable_size (lit "bitcoin_main") 1 /\ readable_size (lit "bitcoin_main") 2) as [R1 R2] by (split; right; lia).
  split; [|repeat constructor]. split; [exact R1|]. split; [exact R1|]. split; [|constructor; [split; [exact R1|constructor; [exact R2|constructor]]|constructor]].
  constructor; [|constructor]. split; [exact R1|]. right. left. exists [Op 0 (lit "OP_0")]. split; [|reflexivity].
  constructor; [|constructor]. split; [|lia]. rewrite LScript.opcodes_of_b. vm_compute. left. reflexivity.
Qed.
(* C24 fails for the witness list of a transaction without flag: None becomes an
   empty list (C32 shows what follows from that) *)
Theorem tx_roundtrip_refuted : exists t t', tx_obj toy BitcoinMain t /\ parsable (lit "bitcoin_main") (the_tx t) /\
  Tx_from_bytes toy BitcoinMain (tx_bytes t) = Ok t' /\ tx_tx_witnesses t = None /\ tx_tx_witnesses t' = Some [].
Proof.
  exists ex_legacy. eexists. split; [apply ex_objects|]. split; [|split; [vm_compute; reflexivity|split; reflexivity]].
  destruct (proj1 parsable_ex) as [[A [B [C D]]] E]. split; [|exact E]. split; [exact A|]. split; [exact B|]. split; [exact C|exact I].
Qed.
Print Assumptions tx_roundtrip_refuted.

(* C25: parse, then serialize: for every transaction whose scriptSigs survive,
   parsing succeeds exactly if scriptSigs have at most 1650 and output scripts
   less than 252 bytes, and gives back the same bytes *)
Theorem parse_serialize_partial : forall H name net tr rest, get_network name = Ok net ->
  transaction_ok tr -> bip144 tr -> kept_tx name tr ->
  ((exists t, Tx_from_bytes H net (wire_tx tr ++ rest) = Ok t) <->
   (Forall (fun i => len (in_script i) <= 1650) (t_ins tr) /\ Forall (fun o => len (out_script o) < 252) (t_outs tr))) /\
  forall t, Tx_from_bytes H net (wire_tx tr ++ rest) = Ok t ->
    tx_obj H net t /\ the_tx t = tr /\ tx_bytes t = wire_tx tr.
Proof. exact wire_tx_parse. Qed.
Print Assumptions parse_serialize_partial.
Example parse_serialize_ex : transaction_ok (the_tx ex_segwit) /\ bip144 (the_tx ex_segwit) /\ kept_tx (lit "bitcoin_main") (the_tx ex_segwit).
Proof.
  split; [|split; [reflexivity|apply parsable_ex]].
  apply (tx_wire toy (lit "bitcoin_main") BitcoinMain ex_segwit); [vm_compute; reflexivity|apply ex_objects].
Qed.
(* the scripts that survive: the rest of the network's scripts do not *)
Example kept_script_ex : kept_script (lit "bitcoin_main") [76; 1; 200] /\ kept_script (lit "bitcoin_main") [76; 1; 170; 81] /\ kept_script (lit "bitcoin_main") [5; 1].
Proof.
  assert (element_ok (lit "bitcoin_main") (Push Pushdata1 [200]) /\ element_ok (lit "bitcoin_main") (Push Pushdata1 [170])) as [P1 P2].
  { split; (split; [repeat constructor; lia|vm_compute; discriminate]). }
  split; [|split].
  - right. right. exists [], (Push Pushdata1 [200]). split; [constructor; [exact P1|constructor]|]. split; [reflexivity|].
    exists [], [200]. split; [constructor|]. split; [repeat constructor; lia|]. split; [|reflexivity]. apply stuck_unknown.
    split; [lia|]. split; [lia|]. intros n. rewrite LScript.opcodes_of_b. intros I.
    assert (existsb (fun o => fst o =? 200) (LScript.opcodes_b (lit "bitcoin_main")) = true) as X.
    { apply existsb_exists. exists (200, n). split; [exact I|reflexivity]. }
    vm_compute in X. discriminate.
  - right. right. exists [Push Pushdata1 [170]], (Op 81 (lit "OP_1")). split; [|split; [reflexivity|exact Logic.I]].
    constructor; [exact P2|constructor; [|constructor]]. split; [|lia]. rewrite LScript.opcodes_of_b.
    assert (existsb (fun o => (fst o =? 81) && leqb (snd o) (lit "OP_1")) (LScript.opcodes_b (lit "bitcoin_main")) = true) as X by (vm_compute; reflexivity).
    apply existsb_exists in X. destruct X as [[c n] [I X]]. cbn [fst snd] in X. apply andb_true_iff in X.
    destruct X as [X1 X2]. apply Z.eqb_eq in X1. apply leqb_eq in X2. subst. exact I.
  - right. left. exists [], [5; 1]. split; [constructor|]. split; [repeat constructor; lia|]. split; [|reflexivity].
    apply (stuck_direct _ _ [1]). constructor; [lia|vm_compute; reflexivity].
Qed.

(* C25 fails for a scriptSig with a longer push than necessary: this transaction
   parses to one with another serialization, input sequence, output and lock
   time, and hence another id *)
Definition shifted : transaction :=
  {| t_version := [1; 0; 0; 0];
     t_ins := [{| in_txid := repeat 7 32; in_index := [0; 0; 0; 0]; in_script := [76; 1; 170]; in_sequence := [0; 0; 0; 1] |}];
     t_outs := [{| out_value := [1; 2; 3; 0; 0; 0; 0; 0]; out_script := [81; 82; 83] |}];
     t_witness := None; t_lock := [9; 9; 9; 9] |}.
Theorem parse_serialize_refuted : exists t, transaction_ok shifted /\ bip144 shifted /\
  Tx_from_bytes toy BitcoinMain (wire_tx shifted) = Ok t /\ tx_bytes t <> wire_tx shifted /\
  tx_lock_time t = [3; 81; 82; 83] /\ map the_output (tx_tx_outs t) = [{| out_value := [1; 1; 2; 3; 0; 0; 0; 0]; out_script := [] |}].
Proof.
  eexists. split.
  { split; [reflexivity|]. split; [reflexivity|]. split; [unfold count; cbn [shifted t_ins length]; lia|].
    split; [unfold count; cbn [shifted t_outs length]; lia|]. split; [|split; [|exact I]].
    - constructor; [|constructor]. repeat split.
    - constructor; [|constructor]. repeat split. }
  split; [exact I|].
  split; [vm_compute; reflexivity|]. split; [vm_compute; discriminate|]. split; reflexivity.
Qed.
Print Assumptions parse_serialize_refuted.
(* ... and for longer counts than necessary on networks that accept them *)
Theorem parse_long_count_refuted : exists b t, Tx_from_bytes toy BitcoinMain b = Ok t /\ tx_bytes t = tx_bytes ex_legacy /\
  b = [2; 0; 0; 0; 253; 1; 0] ++ skipn 5 (tx_bytes ex_legacy).
Proof. eexists. eexists. split; [|split; [|reflexivity]]; vm_compute; reflexivity. Qed.
Print Assumptions parse_long_count_refuted.

(* C26: the identifiers are hashes of the serialization without and with
   witnesses; wtx_id exists only if there is a flag *)
Theorem ids_partial : forall H name net t, get_network name = Ok net -> tx_obj H net t ->
  tx_tx_id_le t = hash256 H net (wire_tx (stripped (the_tx t))) /\
  tx_tx_id t = rev (hash256 H net (wire_tx (stripped (the_tx t)))) /\
  tx_wtx_id_le t = match tx_flag t with Some _ => Some (hash256 H net (wire_tx (the_tx t))) | None => None end /\
  tx_wtx_id t = match tx_flag t with Some _ => Some (rev (hash256 H net (wire_tx (the_tx t)))) | None => None end.
Proof. exact tx_ids. Qed.
Print Assumptions ids_partial.
(* which hash that is *)
Theorem ids_hash : forall H name net m, get_network name = Ok net ->
  (In name decred_names -> hash256 H net m = blake256d H m) /\ (~ In name decred_names -> hash256 H net m = sha256d H m).
Proof. exact LBase58.hash256_by_name. Qed.
Print Assumptions ids_hash.
(* flag and witnesses do not matter *)
Theorem tx_id_ignores_witnesses : forall H name net t u, get_network name = Ok net -> tx_obj H net t -> tx_obj H net u ->
  tx_version t = tx_version u -> tx_tx_ins t = tx_tx_ins u -> tx_tx_outs t = tx_tx_outs u -> tx_lock_time t = tx_lock_time u ->
  tx_tx_id t = tx_tx_id u.
Proof.
  intros H name net t u En Ot Ou E1 E2 E3 E4. destruct (tx_ids H name net t En Ot) as [_ [-> _]]. destruct (tx_ids H name net u En Ou) as [_ [-> _]].
  unfold stripped, the_tx. cbn [t_version t_ins t_outs t_lock]. rewrite E1, E2, E3, E4. reflexivity.
Qed.
Print Assumptions tx_id_ignores_witnesses.
Example tx_id_ex : tx_tx_id ex_segwit = tx_tx_id ex_legacy /\ tx_wtx_id ex_segwit <> Some (tx_tx_id ex_segwit).
Proof. split; [reflexivity|vm_compute; discriminate]. Qed.
Theorem tx_id_binding : forall H name net t u, get_network name = Ok net -> tx_obj H net t -> tx_obj H net u ->
  tx_tx_id t = tx_tx_id u ->
  stripped (the_tx t) = stripped (the_tx u) \/
  (wire_tx (stripped (the_tx t)) <> wire_tx (stripped (the_tx u)) /\
   hash256 H net (wire_tx (stripped (the_tx t))) = hash256 H net (wire_tx (stripped (the_tx u)))).
Proof. exact txid_binding. Qed.
Print Assumptions tx_id_binding.
Theorem wtx_id_binding : forall H name net t u, get_network name = Ok net -> tx_obj H net t -> tx_obj H net u ->
  bip144 (the_tx t) -> bip144 (the_tx u) -> tx_flag t <> None -> tx_flag u <> None -> tx_wtx_id t = tx_wtx_id u ->
  the_tx t = the_tx u \/
  (wire_tx (the_tx t) <> wire_tx (the_tx u) /\ hash256 H net (wire_tx (the_tx t)) = hash256 H net (wire_tx (the_tx u))).
Proof. exact wtxid_binding. Qed.
Print Assumptions wtx_id_binding.
(* the format itself: no transaction's serialization is a proper prefix of
   another's *)
Theorem wire_prefix_free : forall a b r s, transaction_ok a -> transaction_ok b -> bip144 a -> bip144 b ->
  wire_tx a ++ r = wire_tx b ++ s -> a = b /\ r = s.
Proof. exact wire_tx_prefix. Qed.
Print Assumptions wire_prefix_free.
(* C26 fails for transactions without flag: they have no wtx_id, although BIP141
   defines it to be the txid *)
Theorem wtx_id_legacy_refuted : tx_obj toy BitcoinMain ex_legacy /\ tx_wtx_id ex_legacy = None /\ get_wtx_id_le ex_legacy = Err AttributeError.
Proof. split; [apply ex_objects|split; reflexivity]. Qed.
Print Assumptions wtx_id_legacy_refuted.
