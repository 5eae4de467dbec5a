(* C82: what networks/standard.py says of every script and every transaction, also where
   that is not Bitcoin Core's policy.  [reads_as], [shown], [addressed], [answer] and
   [accepted_output] are in SStandard.v, [refused_script] in STx.v. *)
From Coq Require Import String.
From Verif Require Import Py SNum SNet SHash SScript SAddr SParams STx SStandard MNet MUtils MShared MScript MTx MBase58 MBech32 MCashaddr MAddr MStandard
  LBase LUtils LScript LTx LTxParse LTxWire LStandard LMultisig LStandardAll PTx PStandard.
Open Scope list_scope.
Open Scope Z_scope.

(* every script of bytes is either refused or read as elements, never both, and the words
   of the elements have exactly one answer *)
Theorem standard_reading_total : forall name net s, get_network name = Ok net -> all_bytes s ->
  (refused_script name s \/ exists es, reads_as name s es) /\
  (forall es, reads_as name s es -> ~ refused_script name s /\ exists r, answer (shown es) r /\ forall r', answer (shown es) r' -> r' = r).
Proof.
  intros name net s En B. split; [exact (reading_total name net En s B)|]. intros es R. split.
  - intros X. apply (refused_iff name net s En (proj1 (all_bytes_is_bytes s) B)) in X. destruct X as [e X].
    destruct (reading_text name net En s es B R) as [Y _]. congruence.
  - pose proof (shown_ok name s es R) as O. pose proof (shown_text es) as T. destruct (answer_total (shown es) T) as [r A].
    exists r. split; [exact A|]. intros r' A'. apply (answer_body name net En _ _ O T) in A, A'. congruence.
Qed.
Print Assumptions standard_reading_total.

Theorem standard_output_total : forall H name net o, hashes_ok H -> get_network name = Ok net -> all_bytes (out_script (the_output o)) ->
  (addressed name (out_script (the_output o)) -> is_standard_output_type H net o = Ok true) /\
  (~ addressed name (out_script (the_output o)) ->
     (refused_script name (out_script (the_output o)) -> exists e, is_standard_output_type H net o = Err e) /\
     forall es r, reads_as name (out_script (the_output o)) es -> answer (shown es) r -> is_standard_output_type H net o = r).
Proof.
  intros H name net o K En B. split; [exact (type_pays H name net K En o B)|]. intros N.
  split; [exact (type_refused H name net K En o B N)|]. intros es r. exact (type_answer H name net K En o es r B N).
Qed.
Print Assumptions standard_output_total.

(* an output that carries data: no value, OP_RETURN first, fewer than 80 characters of text *)
Theorem is_op_return_total : forall name net o, get_network name = Ok net -> all_bytes (out_script (the_output o)) ->
  (refused_script name (out_script (the_output o)) -> exists e, is_op_return net o = Err e) /\
  (forall es, reads_as name (out_script (the_output o)) es ->
     (le_value (out_value (the_output o)) <> 0 -> is_op_return net o = Ok false) /\
     (le_value (out_value (the_output o)) = 0 -> shown es = [] -> is_op_return net o = Err IndexError) /\
     (forall e l, le_value (out_value (the_output o)) = 0 -> shown es = e :: l -> exists b, is_op_return net o = Ok b /\
        (b = true <-> e = Op 106 (lit "OP_RETURN") /\ len (join (lit " ") (map text es)) < 80))).
Proof.
  intros name net o En B. split.
  - intros R. apply (refused_iff name net _ En (proj1 (all_bytes_is_bytes _) B)) in R. destruct R as [e R]. exists e. unfold is_op_return.
    change (MTx.to_output_script o) with (out_script (the_output o)). rewrite R. reflexivity.
  - intros es R. rewrite (op_return_all name net En o es B R). change (to_value o) with (out_value (the_output o)). split; [|split].
    + intros V. destruct (Z.eqb_spec (le_value (out_value (the_output o))) 0); [contradiction|reflexivity].
    + intros -> ->. reflexivity.
    + intros e l -> ->. eexists. split; [reflexivity|]. destruct (element_eq_dec e (Op 106 (lit "OP_RETURN"))) as [E|E]; cbn [andb].
      * rewrite Z.ltb_lt. tauto.
      * split; [discriminate|]. intros [X _]. contradiction.
Qed.
Print Assumptions is_op_return_total.

(* transactions: at most one output can be accepted *)
Theorem check_is_standard_total : forall H name net t, hashes_ok H -> get_network name = Ok net -> tx_tx_outs t <> [] ->
  Forall (fun o => all_bytes (out_script (the_output o))) (tx_tx_outs t) ->
  check_is_standard H net t = Ok true <->
  exists o, tx_tx_outs t = [o] /\ accepted_output name (le_value (out_value (the_output o))) (out_script (the_output o)).
Proof. intros H name net t K En N B. exact (standard_exact H name net K En t B N). Qed.
Print Assumptions check_is_standard_total.
Theorem check_is_standard_tx_total : forall H name net t, hashes_ok H -> get_network name = Ok net -> tx_obj H net t ->
  Forall (fun i => all_bytes (ti_script_sig i)) (tx_tx_ins t) -> Forall (fun o => all_bytes (out_script (the_output o))) (tx_tx_outs t) ->
  check_is_standard_tx H net t = Ok true <->
  (hd 0 (tx_version t) = 1 \/ hd 0 (tx_version t) = 2) /\ weight t <= 400000 /\
  Forall (fun i => ~ refused_script name (ti_script_sig i)) (tx_tx_ins t) /\
  exists o, tx_tx_outs t = [o] /\ accepted_output name (le_value (out_value (the_output o))) (out_script (the_output o)).
Proof. intros H name net t K En O Bi Bo. exact (standard_tx_exact H name net K En t O Bi Bo). Qed.
Print Assumptions check_is_standard_tx_total.

(* The words are what counts: empty pushes may stand anywhere, and the last push may be
   cut short.  34 bytes of data are an OP_RETURN output, 35 are not. *)
Definition ex_out (value : Z) (es : list element) : txout := output_of value (concat (map wire es)).
Definition ex_padded : list element :=
  [Push Pushdata1 []; Op 81 (lit "OP_1"); Push Pushdata2 []; Push Pushdata1 (repeat 2 33); small_int 1; CHECKMULTISIG].
Definition ex_data (n : nat) : list element := [Op 106 (lit "OP_RETURN"); Push Direct (repeat 7 n)].
Example standard_all_ex :
  reads_as (lit "bitcoin_main") (out_script (the_output (ex_out 600 ex_padded))) ex_padded /\ answer (shown ex_padded) (Ok true) /\
  is_standard_output_type toy BitcoinMain (ex_out 600 ex_padded) = Ok true /\
  check_is_standard toy BitcoinMain (ex_payment [ex_out 600 ex_padded]) = Ok true /\
  check_is_standard toy BitcoinMain (ex_payment [ex_out 549 ex_padded]) = Ok false /\
  is_op_return BitcoinMain (ex_out 0 (ex_data 34)) = Ok true /\ is_op_return BitcoinMain (ex_out 0 (ex_data 35)) = Ok false /\
  is_op_return BitcoinMain (ex_out 1 (ex_data 34)) = Ok false /\ is_op_return BitcoinMain (ex_out 0 [Push Pushdata1 []]) = Err IndexError /\
  is_standard_output_type toy BitcoinMain (ex_out 1 [Op 81 (lit "OP_1"); CHECKSIG]) = Err ValueError.
Proof.
  split.
  { split; [|left; vm_compute; reflexivity]. unfold ex_padded.
    repeat (constructor; [first [split; [apply op_in; vm_compute; reflexivity|lia]|split; [repeat constructor; lia|cbn; lia]]|]). constructor. }
  split.
  { change (shown ex_padded) with (Op 81 (lit "OP_1") :: [Push Pushdata1 (repeat 2 33)] ++ [small_int 1; CHECKMULTISIG]).
    apply (answer_multisig _ _ 1 1); [lia| |lia|reflexivity|].
    - split; [lia|]. exists (lit "OP_"). reflexivity.
    - constructor; [|constructor]. exists Pushdata1, (repeat 2 33). split; [reflexivity|left; reflexivity]. }
  vm_compute. repeat split; reflexivity.
Qed.
