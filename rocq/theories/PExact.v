(* C90: exactly which scriptSigs, inputs and transactions are read as themselves *)
From Coq Require Import String.
From Verif Require Import Py LBase MNet MUtils MShared MScript MTx SHash SNum SNet SScript STx SStandard SExact LNet LScript LTx LTxParse LTxWire LIdem LIdemErr LExact.
Open Scope list_scope.
Open Scope Z_scope.

(* What becomes of any scriptSig: [split_as] says when and how it is written again;
   in every other case it is kept, with an empty redeem script *)
Theorem script_sig_read name net s a b : get_network name = Ok net -> all_bytes s ->
  (TxIn_parse_script_sig net s = Ok (a, b) <->
   split_as name s a b \/ (~ (exists a' b', split_as name s a' b') /\ a = s /\ b = [])).
Proof. intros En B. exact (split_total name net En s a b B). Qed.

(* and one of the two cases always holds *)
Theorem script_sig_total name net s : get_network name = Ok net -> all_bytes s ->
  exists a b, TxIn_parse_script_sig net s = Ok (a, b) /\
    forall a' b', split_as name s a' b' -> a' = a /\ b' = b.
Proof.
  intros En B. destruct (split_cases name net En s B) as [[a [b X]]|[X P]].
  - exists a, b. pose proof (split_exact name net En s a b B X) as P. split; [exact P|]. intros a' b' Y.
    pose proof (split_exact name net En s a' b' B Y) as P'. rewrite P in P'. apply Ok_inj in P'. injection P' as -> ->. auto.
  - exists s, []. split; [exact P|]. intros a' b' Y. destruct X. eauto.
Qed.

(* the scriptSigs that are read as themselves *)
Theorem script_sig_survives name net s : get_network name = Ok net -> all_bytes s ->
  ((exists a b, TxIn_parse_script_sig net s = Ok (a, b) /\ a ++ b = s) <-> survives name s).
Proof. intros En B. symmetry. exact (survives_iff name net En s B). Qed.

(* Any well-formed input, whatever follows it: which object is made of it, if any *)
Theorem input_read_exact name net i r x : get_network name = Ok net -> input_ok i -> all_bytes (in_script i) ->
  (TxIn_from_bytes net (input_wire i ++ r) = Ok x <->
   readable_size name (len (in_script i)) /\ txin_obj x /\
   op_tx_id (ti_outpoint x) = in_txid i /\ op_index (ti_outpoint x) = in_index i /\ ti_sequence x = in_sequence i /\
   parts_of name i (ti_stack_script x) (ti_redeem_script x)).
Proof. intros En O B. exact (input_read name net En i r x O B). Qed.

(* so these are the inputs that are read as themselves *)
Theorem input_read_itself name net i r : get_network name = Ok net -> input_ok i -> all_bytes (in_script i) ->
  ((exists x, TxIn_from_bytes net (input_wire i ++ r) = Ok x /\ the_input x = i) <-> exact_in name i).
Proof.
  intros En O B. split.
  - intros [x [E X]]. exact (exact_input_inv name net En i r x O B E X).
  - intros P. destruct (exact_input_parse name net En i O B P) as [x [E [X _]]]. exists x. split; [apply E|exact X].
Qed.

(* and these the transactions; their bytes are then the bytes that were read *)
Theorem transaction_read_itself H name net T rest : get_network name = Ok net -> transaction_ok T -> bip144 T ->
  Forall (fun i => all_bytes (in_script i)) (t_ins T) ->
  ((exists t, Tx_from_bytes H net (wire_tx T ++ rest) = Ok t /\ the_tx t = T) <-> exact_tx name T) /\
  (exact_tx name T -> exists t, Tx_from_bytes H net (wire_tx T ++ rest) = Ok t /\ the_tx t = T /\ tx_obj H net t /\ tx_bytes t = wire_tx T).
Proof.
  intros En O B Bs. split; [split|].
  - intros [t [E X]]. exact (exact_backward H name net En T rest t O B Bs E X).
  - intros P. destruct (exact_forward H name net En T rest O B Bs P) as [t [E [X _]]]. eauto.
  - exact (exact_forward H name net En T rest O B Bs).
Qed.

(* the condition of C25 implies this one *)
Theorem parsable_exact name net T : get_network name = Ok net -> transaction_ok T -> Forall (fun i => all_bytes (in_script i)) (t_ins T) ->
  parsable name T -> Forall (fun i => len (in_script i) <= 1650) (t_ins T) -> exact_tx name T.
Proof.
  intros En _ Bs [[R1 [R2 [Pi Pw]]] Po] L. split; [exact R1|]. split; [exact R2|]. split; [|split; assumption].
  rewrite Forall_forall in *. intros i I. destruct (Pi i I) as [R [C|K]]; (split; [exact R|]; split; [apply L, I|]); [left; exact C|right].
  destruct (list_eq_dec Z.eq_dec (in_script i) []) as [Z|N].
  - left. exists []. split; [constructor|exact Z].
  - apply (survives_iff name net En _ (Bs i I)), (kept_split name net _ En K N).
Qed.

(** * Examples *)

Definition ex_input (s : bytes) : input :=
  {| in_txid := repeat 7 32; in_index := [2; 0; 0; 0]; in_script := s; in_sequence := [255; 255; 255; 1] |}.

Lemma bitcoin_readable n : readable_size (lit "bitcoin_main") n.
Proof. left. intros X. vm_compute in X. decompose [or] X; try discriminate; assumption. Qed.

(* OP_1 and a push of the script OP_2 in a longer form than needed: the two parts
   that are read are one byte shorter than the script *)
Example split_ex : split_as (lit "bitcoin_main") [81; 76; 1; 82] [81] [1; 82] /\ ~ survives (lit "bitcoin_main") [81; 76; 1; 82].
Proof.
  assert (all_bytes [81; 76; 1; 82]) as B by (repeat constructor; discriminate).
  assert (exists net, get_network (lit "bitcoin_main") = Ok net) as [net En] by (eexists; reflexivity).
  assert (TxIn_parse_script_sig net [81; 76; 1; 82] = Ok ([81], [1; 82])) as P.
  { assert (match get_network (lit "bitcoin_main") with Ok n => TxIn_parse_script_sig n [81; 76; 1; 82] = Ok ([81], [1; 82]) | Err _ => False end) as X by (vm_compute; reflexivity).
    rewrite En in X. exact X. }
  split.
  - apply (script_sig_read _ net _ _ _ En B) in P. destruct P as [P|[_ [P _]]]; [exact P|discriminate P].
  - intros S. apply (script_sig_survives _ net _ En B) in S. destruct S as [a [b [P' E]]].
    pose proof (eq_trans (eq_sym P) P') as X. apply Ok_inj in X. injection X as <- <-. discriminate E.
Qed.

(* a push that announces five bytes and has one: the parser completes it *)
Example split_overrun_ex : split_as (lit "bitcoin_main") [76; 5; 81] [] [1; 81].
Proof.
  exists [Push Pushdata1 [81]], [], Pushdata1, [81]. split; [|split; [reflexivity|split; [repeat constructor; discriminate|split; [|split; reflexivity]]]].
  - split; [repeat constructor; discriminate|]. right. exists [], Pushdata1, [81], [76; 5; 81].
    split; [reflexivity|]. split; [reflexivity|]. split; [apply overrun_pushdata1; [lia|reflexivity]|]. split; discriminate.
  - intros X. assert (exists net, get_network (lit "bitcoin_main") = Ok net) as [net En] by (eexists; reflexivity).
    apply (refused_iff _ net _ En) in X; [|repeat constructor; discriminate]. destruct X as [e X].
    assert (match get_network (lit "bitcoin_main") with Ok n => exists t, deserialize n [81] = Ok t | Err _ => False end) as Y by (vm_compute; eauto).
    rewrite En in Y. destruct Y as [t Y]. pose proof (eq_trans (eq_sym X) Y) as Z. discriminate Z.
Qed.

(* a push of 1001 bytes saves a push of a redeem script from being split off *)
Example long_push_ex : let s := [77; 233; 3] ++ repeat 1 1001 ++ [76; 1; 81] in
  survives (lit "bitcoin_main") s /\ exact_in (lit "bitcoin_main") (ex_input s).
Proof.
  intros s. assert (all_bytes s) as B.
  { unfold s, all_bytes. apply is_bytes_app. split; [repeat constructor; discriminate|]. apply is_bytes_app. split; [|repeat constructor; discriminate].
    apply Forall_forall. intros x X. apply repeat_spec in X. subst x. split; [discriminate|reflexivity]. }
  assert (exists net, get_network (lit "bitcoin_main") = Ok net) as [net En] by (eexists; reflexivity).
  assert (TxIn_parse_script_sig net s = Ok (s, [])) as P.
  { assert (match get_network (lit "bitcoin_main") with Ok n => TxIn_parse_script_sig n s = Ok (s, []) | Err _ => False end) as X by (vm_compute; reflexivity).
    rewrite En in X. exact X. }
  assert (survives (lit "bitcoin_main") s) as S.
  { apply (script_sig_survives _ net _ En B). exists s, []. split; [exact P|apply app_nil_r]. }
  split; [exact S|]. split; [|split; [|right; exact S]].
  - apply bitcoin_readable.
  - vm_compute. discriminate.
Qed.

(* a transaction with this input meets all the hypotheses *)
Example exact_tx_ex : let s := [2; 9; 9; 2; 81; 82] in
  let T := {| t_version := [1; 0; 0; 0]; t_ins := [ex_input s]; t_outs := [{| out_value := [9; 0; 0; 0; 0; 0; 0; 0]; out_script := [81] |}];
              t_witness := Some [[[7; 7]; []]]; t_lock := [0; 0; 0; 0] |} in
  transaction_ok T /\ bip144 T /\ Forall (fun i => all_bytes (in_script i)) (t_ins T) /\ exact_tx (lit "bitcoin_main") T.
Proof.
  intros s T. assert (forall n, readable_size (lit "bitcoin_main") n) as R.
  { apply bitcoin_readable. }
  assert (transaction_ok T) as O.
  { unfold transaction_ok, T. cbn [t_version t_lock t_ins t_outs t_witness].
    split; [reflexivity|]. split; [reflexivity|]. split; [split; [discriminate|reflexivity]|]. split; [split; [discriminate|reflexivity]|].
    split; [constructor; [|constructor]; split; [reflexivity|split; [reflexivity|split; reflexivity]]|].
    split; [constructor; [|constructor]; split; reflexivity|]. constructor; [|constructor]. split; [reflexivity|].
    constructor; [reflexivity|constructor; [reflexivity|constructor]]. }
  split; [exact O|]. split; [reflexivity|]. split.
  { constructor; [|constructor]. repeat constructor; discriminate. }
  split; [apply R|]. split; [apply R|]. split; [|split].
  - constructor; [|constructor]. split; [apply R|]. split; [vm_compute; discriminate|]. right. left.
    exists [Push Direct [9; 9]; Push Direct [81; 82]]. split; [|reflexivity]. repeat constructor; try discriminate.
  - constructor; [reflexivity|constructor].
  - constructor; [|constructor]. split; [apply R|]. constructor; [apply R|constructor; [apply R|constructor]].
Qed.

Print Assumptions script_sig_read.
Print Assumptions script_sig_total.
Print Assumptions script_sig_survives.
Print Assumptions input_read_exact.
Print Assumptions input_read_itself.
Print Assumptions transaction_read_itself.
Print Assumptions parsable_exact.
Print Assumptions split_ex.
Print Assumptions split_overrun_ex.
Print Assumptions long_push_ex.
Print Assumptions exact_tx_ex.
