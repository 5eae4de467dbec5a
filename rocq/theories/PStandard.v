(* C48 and C60: networks/standard.py.  [push_only], [pay_to_pubkey], [multisig], [weight]
   and [final_at] are Bitcoin Core's rules, in SStandard.v; [refused_script] (STx.v)
   are the scripts that cannot be turned into text. *)
From Coq Require Import String.
From Verif Require Import Py SNum SNet SHash SScript SAddr SParams STx SStandard MNet MUtils MShared MScript MTx MBase58 MBech32 MCashaddr MAddr MStandard
  LBase LUtils LScript LTx LTxParse LTxWire LZcashTx LStandard LMultisig PTx.
Open Scope list_scope.
Open Scope Z_scope.

(* C48, full statement: is_push_only is True exactly for scripts of pushes.  One
   direction holds; the answer is never False. *)
Theorem is_push_only_partial : forall name net s, get_network name = Ok net -> push_only name s -> is_push_only net s = Ok true.
Proof. intros name net s En [es [F [_ ->]]]. rewrite is_push_only_spec, (deserialize_wires name net es En F). reflexivity. Qed.
Print Assumptions is_push_only_partial.
Theorem is_push_only_exact : forall name net s, get_network name = Ok net -> all_bytes s ->
  (refused_script name s -> exists e, is_push_only net s = Err e) /\ (~ refused_script name s -> is_push_only net s = Ok true).
Proof.
  intros name net s En B. rewrite is_push_only_spec. pose proof (refused_iff name net s En (proj1 (all_bytes_is_bytes s) B)) as R.
  destruct (deserialize net s) as [x|e].
  - split; [|reflexivity]. intros X. apply R in X. destruct X as [e X]. discriminate.
  - split; [eauto|]. intros X. destruct X. apply R. eauto.
Qed.
Print Assumptions is_push_only_exact.
Theorem is_push_only_refuted : exists s, is_push_only BitcoinMain s = Ok true /\ ~ push_only (lit "bitcoin_main") s.
Proof.
  exists [0x76; 0xac]. split; [vm_compute; reflexivity|]. intros [es [F [P E]]].
  destruct es as [|[c n|f d] es]; [discriminate E| |].
  - cbn [map wire concat app] in E. injection E as <- _. inversion P as [|? ? Q]; subst. cbn in Q. lia.
  - inversion F as [|? ? X _]; subst. destruct X as [_ X]. destruct f; cbn [map wire push concat app] in E; injection E as E _; cbn in X; lia.
Qed.
Print Assumptions is_push_only_refuted.
Example is_push_only_ex : push_only (lit "bitcoin_main") [0; 0x51; 2; 170; 187].
Proof.
  exists [Op 0 (lit "OP_0"); Op 0x51 (lit "OP_1"); Push Direct [170; 187]]. split; [|split; [|reflexivity]].
  - constructor; [split; [apply op_in; vm_compute; reflexivity|lia]|]. constructor; [split; [apply op_in; vm_compute; reflexivity|lia]|].
    constructor; [|constructor]. split; [repeat constructor; lia|cbn; lia].
  - repeat constructor; cbn; lia.
Qed.

(* C48: kinds of outputs *)
Theorem standard_template : forall H name net k h o, hashes_ok H -> get_network name = Ok net -> all_bytes h -> len h = hash_len k ->
  (is_witness_payment k = true -> In name segwit_names) -> out_script (the_output o) = template k h -> is_standard_output_type H net o = Ok true.
Proof. intros H name net k h o K En. exact (template_standard H name net K En k h o). Qed.
Print Assumptions standard_template.
Theorem standard_multisig_output : forall H name net m keys o, hashes_ok H -> get_network name = Ok net -> 1 <= m <= count keys -> count keys <= 3 ->
  Forall all_bytes keys -> Forall pubkey_size keys -> out_script (the_output o) = multisig m keys -> is_standard_output_type H net o = Ok true.
Proof. intros H name net m keys o K En. exact (multisig_type H name net K En m keys o). Qed.
Print Assumptions standard_multisig_output.
Definition output_of (value : Z) (s : bytes) : txout :=
  match TxOut (le_bytes 8 value) s with Ok o => o | Err _ => ex_output end.
Example standard_output_ex :
  out_script (the_output (output_of 1000 (multisig 1 [repeat 2 33; repeat 3 33]))) = [0x51; 33] ++ repeat 2 33 ++ [33] ++ repeat 3 33 ++ [0x52; 0xae] /\
  is_standard_output_type toy BitcoinMain (output_of 1000 (multisig 1 [repeat 2 33; repeat 3 33])) = Ok true /\
  is_standard_output_type toy BitcoinMain (output_of 1000 [0x51]) = Ok false.
Proof. split; [vm_compute; reflexivity|]. split; vm_compute; reflexivity. Qed.
(* C48 fails: payments to public keys raise, null data is not standard, and the
   signature count of OP_11 is taken for 1 *)
Theorem standard_pubkey_refuted : forall H name net key o, hashes_ok H -> get_network name = Ok net -> all_bytes key -> pubkey_size key ->
  out_script (the_output o) = pay_to_pubkey key -> is_standard_output_type H net o = Err ValueError.
Proof. intros H name net key o K En. exact (p2pk_type H name net K En key o). Qed.
Print Assumptions standard_pubkey_refuted.
Theorem standard_null_data_refuted : forall H name net d o, hashes_ok H -> get_network name = Ok net -> all_bytes d -> 1 <= len d <= 1000 ->
  out_script (the_output o) = 106 :: push (smallest d) d -> is_standard_output_type H net o = Ok false.
Proof. intros H name net d o K En. exact (op_return_type H name net K En d o). Qed.
Print Assumptions standard_null_data_refuted.
Theorem standard_multisig_refuted : is_standard_output_type toy BitcoinMain (output_of 1000 ([0x5b; 33] ++ repeat 2 33 ++ [0x51; 0xae])) = Ok true /\
  deserialize BitcoinMain ([0x5b; 33] ++ repeat 2 33 ++ [0x51; 0xae]) = Ok (lit "OP_11 " ++ hex (repeat 2 33) ++ lit " OP_1 OP_CHECKMULTISIG").
Proof. split; vm_compute; reflexivity. Qed.
Print Assumptions standard_multisig_refuted.

(* C60: the outputs that are called standard *)
Theorem standard_output_exact : forall H name net es o, hashes_ok H -> get_network name = Ok net ->
  Forall (element_ok name) es -> Forall (fun e => text e <> []) es -> out_script (the_output o) = concat (map wire es) ->
  is_standard_output_type H net o = Ok true <->
  (exists k h, len h = hash_len k /\ looks_like k h (concat (map wire es)) /\
     (is_witness_payment k = true -> In name segwit_names \/ exists p, cash_network name p)) \/
  loose_multisig es.
Proof. intros H name net es o K En. exact (standard_type_exact H name net K En es o). Qed.
Print Assumptions standard_output_exact.
Definition loose_ex (first : element) (keys : list bytes) : list element :=
  first :: map (Push Direct) keys ++ [small_int (count keys); Op 174 (lit "OP_CHECKMULTISIG")].
(* a signature count of zero, eleven, or a push that happens to end in a digit *)
Example standard_output_exact_ex :
  let o e keys := output_of 1000 (concat (map wire (loose_ex e keys))) in
  loose_multisig (loose_ex (Op 0 (lit "OP_0")) [repeat 2 33]) /\
  is_standard_output_type toy BitcoinMain (o (Op 0 (lit "OP_0")) [repeat 2 33]) = Ok true /\
  is_standard_output_type toy BitcoinMain (o (Push Direct [0xa1]) [repeat 2 65; repeat 3 33]) = Ok true /\
  is_standard_output_type toy BitcoinMain (o (small_int 12) [repeat 2 65; repeat 3 33]) = Ok true /\
  is_standard_output_type toy BitcoinMain (o (small_int 3) [repeat 2 65; repeat 3 33]) = Ok false /\
  is_standard_output_type toy BitcoinMain (o (small_int 1) [repeat 2 33; repeat 2 33; repeat 2 33; repeat 2 33]) = Ok false /\
  is_standard_output_type toy BitcoinMain (o (small_int 1) [repeat 2 34]) = Ok false.
Proof.
  split; [|vm_compute; repeat split; reflexivity].
  exists (Op 0 (lit "OP_0")), [Push Direct (repeat 2 33)], (lit "OP_"), 0. split; [reflexivity|]. split; [unfold count; cbn; lia|].
  split; [|split; [reflexivity|split; [lia|unfold count; cbn; lia]]]. constructor; [|constructor]. exists Direct, (repeat 2 33). split; [reflexivity|left; reflexivity].
Qed.

(* C48: a payment to one standard script.  Full statement: the same for any
   number of outputs; the last theorem shows that it fails. *)
Theorem standard_payment_partial : forall H name net t k h o, hashes_ok H -> get_network name = Ok net -> tx_obj H net t ->
  (hd 0 (tx_version t) = 1 \/ hd 0 (tx_version t) = 2) -> weight t <= 400000 ->
  Forall (fun i => all_bytes (ti_script_sig i) /\ ~ refused_script name (ti_script_sig i)) (tx_tx_ins t) ->
  tx_tx_outs t = [o] -> all_bytes h -> len h = hash_len k -> (is_witness_payment k = true -> In name segwit_names) ->
  out_script (the_output o) = template k h -> 550 <= le_value (to_value o) ->
  check_is_standard_tx H net t = Ok true.
Proof.
  intros H name net t k h o K En O V W Fi Eo B L Sk Es D.
  assert (Forall (fun i => all_bytes (ti_script_sig i)) (tx_tx_ins t)) as Fb by (eapply Forall_impl; [|exact Fi]; intros i X; apply X).
  rewrite (tx_cases H name net En t _ O eq_refl Fb).
  assert (negb (zmem (hd 0 (tx_version t)) [1; 2]) = false) as -> by (destruct V as [-> | ->]; reflexivity).
  destruct (Z.ltb_spec 400000 (weight t)); [lia|].
  assert (standard_inputs net (tx_tx_ins t) = true) as ->.
  { apply (standard_inputs_spec name net _ En); [apply tx_obj_iff in O; apply O| |].
    - eapply Forall_impl; [|exact Fb]. intros i X. apply all_bytes_is_bytes, X.
    - eapply Forall_impl; [|exact Fi]. intros i X. apply X. }
  cbn [negb]. rewrite (single_template H name net K En k h o t B L Sk Eo Es). destruct (Z.leb_spec 550 (le_value (to_value o))); [reflexivity|lia].
Qed.
Print Assumptions standard_payment_partial.
(* what makes a transaction not standard *)
Theorem not_standard : forall H name net t, hashes_ok H -> get_network name = Ok net -> tx_obj H net t ->
  Forall (fun i => all_bytes (ti_script_sig i)) (tx_tx_ins t) ->
  (hd 0 (tx_version t) <> 1 /\ hd 0 (tx_version t) <> 2) \/ 400000 < weight t \/
  Exists (fun i => refused_script name (ti_script_sig i)) (tx_tx_ins t) -> check_is_standard_tx H net t = Ok false.
Proof.
  intros H name net t K En O Fb X. rewrite (tx_cases H name net En t _ O eq_refl Fb).
  destruct (zmem (hd 0 (tx_version t)) [1; 2]) eqn:Z; [|reflexivity]. cbn [negb]. destruct X as [X|X].
  { exfalso. unfold zmem in Z. cbn [existsb] in Z. rewrite !orb_true_iff, !Z.eqb_eq in Z. lia. }
  destruct (Z.ltb_spec 400000 (weight t)); [reflexivity|]. destruct X as [X|X]; [lia|].
  assert (standard_inputs net (tx_tx_ins t) = false) as ->; [|reflexivity].
  apply (standard_inputs_spec name net _ En); [apply tx_obj_iff in O; apply O| |exact X].
  eapply Forall_impl; [|exact Fb]. intros i Y. apply all_bytes_is_bytes, Y.
Qed.
Print Assumptions not_standard.
(* a single output below 550 is dust, except a witness key hash *)
Theorem dust_exact : forall H name net t k h o, hashes_ok H -> get_network name = Ok net ->
  tx_tx_outs t = [o] -> all_bytes h -> len h = hash_len k -> (is_witness_payment k = true -> In name segwit_names) ->
  out_script (the_output o) = template k h -> le_value (to_value o) < 550 ->
  check_is_standard H net t = Ok (match k with P2WPKH => true | _ => false end).
Proof.
  intros H name net t k h o K En Eo B L Sk Es D. rewrite (single_template H name net K En k h o t B L Sk Eo Es).
  destruct (Z.leb_spec 550 (le_value (to_value o))); [lia|reflexivity].
Qed.
Print Assumptions dust_exact.
Theorem several_outputs_refuted : forall H net t, 2 <= count (tx_tx_outs t) ->
  check_is_standard H net t <> Ok true /\ check_is_standard_tx H net t <> Ok true.
Proof. intros H net t L. split; [exact (many_outputs H net t L)|exact (many_outputs_tx H net t L)]. Qed.
Print Assumptions several_outputs_refuted.
Theorem check_tx_size_small_exact : forall H name net t, get_network name = Ok net -> tx_obj H net t ->
  check_tx_size_small t = Ok (82 <=? len (wire_tx (stripped (the_tx t)))).
Proof. intros H name net t En. exact (size_small H name net En t). Qed.
Print Assumptions check_tx_size_small_exact.
Definition ex_payment (outs : list txout) : tx := tx_of toy BitcoinMain [2; 0; 0; 0] None [ex_input] outs None [0; 0; 0; 0].
Example standard_payment_ex :
  let o := output_of 1000 (template P2PKH (repeat 9 20)) in
  tx_obj toy BitcoinMain (ex_payment [o]) /\ weight (ex_payment [o]) = 344 /\ out_script (the_output o) = template P2PKH (repeat 9 20) /\
  ~ refused_script (lit "bitcoin_main") (ti_script_sig ex_input) /\
  check_is_standard_tx toy BitcoinMain (ex_payment [o]) = Ok true /\
  check_is_standard_tx toy BitcoinMain (ex_payment [o; o]) = Ok false /\
  check_is_standard toy BitcoinMain (ex_payment [output_of 0 (template P2WPKH (repeat 9 20))]) = Ok true.
Proof.
  split; [repeat split; repeat constructor|]. split; [vm_compute; reflexivity|]. split; [vm_compute; reflexivity|]. split.
  { intros R. apply (refused_iff (lit "bitcoin_main") BitcoinMain) in R; [|reflexivity|repeat constructor; lia]. destruct R as [e R]. vm_compute in R. discriminate. }
  split; [vm_compute; reflexivity|]. split; vm_compute; reflexivity.
Qed.

(* C48: finality of the next block, given the best height and median time.
   Missing: transactions whose inputs are all final, and a lock time equal to the
   time, where check_final and Bitcoin differ. *)
Theorem check_final_partial : forall t height time, 0 <= height -> 0 <= le_value (tx_lock_time t) ->
  ~ Forall (fun i => ti_sequence i = [255; 255; 255; 255]) (tx_tx_ins t) ->
  (le_value (tx_lock_time t) < 500000000 \/ le_value (tx_lock_time t) <> time) ->
  (check_final t height time = true <-> final_at (the_tx t) (height + 1) time).
Proof. exact check_final_exact. Qed.
Print Assumptions check_final_partial.
Definition ex_locked (sequence lock : bytes) : tx :=
  tx_of toy BitcoinMain [2; 0; 0; 0] None [txin_of (ti_outpoint ex_input) [0] [] sequence] [ex_output] None lock.
Theorem check_final_refuted :
  (exists t, tx_obj toy BitcoinMain t /\ check_final t 0 500000000 = true /\ ~ final_at (the_tx t) 1 500000000) /\
  (exists t, tx_obj toy BitcoinMain t /\ check_final t 0 0 = false /\ final_at (the_tx t) 1 0).
Proof.
  split.
  - exists (ex_locked [0; 0; 0; 0] [0; 0x65; 0xcd; 0x1d]). split; [repeat split; repeat constructor|]. split; [vm_compute; reflexivity|].
    intros [X|[X|X]]; [vm_compute in X; discriminate|vm_compute in X; discriminate|]. inversion X as [|? ? Y]; subst. vm_compute in Y. discriminate.
  - exists (ex_locked [255; 255; 255; 255] [7; 0; 0; 0]). split; [repeat split; repeat constructor|]. split; [vm_compute; reflexivity|].
    right. right. repeat constructor.
Qed.
Print Assumptions check_final_refuted.

(* C48: these are all the cases in which it differs from Bitcoin *)
Theorem check_final_cases : forall t height time, 0 <= height -> 0 <= le_value (tx_lock_time t) ->
  let lock := le_value (tx_lock_time t) in
  let all_final := Forall (fun i => ti_sequence i = [255; 255; 255; 255]) (tx_tx_ins t) in
  (check_final t height time = true /\ ~ final_at (the_tx t) (height + 1) time <->
   500000000 <= lock /\ lock = time /\ ~ all_final) /\
  (check_final t height time = false /\ final_at (the_tx t) (height + 1) time <->
   (if lock <? 500000000 then height else time) < lock /\ all_final).
Proof. exact check_final_differs. Qed.
Print Assumptions check_final_cases.
Example check_final_ex : check_final (ex_locked [0; 0; 0; 0] [7; 0; 0; 0]) 7 0 = true /\ check_final (ex_locked [0; 0; 0; 0] [7; 0; 0; 0]) 6 0 = false.
Proof. split; vm_compute; reflexivity. Qed.
