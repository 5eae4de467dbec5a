(* Property C47: Decred transactions *)
From Coq Require Import String.
From Verif Require Import Py LBase MNet MUtils MShared MScript MTx MDecred SNum SNet SHash SScript STx SSig SDecred LNet LTx LDecred LDecredSig LDecredTop.
Open Scope list_scope.
Open Scope Z_scope.

(* example: two inputs, one output, two witnesses *)
Definition ex_dtx : dtransaction :=
  {| d_version := [1; 0; 0; 0];
     d_ins := [{| di_txid := repeat 7 32; di_index := [1; 0; 0; 0]; di_tree := [0]; di_sequence := repeat 255 4 |};
               {| di_txid := repeat 8 32; di_index := [0; 0; 0; 0]; di_tree := [1]; di_sequence := repeat 255 4 |}];
     d_outs := [{| do_value := [5; 0; 0; 0; 0; 0; 0; 0]; do_version := [0; 0]; do_script := [81] |};
                {| do_value := [6; 0; 0; 0; 0; 0; 0; 0]; do_version := [0; 0]; do_script := [] |}];
     d_lock := [0; 0; 0; 0]; d_expiry := [9; 0; 0; 0];
     d_spends := [{| ds_value := repeat 1 8; ds_height := repeat 2 4; ds_index := repeat 3 4; ds_script := [118] |};
                  {| ds_value := repeat 4 8; ds_height := repeat 5 4; ds_index := repeat 6 4; ds_script := [] |}] |}.
Example ex_dtx_ok : dtransaction_ok ex_dtx.
Proof.
  unfold dtransaction_ok. repeat (split; [vm_compute; congruence|]).
  split; [|split; [|split; [|vm_compute; congruence]]];
    (apply Forall_cons; [|apply Forall_cons; [|apply Forall_nil]]); unfold dinput_ok, doutput_ok, dspend_ok; repeat split; vm_compute; congruence.
Qed.
Example decred_main_ex : get_network (lit "decred_main") = Ok DecredMain /\ In (lit "decred_main") decred_names.
Proof. split; [vm_compute; reflexivity|left; reflexivity]. Qed.

(* the constructor accepts exactly the well-formed transactions of at most 100000
   bytes, and keeps its arguments *)
Theorem decred_accepts : forall H name net version ins outs lock expiry wits,
  get_network name = Ok net -> In name decred_names ->
  Forall (dtxin_obj net) ins -> Forall (dtxout_obj net) outs -> Forall (dwitness_obj net) wits ->
  let d := {| d_version := version; d_ins := map the_dinput ins; d_outs := map the_doutput outs;
              d_lock := lock; d_expiry := expiry; d_spends := map the_dspend wits |} in
  (dtransaction_ok d /\ exists t, DecredTx H net version ins outs lock expiry wits = Ok t /\ dtx_obj H net t /\ the_dtx t = d) \/
  (~ dtransaction_ok d /\ DecredTx H net version ins outs lock expiry wits = Err ValueError).
Proof. intros. eapply top_rule; eassumption. Qed.
Print Assumptions decred_accepts.
(* every well-formed transaction is an object's *)
Theorem decred_exists : forall H name net d, get_network name = Ok net -> In name decred_names ->
  dtransaction_ok d -> exists t, dtx_obj H net t /\ the_dtx t = d.
Proof. intros. eapply top_exists; eassumption. Qed.
Print Assumptions decred_exists.
(* nothing can be made on other networks *)
Theorem decred_elsewhere : forall H name net, get_network name = Ok net -> ~ In name decred_names ->
  (forall a b c, DecredOutpoint net a b c = Err ValueError) /\ (forall o q, DecredTxIn net o q = Err ValueError) /\
  (forall v w s, DecredTxOut net v w s = Err ValueError) /\ (forall v h i s r, DecredInputWitness net v h i s r = Err ValueError) /\
  (forall v i o l e w, DecredTx H net v i o l e w = Err ValueError).
Proof. exact top_elsewhere. Qed.
Print Assumptions decred_elsewhere.

(* the bytes of an object and its identifier: the hash of the prefix, reversed *)
Theorem decred_format : forall H name net t, get_network name = Ok net -> In name decred_names -> dtx_obj H net t ->
  dtx_bytes t = dwire (the_dtx t) /\
  dtx_tx_id_le t = blake256 H (dprefix_wire (the_dtx t)) /\
  dtx_tx_id t = rev (blake256 H (dprefix_wire (the_dtx t))) /\
  dtransaction_ok (the_dtx t).
Proof. intros H name net t En I. apply (dtx_wire H net (decred_only_Ok name net En I)). Qed.
Print Assumptions decred_format.
Theorem decred_format_injective : forall a b, dtransaction_ok a -> dtransaction_ok b -> dwire a = dwire b -> a = b.
Proof. exact dwire_inj. Qed.
Print Assumptions decred_format_injective.
Theorem decred_serializations : forall H name net t, get_network name = Ok net -> In name decred_names -> dtx_obj H net t ->
  decred_prefix t = Ok (dprefix_wire (the_dtx t)) /\ decred_witness t = Ok (dwitness_wire (the_dtx t)) /\
  decred_witness_signing t = Ok (dsigning_wire (d_version (the_dtx t)) (map ds_script (d_spends (the_dtx t)))).
Proof. intros H name net t En I. exact (top_witness H name net En I t). Qed.
Print Assumptions decred_serializations.
(* the two hashes of the witnesses *)
Theorem decred_witness_hashes : forall H name net t, get_network name = Ok net -> In name decred_names -> dtx_obj H net t ->
  witness_hash H t = Ok (blake256 H (dwitness_wire (the_dtx t))) /\
  witness_signing_hash H t = Ok (blake256 H (dsigning_wire (d_version (the_dtx t)) (map ds_script (d_spends (the_dtx t))))).
Proof.
  intros H name net t En I O. destruct (decred_serializations H name net t En I O) as [_ [A B]]. unfold witness_hash, witness_signing_hash.
  rewrite A, B. split; reflexivity.
Qed.
Print Assumptions decred_witness_hashes.
Example decred_format_ex : exists t, dtx_obj toy DecredMain t /\ the_dtx t = ex_dtx /\
  dtx_bytes t = [1; 0; 0; 0; 2] ++ repeat 7 32 ++ [1; 0; 0; 0; 0; 255; 255; 255; 255] ++ repeat 8 32 ++ [0; 0; 0; 0; 1; 255; 255; 255; 255; 2;
    5; 0; 0; 0; 0; 0; 0; 0; 0; 0; 1; 81; 6; 0; 0; 0; 0; 0; 0; 0; 0; 0; 0; 0; 0; 0; 0; 9; 0; 0; 0; 2;
    1; 1; 1; 1; 1; 1; 1; 1; 2; 2; 2; 2; 3; 3; 3; 3; 1; 118; 4; 4; 4; 4; 4; 4; 4; 4; 5; 5; 5; 5; 6; 6; 6; 6; 0] /\
  firstn 4 (dprefix_wire ex_dtx) = [1; 0; 1; 0].
Proof.
  destruct (decred_exists toy (lit "decred_main") DecredMain ex_dtx) as [t [O E]]; [apply decred_main_ex|apply decred_main_ex|apply ex_dtx_ok|].
  exists t. split; [exact O|]. split; [exact E|]. split; [|reflexivity].
  destruct (decred_format toy (lit "decred_main") DecredMain t) as [B _]; [apply decred_main_ex|apply decred_main_ex|exact O|].
  rewrite B, E. reflexivity.
Qed.

(* the identifier covers the prefix and nothing else: not the serialization type in
   the version, not the witnesses *)
Theorem decred_id_binds : forall H name net t t', hashes_ok H -> get_network name = Ok net -> In name decred_names ->
  dtx_obj H net t -> dtx_obj H net t' -> dtx_tx_id t = dtx_tx_id t' ->
  collision (blake256 H) [dprefix_wire (the_dtx t); dprefix_wire (the_dtx t')] \/
  (firstn 2 (d_version (the_dtx t)) = firstn 2 (d_version (the_dtx t')) /\ d_ins (the_dtx t) = d_ins (the_dtx t') /\
   d_outs (the_dtx t) = d_outs (the_dtx t') /\ d_lock (the_dtx t) = d_lock (the_dtx t') /\ d_expiry (the_dtx t) = d_expiry (the_dtx t')).
Proof. intros H name net t t' HH En I. exact (top_id H name net En I t t' HH). Qed.
Print Assumptions decred_id_binds.
Theorem decred_id_ignores : forall H name net t t', get_network name = Ok net -> In name decred_names ->
  dtx_obj H net t -> dtx_obj H net t' ->
  firstn 2 (d_version (the_dtx t)) = firstn 2 (d_version (the_dtx t')) -> d_ins (the_dtx t) = d_ins (the_dtx t') ->
  d_outs (the_dtx t) = d_outs (the_dtx t') -> d_lock (the_dtx t) = d_lock (the_dtx t') -> d_expiry (the_dtx t) = d_expiry (the_dtx t') ->
  dtx_tx_id t = dtx_tx_id t'.
Proof. intros H name net t t' En I. exact (top_id_ignores H name net En I t t'). Qed.
Print Assumptions decred_id_ignores.

(* C47 fails: no transaction and no witness can be parsed *)
Theorem decred_parse_refuted : forall b,
  DecredTx_from_bytes b = Err NotImplementedError /\ DecredInputWitness_from_bytes b = Err NotImplementedError.
Proof. intros b. split; reflexivity. Qed.
Print Assumptions decred_parse_refuted.
(* outpoints, inputs and outputs can, if output scripts are shorter than 252 bytes *)
Theorem decred_parse_outpoint : forall name net o rest, get_network name = Ok net -> In name decred_names ->
  doutpoint_obj net o -> DecredOutpoint_from_bytes net (dop_bytes o ++ rest) = Ok o.
Proof. intros name net o rest En I. exact (top_parse_outpoint name net En I o rest). Qed.
Print Assumptions decred_parse_outpoint.
Theorem decred_parse_input : forall name net i rest, get_network name = Ok net -> In name decred_names ->
  dtxin_obj net i -> DecredTxIn_from_bytes net (dinput_wire (the_dinput i) ++ rest) = Ok i.
Proof. intros name net i rest En I. exact (top_parse_in name net En I i rest). Qed.
Print Assumptions decred_parse_input.
Theorem decred_parse_input_short : forall name net b, get_network name = Ok net -> In name decred_names ->
  zlen b < 41 -> DecredTxIn_from_bytes net b = Err ValueError.
Proof. intros name net b En I. exact (top_parse_short name net En I b). Qed.
Print Assumptions decred_parse_input_short.
Theorem decred_parse_output_partial : forall name net o rest, get_network name = Ok net -> In name decred_names ->
  dtxout_obj net o -> DecredTxOut_from_bytes net (doutput_wire (the_doutput o) ++ rest) =
  if len (do_script (the_doutput o)) <? 252 then Ok o else Err NotImplementedError.
Proof. intros name net o rest En I. exact (top_parse_out name net En I o rest). Qed.
Print Assumptions decred_parse_output_partial.
Example decred_parse_ex : exists i o,
  DecredTxIn_from_bytes DecredMain (repeat 7 32 ++ [1; 0; 0; 0; 0; 255; 255; 255; 255; 42]) = Ok i /\
  the_dinput i = nth 0 (d_ins ex_dtx) {| di_txid := []; di_index := []; di_tree := []; di_sequence := [] |} /\
  DecredTxOut_from_bytes DecredMain [5; 0; 0; 0; 0; 0; 0; 0; 0; 0; 1; 81; 42] = Ok o /\ dto_output_script o = [81].
Proof. eexists. eexists. repeat (split; [vm_compute; reflexivity|]). vm_compute; reflexivity. Qed.

(* what the library's digests are, for every index from 0 and every hash type; the
   script is the script code without length, and None means the empty one *)
Theorem decred_digest_exact : forall H name net t n script ty anyone,
  get_network name = Ok net -> In name decred_names -> dtx_obj H net t ->
  ddigest H ty net t (Z.of_nat n) script anyone =
  let d := the_dtx t in let code := match script with Some s => s | None => [] end in
  if (length (d_spends d) <=? n)%nat then Err IndexError
  else if negb (fits (dsigning_copy n code d)) then Err ValueError
  else match ty with
       | All => Ok (blake256 H (dlib_preimage (blake256 H) All anyone n code d))
       | Single => if (length (d_outs d) <=? n)%nat || (length (d_ins d) <=? n)%nat then Err NotImplementedError
                   else if negb (fits (dlib_tx Single n (dsigning_copy n code d))) then Err ValueError
                   else Ok (blake256 H (dlib_preimage (blake256 H) Single anyone n code d))
       end.
Proof. intros H name net t n script ty anyone En I. exact (top_digest H name net En I t n script ty anyone). Qed.
Print Assumptions decred_digest_exact.
Theorem decred_none : forall t, decred_sighash_none t = Err NotImplementedError.
Proof. reflexivity. Qed.
Print Assumptions decred_none.

(* they are Decred's digests for ALL without ANYONECANPAY, and for SINGLE on the
   last input; with ANYONECANPAY only if there is just one input *)
Theorem decred_digest_partial : forall H name net t n script ty anyone d,
  get_network name = Ok net -> In name decred_names -> dtx_obj H net t ->
  length (d_spends (the_dtx t)) = length (d_ins (the_dtx t)) ->
  (anyone = true -> length (d_ins (the_dtx t)) = 1%nat) -> (ty = Single -> S n = length (d_ins (the_dtx t))) ->
  ddigest H ty net t (Z.of_nat n) script anyone = Ok d ->
  d = blake256 H (dpreimage (blake256 H) ty anyone n (match script with Some s => s | None => [] end) (the_dtx t)).
Proof. intros H name net t n script ty anyone d En I. exact (top_agree H name net En I t n script ty anyone d). Qed.
Print Assumptions decred_digest_partial.
(* in all other cases they are not, unless the hash has a collision among six messages *)
Theorem decred_digest_refuted : forall H name net t n script ty anyone, hashes_ok H ->
  get_network name = Ok net -> In name decred_names -> dtx_obj H net t -> (n < length (d_ins (the_dtx t)))%nat ->
  (anyone = true /\ (1 < length (d_ins (the_dtx t)))%nat) \/ (ty = Single /\ S n <> length (d_ins (the_dtx t))) ->
  let code := match script with Some s => s | None => [] end in
  ddigest H ty net t (Z.of_nat n) script anyone = Ok (blake256 H (dpreimage (blake256 H) ty anyone n code (the_dtx t))) ->
  collision (blake256 H) (dmessages (blake256 H) ty anyone n code (the_dtx t) ++ dspec_messages (blake256 H) ty anyone n code (the_dtx t)).
Proof. intros H name net t n script ty anyone HH En I. exact (top_wrong H name net En I t n script ty anyone HH). Qed.
Print Assumptions decred_digest_refuted.
Example decred_digest_ex : exists t d1 d2 d3, dtx_obj toy DecredMain t /\ the_dtx t = ex_dtx /\
  ddigest toy All DecredMain t 1 (Some [118; 169]) false = Ok d1 /\
  d1 = blake256 toy (dpreimage (blake256 toy) All false 1 [118; 169] ex_dtx) /\
  ddigest toy All DecredMain t 1 (Some [118; 169]) true = Ok d2 /\ d2 <> blake256 toy (dpreimage (blake256 toy) All true 1 [118; 169] ex_dtx) /\
  ddigest toy Single DecredMain t 0 None false = Ok d3 /\ d3 <> blake256 toy (dpreimage (blake256 toy) Single false 0 [] ex_dtx) /\
  dsigned_scripts false 1 [118; 169] ex_dtx = [[]; [118; 169]].
Proof.
  destruct (decred_exists toy (lit "decred_main") DecredMain ex_dtx) as [t [O E]]; [apply decred_main_ex|apply decred_main_ex|apply ex_dtx_ok|].
  exists t. do 3 eexists. split; [exact O|]. split; [exact E|].
  pose proof (fun n script ty anyone => decred_digest_exact toy (lit "decred_main") DecredMain t n script ty anyone (proj1 decred_main_ex) (proj2 decred_main_ex) O) as X.
  pose proof (X 1%nat (Some [118; 169]) All false) as X1. pose proof (X 1%nat (Some [118; 169]) All true) as X2. pose proof (X 0%nat None Single false) as X3.
  rewrite E in X1, X2, X3. split; [etransitivity; [exact X1|vm_compute; reflexivity]|].
  split; [vm_compute; reflexivity|]. split; [etransitivity; [exact X2|vm_compute; reflexivity]|]. split; [vm_compute; discriminate|].
  split; [etransitivity; [exact X3|vm_compute; reflexivity]|]. split; [vm_compute; discriminate|reflexivity].
Qed.

(* what they commit to: equal digests mean equal covered data, or a collision among
   the six messages hashed for them *)
Theorem decred_digest_binds : forall H name net t t' n n' script script' ty ty' anyone anyone' d, hashes_ok H ->
  get_network name = Ok net -> In name decred_names -> dtx_obj H net t -> dtx_obj H net t' ->
  (n < length (d_ins (the_dtx t)))%nat -> (n' < length (d_ins (the_dtx t')))%nat ->
  ddigest H ty net t (Z.of_nat n) script anyone = Ok d -> ddigest H ty' net t' (Z.of_nat n') script' anyone' = Ok d ->
  let code := match script with Some s => s | None => [] end in
  let code' := match script' with Some s => s | None => [] end in
  collision (blake256 H) (dmessages (blake256 H) ty anyone n code (the_dtx t) ++ dmessages (blake256 H) ty' anyone' n' code' (the_dtx t')) \/
  (ty = ty' /\ anyone = anyone' /\ dcovered_same ty n (the_dtx t) n' (the_dtx t') /\ code = code' /\
   (code <> [] -> n = n' /\ nth_error (d_ins (the_dtx t)) n = nth_error (d_ins (the_dtx t')) n')).
Proof. intros H name net t t' n n' script script' ty ty' anyone anyone' d HH En I. exact (top_binds H name net En I t t' n n' script script' ty ty' anyone anyone' d HH). Qed.
Print Assumptions decred_digest_binds.
(* and what they leave open: everything else, such as the amounts spent *)
Theorem decred_digest_ignores : forall H name net t t' n script ty anyone d d',
  get_network name = Ok net -> In name decred_names -> dtx_obj H net t -> dtx_obj H net t' -> (n < length (d_ins (the_dtx t)))%nat ->
  dcovered_same ty n (the_dtx t) n (the_dtx t') -> nth_error (d_ins (the_dtx t)) n = nth_error (d_ins (the_dtx t')) n ->
  ddigest H ty net t (Z.of_nat n) script anyone = Ok d -> ddigest H ty net t' (Z.of_nat n) script anyone = Ok d' -> d = d'.
Proof. intros H name net t t' n script ty anyone d d' En I. exact (top_ignores H name net En I t t' n script ty anyone d d'). Qed.
Print Assumptions decred_digest_ignores.
Example decred_covered_ex :
  dcovered_same Single 1 ex_dtx 1
    {| d_version := [1; 0; 7; 7];
       d_ins := [{| di_txid := repeat 7 32; di_index := [1; 0; 0; 0]; di_tree := [0]; di_sequence := repeat 1 4 |};
                 {| di_txid := repeat 8 32; di_index := [0; 0; 0; 0]; di_tree := [1]; di_sequence := repeat 255 4 |}];
       d_outs := [{| do_value := [9; 0; 0; 0; 0; 0; 0; 0]; do_version := [0; 0]; do_script := [82] |};
                  {| do_value := [6; 0; 0; 0; 0; 0; 0; 0]; do_version := [0; 0]; do_script := [] |}];
       d_lock := [0; 0; 0; 0]; d_expiry := [9; 0; 0; 0];
       d_spends := [{| ds_value := repeat 0 8; ds_height := repeat 2 4; ds_index := repeat 3 4; ds_script := [] |};
                    {| ds_value := repeat 0 8; ds_height := repeat 5 4; ds_index := repeat 6 4; ds_script := [81; 82] |}] |}.
Proof. repeat split; try discriminate. Qed.
