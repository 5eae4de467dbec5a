(* Properties C27 to C32: signature digests *)
From Coq Require Import String.
From Verif Require Import Py LBase MNet MUtils MShared MScript MTx SNum SNet SHash SScript STx SSig LNet LTx LTxParse LTxWire LSig LBip143 LSigBind LSigTop PTx.
Open Scope list_scope.
Open Scope Z_scope.

(* the hash used for digests and identifiers *)
Theorem digest_hash : forall H name net m, get_network name = Ok net -> hash256 H net m = double_hash H name m.
Proof. exact hash256_spec. Qed.
Print Assumptions digest_hash.
(* the library has no SIGHASH_NONE digests *)
Theorem tx_sighash_none : forall t, sighash_none t = Err NotImplementedError.
Proof. reflexivity. Qed.
Print Assumptions tx_sighash_none.

(* example transactions: two inputs and one or two outputs *)
Definition ex_input2 : txin := txin_of {| op_tx_id := repeat 9 32; op_index := [2; 0; 0; 0]; op_bytes := repeat 9 32 ++ [2; 0; 0; 0] |} [] [] [1; 0; 0; 0].
Definition ex_output2 : txout := {| to_value := [6; 0; 0; 0; 0; 0; 0; 0]; to_output_script := []; to_bytes_ := [6; 0; 0; 0; 0; 0; 0; 0; 0] |}.
Definition ex_two : tx := tx_of toy BitcoinMain [2; 0; 0; 0] None [ex_input; ex_input2] [ex_output; ex_output2] None [0; 0; 0; 0].
Definition ex_two_one : tx := tx_of toy BitcoinMain [2; 0; 0; 0] None [ex_input; ex_input2] [ex_output] None [0; 0; 0; 0].
Example ex_two_objects : tx_obj toy BitcoinMain ex_two /\ plain ex_two /\ tx_obj toy BitcoinMain ex_two_one /\ plain ex_two_one.
Proof. repeat split; repeat constructor. Qed.
Example bitcoin_main_ex : get_network (lit "bitcoin_main") = Ok BitcoinMain /\ no_fork_id (lit "bitcoin_main") /\ ~ In (lit "bitcoin_main") decred_names.
Proof.
  split; [vm_compute; reflexivity|]. split.
  - intros id X. assert (str_mem (lit "bitcoin_main") (map fst fork_ids) = false) as F by (vm_compute; reflexivity).
    assert (str_mem (lit "bitcoin_main") (map fst fork_ids) = true); [|congruence]. apply str_mem_In. apply in_map_iff. eexists. split; [|exact X]. reflexivity.
  - intros X. apply str_mem_In in X. vm_compute in X. discriminate.
Qed.

(* C27: the digest of SIGHASH_ALL is the hash of the preimage of the original
   algorithm; a script code of more than 1650 bytes is refused, although scripts
   have up to 10000 bytes *)
Theorem legacy_all_partial : forall H name net t n code value anyone,
  get_network name = Ok net -> no_fork_id name -> tx_obj H net t -> plain t ->
  (n < length (t_ins (the_tx t)))%nat -> readable_size name (len code) -> len code < 2 ^ 64 ->
  sighash_all H net t (Z.of_nat n) (string_wire code) value anyone =
  if len code <=? 1650 then Ok (double_hash H name (legacy_preimage All anyone n code (the_tx t))) else Err ValueError.
Proof. exact top_all. Qed.
Print Assumptions legacy_all_partial.
Example legacy_all_ex : exists d e,
  sighash_all toy BitcoinMain ex_two 1 (string_wire [118; 169]) None false = Ok d /\
  sighash_all toy BitcoinMain ex_two 1 (string_wire [118; 169]) None true = Ok e /\ d <> e /\
  legacy_preimage All false 1 [118; 169] (the_tx ex_two) =
    [2; 0; 0; 0; 2] ++ repeat 7 32 ++ [1; 0; 0; 0; 0; 255; 255; 255; 255] ++ repeat 9 32 ++ [2; 0; 0; 0; 2; 118; 169; 1; 0; 0; 0; 2] ++
    [5; 0; 0; 0; 0; 0; 0; 0; 1; 81; 6; 0; 0; 0; 0; 0; 0; 0; 0; 0; 0; 0; 0; 1; 0; 0; 0].
Proof. eexists. eexists. split; [vm_compute; reflexivity|]. split; [vm_compute; reflexivity|]. split; [discriminate|reflexivity]. Qed.
(* C27 fails for long script codes *)
Theorem legacy_all_long_refuted : exists code,
  len code = 1651 /\ sighash_all toy BitcoinMain ex_two 0 (string_wire code) None false = Err ValueError.
Proof. exists (repeat 81 (Z.to_nat 1651)). split; vm_compute; reflexivity. Qed.
Print Assumptions legacy_all_long_refuted.
(* the size in front of the script code is not checked: whatever it says, the
   digest is the one for the bytes that follow *)
Theorem legacy_all_size_ignored : forall H name net t n m code value anyone,
  get_network name = Ok net -> no_fork_id name -> tx_obj H net t -> plain t ->
  (n < length (t_ins (the_tx t)))%nat -> 0 <= m < 2 ^ 64 -> readable_size name m -> len code <= 1650 ->
  sighash_all H net t (Z.of_nat n) (compactsize m ++ code) value anyone =
  Ok (double_hash H name (legacy_preimage All anyone n code (the_tx t))).
Proof. exact top_all_prefix. Qed.
Print Assumptions legacy_all_size_ignored.
Theorem legacy_all_index : forall H name net t n script value anyone,
  get_network name = Ok net -> no_fork_id name -> tx_obj H net t -> plain t ->
  (length (tx_tx_ins t) <= n)%nat -> (exists v, VarInt_from_bytes net script = Ok v) ->
  sighash_all H net t (Z.of_nat n) script value anyone = Err IndexError.
Proof. exact legacy_index_err. Qed.
Print Assumptions legacy_all_index.

(* C28: SIGHASH_SINGLE is right for the last input *)
Theorem legacy_single_partial : forall H name net t n code value anyone,
  get_network name = Ok net -> no_fork_id name -> tx_obj H net t -> plain t ->
  S n = length (t_ins (the_tx t)) -> (n < length (t_outs (the_tx t)))%nat -> readable_size name (len code) -> len code <= 1650 ->
  sighash_single H net t (Z.of_nat n) (string_wire code) value anyone =
  Ok (double_hash H name (legacy_preimage Single anyone n code (the_tx t))).
Proof. exact top_single_last. Qed.
Print Assumptions legacy_single_partial.
(* what it is for every input: there are as many outputs as inputs, not index + 1 *)
Theorem legacy_single_exact : forall H name net t n code value anyone,
  get_network name = Ok net -> no_fork_id name -> tx_obj H net t -> plain t ->
  (n < length (t_ins (the_tx t)))%nat -> (n < length (t_outs (the_tx t)))%nat -> readable_size name (len code) -> len code < 2 ^ 64 ->
  sighash_single H net t (Z.of_nat n) (string_wire code) value anyone =
  if len code <=? 1650
  then Ok (double_hash H name
         (wire_tx {| t_version := t_version (the_tx t);
                     t_ins := t_ins (legacy_tx Single anyone n code (the_tx t));
                     t_outs := repeat null_output n ++ firstn 1 (skipn n (t_outs (the_tx t))) ++
                               repeat null_output (length (t_ins (the_tx t)) - S n);
                     t_witness := None;
                     t_lock := t_lock (the_tx t) |}
          ++ le_bytes 4 (type_number Single anyone)))
  else Err ValueError.
Proof. exact top_single. Qed.
Print Assumptions legacy_single_exact.
(* C28 fails for every other input of every transaction *)
Theorem legacy_single_refuted : forall H name net t n code value anyone,
  get_network name = Ok net -> no_fork_id name -> tx_obj H net t -> plain t ->
  (S n < length (t_ins (the_tx t)))%nat -> (n < length (t_outs (the_tx t)))%nat -> readable_size name (len code) -> len code <= 1650 ->
  sighash_single H net t (Z.of_nat n) (string_wire code) value anyone =
  Ok (double_hash H name (legacy_preimage Single anyone n code (the_tx t))) ->
  collision (double_hash H name) [lib_preimage Single anyone n code (the_tx t); legacy_preimage Single anyone n code (the_tx t)].
Proof. exact top_single_wrong. Qed.
Print Assumptions legacy_single_refuted.
Example legacy_single_ex :
  sighash_single toy BitcoinMain ex_two 1 (string_wire [118; 169]) None true =
    Ok (sha256d toy (legacy_preimage Single true 1 [118; 169] (the_tx ex_two))) /\
  sighash_single toy BitcoinMain ex_two 0 (string_wire [118; 169]) None true <>
    Ok (sha256d toy (legacy_preimage Single true 0 [118; 169] (the_tx ex_two))).
Proof. split; vm_compute; [reflexivity|discriminate]. Qed.

(* C29: segwit digests are BIP143 digests; the library refuses SINGLE without an
   output at the index *)
Theorem bip143_digest : forall H name net t n i code value ty anyone,
  get_network name = Ok net -> no_fork_id name -> tx_obj H net t -> ~ plain t -> nth_error (t_ins (the_tx t)) n = Some i ->
  digest H ty net t (Z.of_nat n) (string_wire code) (Some value) anyone =
  match ty, nth_error (t_outs (the_tx t)) n with
  | Single, None => Err NotImplementedError
  | _, _ => Ok (double_hash H name (bip143_preimage (double_hash H name) ty anyone n i code value (the_tx t)))
  end.
Proof. exact top_segwit. Qed.
Print Assumptions bip143_digest.
Theorem bip143_value : forall H name net t n script ty anyone,
  get_network name = Ok net -> no_fork_id name -> ~ plain t ->
  (n < length (t_ins (the_tx t)))%nat -> (n < length (t_outs (the_tx t)))%nat ->
  digest H ty net t (Z.of_nat n) script None anyone = Err TypeError.
Proof. exact top_segwit_none. Qed.
Print Assumptions bip143_value.
Example bip143_ex : ~ plain ex_segwit /\ nth_error (t_ins (the_tx ex_segwit)) 0 = Some (the_input ex_input) /\
  bip143_preimage (fun m => [len m]) All false 0 (the_input ex_input) [118] [8; 0; 0; 0; 0; 0; 0; 0] (the_tx ex_segwit) =
  [2; 0; 0; 0; 36; 4] ++ repeat 7 32 ++ [1; 0; 0; 0; 1; 118; 8; 0; 0; 0; 0; 0; 0; 0; 255; 255; 255; 255; 10; 0; 0; 0; 0; 1; 0; 0; 0].
Proof. split; [intros [X _]; discriminate|]. split; reflexivity. Qed.

(* C30: fork id digests *)
Theorem forkid_digest : forall H name net id t n i code value ty anyone,
  get_network name = Ok net -> In (name, id) fork_ids -> tx_obj H net t -> nth_error (t_ins (the_tx t)) n = Some i -> len value = 8 ->
  digest H ty net t (Z.of_nat n) (string_wire code) (Some value) anyone =
  match ty, nth_error (t_outs (the_tx t)) n with
  | Single, None => Err NotImplementedError
  | _, _ => Ok (double_hash H name (forkid_preimage (double_hash H name) id ty anyone n i code value (the_tx t)))
  end.
Proof. exact top_fork. Qed.
Print Assumptions forkid_digest.
Theorem forkid_value : forall H name net id t n script value ty anyone,
  get_network name = Ok net -> In (name, id) fork_ids ->
  match value with Some v => len v <> 8 | None => True end ->
  digest H ty net t n script value anyone = Err ValueError \/
  (ty = Single /\ zlen (tx_tx_outs t) <= n /\ digest H ty net t n script value anyone = Err NotImplementedError).
Proof. exact fork_value. Qed.
Print Assumptions forkid_value.
(* a network has at most one fork id; the others have none *)
Theorem forkid_network : forall name net, get_network name = Ok net ->
  match FORKID net with Some id => In (name, id) fork_ids /\ 0 <= id < 256 | None => no_fork_id name end.
Proof. exact FORKID_names. Qed.
Print Assumptions forkid_network.
(* replay protection: no digest is both one of a network with fork id and one of a
   network without, or with another fork id, unless the two messages collide *)
Theorem replay_protection_segwit : forall H name net id name' net' t t' n n' i i' code code' value value' ty ty' anyone anyone' d,
  get_network name = Ok net -> In (name, id) fork_ids ->
  get_network name' = Ok net' -> no_fork_id name' -> ~ In name' decred_names ->
  tx_obj H net t -> tx_obj H net' t' -> ~ plain t' ->
  nth_error (t_ins (the_tx t)) n = Some i -> nth_error (t_ins (the_tx t')) n' = Some i' ->
  digest H ty net t (Z.of_nat n) (string_wire code) (Some value) anyone = Ok d ->
  digest H ty' net' t' (Z.of_nat n') (string_wire code') (Some value') anyone' = Ok d ->
  collision (sha256d H) [forkid_preimage (sha256d H) id ty anyone n i code value (the_tx t);
                         bip143_preimage (sha256d H) ty' anyone' n' i' code' value' (the_tx t')].
Proof. exact replay_segwit. Qed.
Print Assumptions replay_protection_segwit.
Theorem replay_protection_legacy : forall H name net id name' net' t t' n n' i i' code code' value value' ty ty' anyone anyone' d,
  get_network name = Ok net -> In (name, id) fork_ids ->
  get_network name' = Ok net' -> no_fork_id name' -> ~ In name' decred_names ->
  tx_obj H net t -> tx_obj H net' t' -> plain t' ->
  nth_error (t_ins (the_tx t)) n = Some i -> nth_error (t_ins (the_tx t')) n' = Some i' ->
  readable_size name' (len code') -> len code' < 2 ^ 64 ->
  digest H ty net t (Z.of_nat n) (string_wire code) (Some value) anyone = Ok d ->
  digest H ty' net' t' (Z.of_nat n') (string_wire code') value' anyone' = Ok d ->
  collision (sha256d H) [forkid_preimage (sha256d H) id ty anyone n i code value (the_tx t);
                         lib_preimage ty' anyone' n' code' (the_tx t')].
Proof. exact replay_legacy. Qed.
Print Assumptions replay_protection_legacy.
Theorem replay_protection_forks : forall H name net id name' net' id' t t' n n' i i' code code' value value' ty ty' anyone anyone' d,
  get_network name = Ok net -> In (name, id) fork_ids -> get_network name' = Ok net' -> In (name', id') fork_ids -> id <> id' ->
  tx_obj H net t -> tx_obj H net' t' ->
  nth_error (t_ins (the_tx t)) n = Some i -> nth_error (t_ins (the_tx t')) n' = Some i' ->
  digest H ty net t (Z.of_nat n) (string_wire code) (Some value) anyone = Ok d ->
  digest H ty' net' t' (Z.of_nat n') (string_wire code') (Some value') anyone' = Ok d ->
  collision (sha256d H) [forkid_preimage (sha256d H) id ty anyone n i code value (the_tx t);
                         forkid_preimage (sha256d H) id' ty' anyone' n' i' code' value' (the_tx t')].
Proof. exact replay_fork. Qed.
Print Assumptions replay_protection_forks.
Example forkid_ex : In (lit "bitcoin_gold_main", 79) fork_ids /\ In (lit "bitcoin_cash_main", 0) fork_ids /\
  exists net d e, get_network (lit "bitcoin_gold_main") = Ok net /\
    sighash_all toy net ex_two 1 (string_wire [118]) (Some (repeat 1 8)) false = Ok d /\
    sighash_single toy net ex_two 1 (string_wire [118]) (Some (repeat 1 8)) true = Ok e /\
    le_bytes 4 (79 * 256 + 64 + type_number Single true) = [195; 79; 0; 0] /\ d <> e.
Proof.
  split; [right; right; right; left; reflexivity|]. split; [left; reflexivity|].
  eexists. eexists. eexists. split; [vm_compute; reflexivity|]. split; [vm_compute; reflexivity|]. split; [vm_compute; reflexivity|].
  split; [reflexivity|discriminate].
Qed.

(* C31: equal digests mean equal hash types and equal covered parts, or a
   collision among the messages hashed for the two digests *)
Theorem bip143_binds : forall H name net t t' n n' i i' code code' value value' ty ty' anyone anyone' d, hashes_ok H ->
  get_network name = Ok net -> no_fork_id name -> tx_obj H net t -> tx_obj H net t' -> ~ plain t -> ~ plain t' ->
  nth_error (t_ins (the_tx t)) n = Some i -> nth_error (t_ins (the_tx t')) n' = Some i' ->
  len value = 8 -> len value' = 8 -> len code < 2 ^ 64 -> len code' < 2 ^ 64 ->
  digest H ty net t (Z.of_nat n) (string_wire code) (Some value) anyone = Ok d ->
  digest H ty' net t' (Z.of_nat n') (string_wire code') (Some value') anyone' = Ok d ->
  collision (double_hash H name)
    (bip143_preimage (double_hash H name) ty anyone n i code value (the_tx t) ::
     bip143_preimage (double_hash H name) ty' anyone' n' i' code' value' (the_tx t') ::
     bip143_parts (the_tx t) ++ bip143_parts (the_tx t')) \/
  (ty = ty' /\ anyone = anyone' /\ covered_same ty anyone n (the_tx t) n' (the_tx t') /\ same_signed i i' /\
   code = code' /\ value = value').
Proof. exact top_segwit_binds. Qed.
Print Assumptions bip143_binds.
Theorem forkid_binds : forall H name net id t t' n n' i i' code code' value value' ty ty' anyone anyone' d, hashes_ok H ->
  get_network name = Ok net -> In (name, id) fork_ids -> tx_obj H net t -> tx_obj H net t' ->
  nth_error (t_ins (the_tx t)) n = Some i -> nth_error (t_ins (the_tx t')) n' = Some i' ->
  len code < 2 ^ 64 -> len code' < 2 ^ 64 ->
  digest H ty net t (Z.of_nat n) (string_wire code) (Some value) anyone = Ok d ->
  digest H ty' net t' (Z.of_nat n') (string_wire code') (Some value') anyone' = Ok d ->
  collision (double_hash H name)
    (forkid_preimage (double_hash H name) id ty anyone n i code value (the_tx t) ::
     forkid_preimage (double_hash H name) id ty' anyone' n' i' code' value' (the_tx t') ::
     bip143_parts (the_tx t) ++ bip143_parts (the_tx t')) \/
  (ty = ty' /\ anyone = anyone' /\ covered_same ty anyone n (the_tx t) n' (the_tx t') /\ same_signed i i' /\
   code = code' /\ value = value').
Proof. exact top_fork_binds. Qed.
Print Assumptions forkid_binds.
(* the original algorithm does not cover the value, nor the position of the signed
   input if the script code is empty *)
Theorem legacy_binds : forall H name net t t' n n' i i' code code' value value' ty ty' anyone anyone' d,
  get_network name = Ok net -> no_fork_id name -> tx_obj H net t -> tx_obj H net t' -> plain t -> plain t' ->
  nth_error (t_ins (the_tx t)) n = Some i -> nth_error (t_ins (the_tx t')) n' = Some i' ->
  readable_size name (len code) -> readable_size name (len code') -> len code < 2 ^ 64 -> len code' < 2 ^ 64 ->
  digest H ty net t (Z.of_nat n) (string_wire code) value anyone = Ok d ->
  digest H ty' net t' (Z.of_nat n') (string_wire code') value' anyone' = Ok d ->
  collision (double_hash H name) [lib_preimage ty anyone n code (the_tx t); lib_preimage ty' anyone' n' code' (the_tx t')] \/
  (ty = ty' /\ anyone = anyone' /\ covered_same ty anyone n (the_tx t) n' (the_tx t') /\
   (anyone = true \/ code <> [] -> same_signed i i') /\ code = code').
Proof. exact top_legacy_binds. Qed.
Print Assumptions legacy_binds.

(* and nothing else is covered: requests that agree on the covered parts have the
   same digest *)
Theorem bip143_ignores : forall H name net t t' n n' i i' script value ty anyone,
  get_network name = Ok net -> no_fork_id name -> tx_obj H net t -> tx_obj H net t' -> ~ plain t -> ~ plain t' ->
  nth_error (t_ins (the_tx t)) n = Some i -> nth_error (t_ins (the_tx t')) n' = Some i' ->
  covered_same ty anyone n (the_tx t) n' (the_tx t') -> same_signed i i' ->
  digest H ty net t (Z.of_nat n) script (Some value) anyone = digest H ty net t' (Z.of_nat n') script (Some value) anyone.
Proof. exact top_segwit_ignores. Qed.
Print Assumptions bip143_ignores.
Theorem forkid_ignores : forall H name net id t t' n n' i i' script value ty anyone,
  get_network name = Ok net -> In (name, id) fork_ids -> tx_obj H net t -> tx_obj H net t' ->
  nth_error (t_ins (the_tx t)) n = Some i -> nth_error (t_ins (the_tx t')) n' = Some i' ->
  covered_same ty anyone n (the_tx t) n' (the_tx t') -> same_signed i i' -> len value = 8 ->
  digest H ty net t (Z.of_nat n) script (Some value) anyone = digest H ty net t' (Z.of_nat n') script (Some value) anyone.
Proof. exact top_fork_ignores. Qed.
Print Assumptions forkid_ignores.
(* with SINGLE the original algorithm needs, in addition, the same index (it is the
   number of nulled outputs); the last hypothesis is the library's error *)
Theorem legacy_ignores_partial : forall H name net t t' n n' i i' code value value' ty anyone,
  get_network name = Ok net -> no_fork_id name -> tx_obj H net t -> tx_obj H net t' -> plain t -> plain t' ->
  nth_error (t_ins (the_tx t)) n = Some i -> nth_error (t_ins (the_tx t')) n' = Some i' ->
  readable_size name (len code) -> len code < 2 ^ 64 ->
  covered_same ty anyone n (the_tx t) n' (the_tx t') -> same_signed i i' ->
  (anyone = false \/ ty = Single -> n = n') -> (ty = Single -> length (t_ins (the_tx t)) = length (t_ins (the_tx t'))) ->
  digest H ty net t (Z.of_nat n) (string_wire code) value anyone = digest H ty net t' (Z.of_nat n') (string_wire code) value' anyone.
Proof. exact top_legacy_ignores. Qed.
Print Assumptions legacy_ignores_partial.
(* C31 fails for SINGLE|ANYONECANPAY: adding or removing other inputs always
   changes the digest *)
Theorem legacy_single_anyone_refuted : forall H name net t t' n i i' code value value' anyone d,
  get_network name = Ok net -> no_fork_id name -> tx_obj H net t -> tx_obj H net t' -> plain t -> plain t' ->
  nth_error (t_ins (the_tx t)) n = Some i -> nth_error (t_ins (the_tx t')) n = Some i' ->
  readable_size name (len code) -> len code < 2 ^ 64 ->
  length (t_ins (the_tx t)) <> length (t_ins (the_tx t')) ->
  sighash_single H net t (Z.of_nat n) (string_wire code) value anyone = Ok d ->
  sighash_single H net t' (Z.of_nat n) (string_wire code) value' anyone = Ok d ->
  collision (double_hash H name) [lib_preimage Single anyone n code (the_tx t); lib_preimage Single anyone n code (the_tx t')].
Proof. exact top_single_acp. Qed.
Print Assumptions legacy_single_anyone_refuted.
Example legacy_single_anyone_ex : covered_same Single true 0 (the_tx ex_two_one) 0 (the_tx ex_legacy) /\
  sighash_single toy BitcoinMain ex_two_one 0 (string_wire [118]) None true <> sighash_single toy BitcoinMain ex_legacy 0 (string_wire [118]) None true.
Proof. split; [|vm_compute; discriminate]. repeat split; discriminate. Qed.
(* transactions that differ in covered and in other parts *)
Example covered_ex : covered_same All true 0 (the_tx ex_two_one) 0 (the_tx ex_legacy) /\ ~ covered_same All false 0 (the_tx ex_two_one) 0 (the_tx ex_legacy) /\
  covered_same Single false 0 (the_tx ex_two_one) 0 (the_tx ex_two) /\ ~ covered_same All false 0 (the_tx ex_two_one) 0 (the_tx ex_two).
Proof.
  split; [repeat split; discriminate|]. split; [intros [_ [_ [X _]]]; specialize (X eq_refl); discriminate X|].
  split; [repeat split; discriminate|]. intros [_ [_ [_ [_ [X _]]]]]. specialize (X eq_refl). discriminate X.
Qed.
(* SINGLE without a matching output is refused, if the index is not negative *)
Theorem single_refused_partial : forall H net t n script value anyone, zlen (tx_tx_outs t) <= n ->
  sighash_single H net t n script value anyone = Err NotImplementedError.
Proof. exact top_refused. Qed.
Print Assumptions single_refused_partial.
(* a negative index counts from the end, for inputs and outputs separately: input 1
   of a transaction with one output is signed together with output 0 *)
Theorem single_negative_refuted : exists d, sighash_single toy BitcoinMain ex_two_one (-1) (string_wire [118]) None false = Ok d /\
  sighash_single toy BitcoinMain ex_two_one 1 (string_wire [118]) None false = Err NotImplementedError.
Proof. eexists. split; [vm_compute; reflexivity|reflexivity]. Qed.
Print Assumptions single_negative_refuted.

(* C32: digests after parsing *)
Theorem parsed_digest_partial : forall H name net t, get_network name = Ok net -> tx_obj H net t -> parsable name (the_tx t) ->
  (exists id, In (name, id) fork_ids) \/ (no_fork_id name /\ ~ plain t) ->
  exists t', Tx_from_bytes H net (tx_bytes t) = Ok t' /\
    forall ty n script value anyone, (n < length (t_ins (the_tx t)))%nat -> len value = 8 ->
      digest H ty net t' (Z.of_nat n) script (Some value) anyone = digest H ty net t (Z.of_nat n) script (Some value) anyone.
Proof. exact top_parsed_same. Qed.
Print Assumptions parsed_digest_partial.
(* C32 fails for every transaction without flag and witness list on a network
   without fork id: after parsing its digests are BIP143 digests, and calls without
   a value, which succeed before, raise TypeError *)
Theorem parsed_digest_refuted : forall H name net t, get_network name = Ok net -> tx_obj H net t -> parsable name (the_tx t) ->
  no_fork_id name -> plain t ->
  exists t', Tx_from_bytes H net (tx_bytes t) = Ok t' /\
    forall ty n i code anyone, nth_error (t_ins (the_tx t)) n = Some i -> (n < length (t_outs (the_tx t)))%nat ->
      digest H ty net t' (Z.of_nat n) (string_wire code) None anyone = Err TypeError /\
      (forall value, digest H ty net t' (Z.of_nat n) (string_wire code) (Some value) anyone =
        Ok (double_hash H name (bip143_preimage (double_hash H name) ty anyone n i code value (the_tx t)))) /\
      (readable_size name (len code) -> len code <= 1650 -> forall value, exists d,
        digest H ty net t (Z.of_nat n) (string_wire code) value anyone = Ok d).
Proof. exact top_parsed_legacy. Qed.
Print Assumptions parsed_digest_refuted.
Example parsed_digest_ex : parsable (lit "bitcoin_main") (the_tx ex_segwit) /\ parsable (lit "bitcoin_main") (the_tx ex_legacy) /\ plain ex_legacy.
Proof.
  split; [apply parsable_ex|]. split; [|split; reflexivity].
  destruct (proj1 parsable_ex) as [[A [B [C D]]] E]. split; [|exact E]. split; [exact A|]. split; [exact B|]. split; [exact C|exact I].
Qed.
