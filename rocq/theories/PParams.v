(* Properties C58 and C59: the address functions and the parameters of each
   network, and texts that two networks accept *)
From Coq Require Import String.
From Verif Require Import Py MNet MUtils MScript MAddr SNum SHash SNet SBase58 SBech32 SCashaddr SAddr SParams LAddr LParams.
Open Scope list_scope.
Open Scope Z_scope.

(* C58: make_legacy_p2pkh_address and make_legacy_p2sh_address *)
Theorem make_legacy_addresses : forall H name net, hashes_ok H -> get_network name = Ok net ->
  (forall pubkey, exists s, make_legacy_p2pkh_address H net pubkey = Ok (Some s) /\
    network_address H name P2PKH (key_hash H name pubkey) s) /\
  (forall script b, serialize net script = Ok b -> exists s, make_legacy_p2sh_address H net script = Ok (Some s) /\
    network_address H name P2SH (key_hash H name b) s).
Proof. exact c58_legacy_lemma. Qed.
Print Assumptions make_legacy_addresses.

(* C58: make_p2pkh_address and make_p2sh_address, away from CashAddr *)
Theorem make_addresses : forall H name net, hashes_ok H -> get_network name = Ok net -> (forall p, ~ cash_network name p) ->
  (forall pubkey, exists s, make_p2pkh_address H net pubkey = Ok (Some s) /\
    network_address H name P2PKH (key_hash H name pubkey) s) /\
  (forall script b, serialize net script = Ok b -> exists s, make_p2sh_address H net script = Ok (Some s) /\
    network_address H name P2SH (key_hash H name b) s).
Proof. exact c58_plain_lemma. Qed.
Print Assumptions make_addresses.

(* C58: CashAddr networks.  The witness functions also return a CashAddr text
   there, of a P2PKH or P2SH payment to the witness hash. *)
Theorem make_cash_addresses : forall H name net p, hashes_ok H -> get_network name = Ok net -> cash_network name p ->
  (forall pubkey, exists s, make_p2pkh_address H net pubkey = Ok (Some s) /\ make_p2wpkh_address H net pubkey = Ok (Some s) /\
    cashaddr_of p (0 :: key_hash H name pubkey) s) /\
  (forall script b, serialize net script = Ok b ->
    (exists s, make_p2sh_address H net script = Ok (Some s) /\ cashaddr_of p (8 :: key_hash H name b) s) /\
    (exists s, make_p2wsh_address H net script = Ok (Some s) /\ cashaddr_of p (8 :: h_sha256 H b) s)).
Proof. exact c58_cash_lemma. Qed.
Print Assumptions make_cash_addresses.

(* C58: make_p2wpkh_address and make_p2wsh_address, away from CashAddr: the
   network's witness address, or an error where it has none *)
Theorem make_witness_addresses : forall H name net, hashes_ok H -> get_network name = Ok net -> (forall p, ~ cash_network name p) ->
  (forall pubkey,
    (witness_addresses name no_witness /\ make_p2wpkh_address H net pubkey = Err ValueError) \/
    (exists s, make_p2wpkh_address H net pubkey = Ok (Some s) /\ network_address H name P2WPKH (key_hash H name pubkey) s)) /\
  (forall script b, serialize net script = Ok b ->
    (witness_addresses name no_witness /\ make_p2wsh_address H net script = Err ValueError) \/
    (exists s, make_p2wsh_address H net script = Ok (Some s) /\ network_address H name P2WSH (h_sha256 H b) s)).
Proof. exact c58_witness_lemma. Qed.
Print Assumptions make_witness_addresses.

(* C58: from_output_script *)
Theorem from_output_script_address : forall H name net k h cashaddr, hashes_ok H -> get_network name = Ok net ->
  all_bytes h -> len h = hash_len k ->
  (exists p s, cashaddr = true /\ cash_network name p /\
     from_output_script H net (template k h) cashaddr = Ok (Some s) /\ cashaddr_of p (cash_kind k :: h) s) \/
  ((cashaddr = false \/ forall p, ~ cash_network name p) /\
   ((exists s, from_output_script H net (template k h) cashaddr = Ok (Some s) /\ network_address H name k h s) \/
    (is_witness_payment k = true /\ witness_addresses name no_witness /\
     from_output_script H net (template k h) cashaddr = Err ValueError))).
Proof. exact c58_script_lemma. Qed.
Print Assumptions from_output_script_address.

(* each network has one row in the table *)
Theorem network_parameters_unique : forall name net, get_network name = Ok net ->
  (exists v w, legacy_version name P2PKH v /\ legacy_version name P2SH w /\ v <> w) /\
  (forall k v w, legacy_version name k v -> legacy_version name k w -> v = w) /\
  (forall v w, witness_addresses name v -> witness_addresses name w -> v = w).
Proof. exact c58_unique_lemma. Qed.
Print Assumptions network_parameters_unique.

Definition h20 : bytes := [0x75; 0x1e; 0x76; 0xe8; 0x19; 0x91; 0x96; 0xd4; 0x54; 0x94; 0x1c; 0x45; 0xd1; 0xb3; 0xa3; 0x23; 0xf1; 0x43; 0x3b; 0xd6].
Example network_address_ex :
  legacy_version (lit "bitcoin_main") P2PKH [0] /\ legacy_version (lit "bitcoin_main") P2SH [5] /\
  legacy_version (lit "zcash_sapling_main") P2PKH [0x1c; 0xb8] /\ witness_addresses (lit "bitcoin_main") (bech32_witness "bc") /\
  witness_addresses (lit "navcoin_main") base58_witness /\ witness_addresses (lit "dogecoin_main") no_witness /\
  cash_network (lit "bitcoin_cash_main") (lit "bitcoincash").
Proof.
  assert (forall r, existsb (fun q => match string_dec (fst (fst (fst q))) (fst (fst (fst r))) with left _ => (snd (fst (fst q)) =? snd (fst (fst r))) && (snd (fst q) =? snd (fst r)) &&
    match snd q, snd r with no_witness, no_witness | base58_witness, base58_witness => true | bech32_witness a, bech32_witness b => String.eqb a b | _, _ => false end | right _ => false end) address_table = true -> In r address_table) as F.
  { intros [[[n p] q] w] E. apply existsb_exists in E. destruct E as [[[[n' p'] q'] w'] [I E]]. cbn [fst snd] in E.
    destruct (string_dec n' n) as [->|]; [|discriminate]. rewrite !andb_true_iff in E. destruct E as [[A B] C]. apply Z.eqb_eq in A, B. subst.
    destruct w', w; try discriminate C; try exact I. apply String.eqb_eq in C. subst. exact I. }
  split; [|split; [|split; [|split; [|split; [|split]]]]].
  - exists "bitcoin_main"%string, 0, 5, (bech32_witness "bc"). split; [apply F; vm_compute; reflexivity|split; reflexivity].
  - exists "bitcoin_main"%string, 0, 5, (bech32_witness "bc"). split; [apply F; vm_compute; reflexivity|split; reflexivity].
  - exists "zcash_sapling_main"%string, 0x1cb8, 0x1cbd, no_witness. split; [apply F; vm_compute; reflexivity|split; reflexivity].
  - exists "bitcoin_main"%string, 0, 5. split; [apply F; vm_compute; reflexivity|reflexivity].
  - eexists _, _, _. split; [|reflexivity]. unfold address_table. cbn [In]. tauto.
  - eexists _, _, _. split; [|reflexivity]. unfold address_table. cbn [In]. tauto.
  - exists "bitcoin_cash_main"%string, "bitcoincash"%string. split; [left; reflexivity|split; reflexivity].
Qed.
Example make_addresses_ex :
  make_legacy_p2pkh_address toy BitcoinMain h20 = make_p2pkh_address toy BitcoinMain h20 /\
  make_legacy_p2pkh_address toy BitcoinCashMain h20 <> make_p2pkh_address toy BitcoinCashMain h20 /\
  make_p2wpkh_address toy DogecoinMain h20 = Err ValueError.
Proof. split; [vm_compute; reflexivity|split; [vm_compute; discriminate|vm_compute; reflexivity]]. Qed.

(* C59, full statement: without the two exceptions *)
Theorem two_networks_partial : forall H name name' net net' s script script', hashes_ok H ->
  get_network name = Ok net -> get_network name' = Ok net' ->
  to_output_script H net s = Ok script -> to_output_script H net' s = Ok script' ->
  script = script' \/
  (exists h, script = template P2PKH h /\ script' = template P2SH h /\ confused name name') \/
  (exists h, script = template P2SH h /\ script' = template P2PKH h /\ confused name' name).
Proof. intros H name name' net net' s script script'. apply c59_lemma. Qed.
Print Assumptions two_networks_partial.

(* The exceptions are real: for these pairs of networks, every P2PKH address of
   the first is read on the second as a script hash *)
Theorem two_networks_refuted : forall H name name' net net' h, hashes_ok H -> confused name name' ->
  get_network name = Ok net -> get_network name' = Ok net' -> all_bytes h -> len h = 20 ->
  exists s, from_output_script H net (template P2PKH h) false = Ok (Some s) /\
    to_output_script H net s = Ok (template P2PKH h) /\ to_output_script H net' s = Ok (template P2SH h).
Proof. exact c59_refuted_lemma. Qed.
Print Assumptions two_networks_refuted.
Example two_networks_ex : confused (lit "monacoin_main") (lit "litecoin_main") /\
  (s <- from_output_script toy MonacoinMain (template P2PKH h20) false ;;
   match s with Some s => to_output_script toy LitecoinMain s | None => Err TypeError end) = Ok (template P2SH h20) /\
  (s <- from_output_script toy BitcoinTest (template P2PKH h20) false ;;
   match s with Some s => to_output_script toy ZcashOverwinterTest s | None => Err TypeError end) = Err ValueError /\
  (s <- from_output_script toy BitcoinMain (template P2PKH h20) false ;;
   match s with Some s => to_output_script toy BitcoinCashMain s | None => Err TypeError end) = Ok (template P2PKH h20).
Proof.
  split; [|vm_compute; repeat split; reflexivity].
  exists "monacoin_main"%string, "litecoin_main"%string. split; [left; reflexivity|split; reflexivity].
Qed.
