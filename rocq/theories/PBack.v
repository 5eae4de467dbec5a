(* Property C101: addresses that are read and written back *)
From Coq Require Import String.
From Verif Require Import Py MNet MUtils MBase58 MCashaddr MAddr SNum SHash SNet SBase58 SBech32 SCashaddr SAddr SParams SBack LBase LBase58 LAddr LBack.
Open Scope list_scope.
Open Scope Z_scope.

(* C101: what is written for a text that was read is the network's own text of the payment, whatever
   the text was; so it is the same text exactly if it was the network's own.  There is none exactly for
   witness payments on a network without witness addresses. *)
Theorem address_written_back : forall H name net s script cashaddr, hashes_ok H -> get_network name = Ok net ->
  to_output_script H net s = Ok script ->
  exists k h, script = template k h /\ all_bytes h /\ len h = hash_len k /\
    (forall s', from_output_script H net script cashaddr = Ok (Some s') <-> own_text H name cashaddr k h s') /\
    (from_output_script H net script cashaddr = Err ValueError <->
     is_witness_payment k = true /\ witness_addresses name no_witness /\ (cashaddr = false \/ forall p, ~ cash_network name p)).
Proof. exact written_back_lemma. Qed.
Print Assumptions address_written_back.

(* C101: a Base58Check text with the network's version comes back, unless CashAddr was asked for *)
Theorem legacy_address_comes_back : forall H name net k v h s cashaddr, hashes_ok H -> get_network name = Ok net ->
  is_witness_payment k = false -> legacy_version name k v -> len h = 20 -> base58check_of H name (v ++ h) s ->
  to_output_script H net s = Ok (template k h) /\
  (from_output_script H net (template k h) cashaddr = Ok (Some s) <-> cashaddr = false \/ forall p, ~ cash_network name p).
Proof. exact legacy_back_lemma. Qed.
Print Assumptions legacy_address_comes_back.

(* C101: a bech32 text comes back in small letters *)
Theorem bech32_address_comes_back : forall H name net k hrp h s cashaddr script, hashes_ok H -> get_network name = Ok net ->
  is_witness_payment k = true -> witness_addresses name (bech32_witness hrp) -> all_bytes h -> len h = hash_len k ->
  segwit_address (lit hrp) 0 h (lower s) -> to_output_script H net s = Ok script ->
  script = template k h /\ from_output_script H net script cashaddr = Ok (Some (lower s)).
Proof. exact bech32_back_lemma. Qed.
Print Assumptions bech32_address_comes_back.

(* C101: writing settles at once: the text written for any script, if it is read, is written again *)
Theorem address_settles : forall H name net cashaddr script s script', hashes_ok H -> get_network name = Ok net -> all_bytes script ->
  from_output_script H net script cashaddr = Ok (Some s) -> to_output_script H net s = Ok script' ->
  from_output_script H net script' cashaddr = Ok (Some s).
Proof. exact settles_lemma. Qed.
Print Assumptions address_settles.

Definition h20 : bytes := [0x75; 0x1e; 0x76; 0xe8; 0x19; 0x91; 0x96; 0xd4; 0x54; 0x94; 0x1c; 0x45; 0xd1; 0xb3; 0xa3; 0x23; 0xf1; 0x43; 0x3b; 0xd6].
Definition back (net : network) (s : str) (cashaddr : bool) : res (option str) :=
  script <- to_output_script toy net s ;; from_output_script toy net script cashaddr.
(* capitals and 132 spellings of a CashAddr text become one *)
Example address_written_back_ex :
  back BitcoinMain (lit "bc1qw508d6qejxtdg4y5r3zarvary0c5xw7kv8f3t4") true = Ok (Some (lit "bc1qw508d6qejxtdg4y5r3zarvary0c5xw7kv8f3t4")) /\
  back BitcoinMain (lit "BC1QW508D6QEJXTDG4Y5R3ZARVARY0C5XW7KV8F3T4") true = Ok (Some (lit "bc1qw508d6qejxtdg4y5r3zarvary0c5xw7kv8f3t4")) /\
  back BitcoinCashMain (lit "bitcoincash:qr3wdvuuejklcwwpcd5qrrn9angec4lxv5zzus47uqp") true =
    Ok (Some (lit "bitcoincash:qr3wdvuuejklcwwpcd5qrrn9angec4lxv5zzus47up")).
Proof. vm_compute. repeat split; reflexivity. Qed.
(* a Base58Check text *)
Example legacy_address_comes_back_ex : exists s t,
  base58_encode toy BitcoinCashMain (0 :: h20) true = Ok s /\ back BitcoinMain s true = Ok (Some s) /\
  back BitcoinCashMain s false = Ok (Some s) /\ back BitcoinCashMain s true = Ok (Some t) /\ t <> s /\ back BitcoinCashMain t true = Ok (Some t).
Proof. do 2 eexists. split; [vm_compute; reflexivity|]. split; [vm_compute; reflexivity|]. split; [vm_compute; reflexivity|].
  split; [vm_compute; reflexivity|]. split; [discriminate|vm_compute; reflexivity]. Qed.
(* A Base58Check text that carries a witness program is paid to on every network; on dogecoin_main, which has no witness
   addresses, nothing can be written for the payment *)
Example address_written_back_none_ex : exists s,
  base58_encode toy DogecoinMain (0 :: 20 :: h20) true = Ok s /\ to_output_script toy DogecoinMain s = Ok (template P2WPKH h20) /\
  back DogecoinMain s true = Err ValueError.
Proof. eexists. split; [vm_compute; reflexivity|]. split; vm_compute; reflexivity. Qed.
(* on bitcoin_cash_main a witness script gets the CashAddr text of a key hash, which then stays *)
Example address_settles_ex : exists s,
  from_output_script toy BitcoinCashMain (template P2WPKH h20) true = Ok (Some s) /\
  to_output_script toy BitcoinCashMain s = Ok (template P2PKH h20) /\
  from_output_script toy BitcoinCashMain (template P2PKH h20) true = Ok (Some s).
Proof. eexists. split; [vm_compute; reflexivity|]. split; vm_compute; reflexivity. Qed.
