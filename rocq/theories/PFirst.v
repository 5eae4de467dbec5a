(* Property C103: how the addresses of each network begin and how long they are *)
From Coq Require Import String.
From Verif Require Import Py MNet MUtils MScript MBase58 MBech32 MCashaddr MAddr SNum SHash SNet SBase58 SBech32 SCashaddr SAddr SParams SFirst
  LBase LBase58 LAddr LFirst PParams.
Open Scope list_scope.
Open Scope Z_scope.

(* C103: whatever the hash and the hash functions are *)
Theorem address_begins : forall H name net k h cashaddr s, hashes_ok H -> get_network name = Ok net -> all_bytes h -> len h = hash_len k ->
  from_output_script H net (template k h) cashaddr = Ok (Some s) ->
  (exists p, cashaddr = true /\ cash_network name p /\ cash_looks p k s) \/
  ((cashaddr = false \/ forall p, ~ cash_network name p) /\ looks name k s).
Proof. exact written_looks. Qed.
Print Assumptions address_begins.

(* C103: the addresses made from keys and scripts *)
Theorem made_address_begins : forall H name net, hashes_ok H -> get_network name = Ok net ->
  (forall pubkey, exists s, make_legacy_p2pkh_address H net pubkey = Ok (Some s) /\ looks name P2PKH s) /\
  (forall script b, serialize net script = Ok b -> exists s, make_legacy_p2sh_address H net script = Ok (Some s) /\ looks name P2SH s) /\
  ((forall p, ~ cash_network name p) ->
   (forall pubkey s, make_p2pkh_address H net pubkey = Ok (Some s) -> looks name P2PKH s) /\
   (forall script b s, serialize net script = Ok b -> make_p2sh_address H net script = Ok (Some s) -> looks name P2SH s) /\
   (forall pubkey s, make_p2wpkh_address H net pubkey = Ok (Some s) -> looks name P2WPKH s) /\
   (forall script b s, serialize net script = Ok b -> make_p2wsh_address H net script = Ok (Some s) -> looks name P2WSH s)).
Proof.
  intros H name net OK En. destruct (make_legacy_addresses H name net OK En) as [A B]. split; [|split].
  - intros pubkey. destruct (A pubkey) as (s & E & N). exists s. split; [exact E|]. exact (network_looks H name P2PKH _ s OK (proj2 (key_hash_ok H name _ OK)) N).
  - intros script b E. destruct (B script b E) as (s & E' & N). exists s. split; [exact E'|]. exact (network_looks H name P2SH _ s OK (proj2 (key_hash_ok H name _ OK)) N).
  - intros C. destruct (make_addresses H name net OK En C) as [A' B']. destruct (make_witness_addresses H name net OK En C) as [A2 B2]. repeat split.
    + intros pubkey s E. destruct (A' pubkey) as (s' & E' & N). assert (s' = s) as -> by congruence. exact (network_looks H name P2PKH _ s OK (proj2 (key_hash_ok H name _ OK)) N).
    + intros script b s S E. destruct (B' script b S) as (s' & E' & N). assert (s' = s) as -> by congruence. exact (network_looks H name P2SH _ s OK (proj2 (key_hash_ok H name _ OK)) N).
    + intros pubkey s E. destruct (A2 pubkey) as [[_ X]|(s' & E' & N)]; [congruence|]. assert (s' = s) as -> by congruence. exact (network_looks H name P2WPKH _ s OK (proj2 (key_hash_ok H name _ OK)) N).
    + intros script b s S E. destruct (B2 script b S) as [[_ X]|(s' & E' & N)]; [congruence|]. assert (s' = s) as -> by congruence.
      apply (network_looks H name P2WSH (h_sha256 H b) s OK); [apply OK|exact N].
Qed.
Print Assumptions made_address_begins.

(* C103: the texts that are read, where there is no CashAddr *)
Theorem read_address_begins : forall H name net s script, hashes_ok H -> get_network name = Ok net -> (forall p, ~ cash_network name p) ->
  to_output_script H net s = Ok script ->
  exists k h, script = template k h /\ all_bytes h /\ len h = hash_len k /\ reads_like name k s.
Proof. exact read_looks. Qed.
Print Assumptions read_address_begins.
(* capitals; a Base58Check text of a witness program; witness version 5, which is read as P2SH *)
Example read_address_begins_ex : (exists h, to_output_script toy BitcoinMain (lit "BC1QW508D6QEJXTDG4Y5R3ZARVARY0C5XW7KV8F3T4") = Ok (template P2WPKH h)) /\
  (exists s, base58_encode toy DogecoinMain (0 :: 20 :: repeat 9 20) true = Ok (lit "19" ++ s) /\
    to_output_script toy DogecoinMain (lit "19" ++ s) = Ok (template P2WPKH (repeat 9 20))) /\
  (exists s, segwit_encode (lit "bc") 5 (repeat 9 19) = Ok (Some s) /\ len s = 41 /\
    to_output_script toy BitcoinMain s = Ok (template P2SH (19 :: repeat 9 19))).
Proof.
  split; [eexists; vm_compute; reflexivity|]. split; eexists; (split; [vm_compute; reflexivity|]); [vm_compute; reflexivity|].
  split; vm_compute; reflexivity.
Qed.

Definition written (net : network) (k : payment) (h : bytes) : str :=
  match from_output_script toy net (template k h) true with Ok (Some s) => s | _ => [] end.
(* both ends of the table's row *)
Example address_begins_ex :
  firstn 1 (written BitcoinMain P2PKH (repeat 9 20)) = lit "1" /\ firstn 1 (written BitcoinMain P2SH (repeat 9 20)) = lit "3" /\
  firstn 1 (written BitcoinTest P2PKH (repeat 0 20)) = lit "m" /\ firstn 1 (written BitcoinTest P2PKH (repeat 255 20)) = lit "n" /\
  firstn 1 (written DogecoinMain P2SH (repeat 0 20)) = lit "9" /\ firstn 1 (written DogecoinMain P2SH (repeat 255 20)) = lit "A" /\
  firstn 2 (written ZcashSaplingMain P2PKH (repeat 9 20)) = lit "t1" /\ firstn 4 (written BitcoinMain P2WPKH (repeat 9 20)) = lit "bc1q" /\
  firstn 13 (written BitcoinCashMain P2SH (repeat 9 20)) = lit "bitcoincash:p" /\ firstn 2 (written BitcoreMain P2WPKH (repeat 9 20)) = lit "19" /\
  len (written BitcoinMain P2PKH (repeat 0 20)) <= 27 /\ len (written BitcoinMain P2PKH (repeat 255 20)) = 34.
Proof. vm_compute. repeat split; (reflexivity || discriminate). Qed.
(* Decred's simulation network shares its P2SH version with the test network; its P2PKH addresses begin with 2F,
   while those of Decred's own nodes are documented to begin with Ss *)
Example decred_simnet_ex :
  firstn 2 (written DecredSimnet P2PKH (repeat 9 20)) = lit "2F" /\ len (written DecredSimnet P2PKH (repeat 9 20)) = 36 /\
  firstn 2 (written DecredSimnet P2SH (repeat 9 20)) = lit "Tc" /\ firstn 2 (written DecredTest P2SH (repeat 9 20)) = lit "Tc" /\
  firstn 2 (written DecredMain P2PKH (repeat 9 20)) = lit "Ds".
Proof. vm_compute. repeat split; reflexivity. Qed.

(* C103: and where there is *)
Theorem read_cashaddr_begins : forall H name net p s script, hashes_ok H -> get_network name = Ok net -> cash_network name p ->
  to_output_script H net s = Ok script ->
  exists k h, script = template k h /\ all_bytes h /\ len h = hash_len k /\ cash_reads_like name p k s.
Proof. exact cash_read_looks. Qed.
Print Assumptions read_cashaddr_begins.
(* The test network of Bitcoin Cash takes the legacy addresses of the main network, and both take Base58Check texts that
   begin with 4; a CashAddr text that begins with q can be read as P2SH *)
Example read_cashaddr_begins_ex : cash_network (lit "bitcoin_cash_test") (lit "bchtest") /\
  to_output_script toy BitcoinCashTest (match from_output_script toy BitcoinCashMain (template P2PKH (repeat 9 20)) false with Ok (Some s) => s | _ => [] end)
    = Ok (template P2PKH (repeat 9 20)) /\
  (exists s, base58_encode toy BitcoinCashMain (8 :: repeat 9 20) true = Ok (lit "4" ++ s) /\
    to_output_script toy BitcoinCashMain (lit "4" ++ s) = Ok (template P2SH (repeat 9 20))) /\
  (exists s, cashaddr_encode BitcoinCashMain (5 :: repeat 9 20) = Ok (lit "bitcoincash:q" ++ s) /\ len s = 41 /\
    to_output_script toy BitcoinCashMain (lit "bitcoincash:q" ++ s) = Ok (template P2SH (repeat 9 20))).
Proof.
  split; [exists "bitcoin_cash_test"%string, "bchtest"%string; split; [cbn; auto|split; reflexivity]|].
  split; [vm_compute; reflexivity|]. split; eexists; (split; [vm_compute; reflexivity|]); [vm_compute; reflexivity|].
  split; vm_compute; reflexivity.
Qed.
