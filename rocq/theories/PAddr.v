(* Properties C13, C14, C15 and C16: addresses and output scripts *)
From Coq Require Import String.
From Verif Require Import SSha Py MNet MUtils MScript MBase58 MAddr SNum SHash SNet SBase58 SBits SBch SBech32 SCashaddr SAddr
  LBase LBase58 LAddr LSha.
Open Scope list_scope.
Open Scope Z_scope.

Definition h20 : bytes :=
  [0x75; 0x1e; 0x76; 0xe8; 0x19; 0x91; 0x96; 0xd4; 0x54; 0x94;
   0x1c; 0x45; 0xd1; 0xb3; 0xa3; 0x23; 0xf1; 0x43; 0x3b; 0xd6].
Definition h32 : bytes := h20 ++ [1; 2; 3; 4; 5; 6; 7; 8; 9; 10; 11; 12].

(* C13, full statement: for every standard script of the network,
   to_output_script (from_output_script script) = script.  One thing is missing:
   a bech32 address which is, by accident of its checksum, also a Base58Check
   text is read as Base58 and refused. *)
Theorem script_address_script_partial : forall H name net k h cashaddr,
  hashes_ok H -> get_network name = Ok net -> all_bytes h -> len h = hash_len k ->
  (is_witness_payment k = true -> In name segwit_names) ->
  exists s, from_output_script H net (template k h) cashaddr = Ok (Some s) /\
    address_for H name net k h s /\
    (to_output_script H net s = Ok (template k h) \/
     (to_output_script H net s = Err ValueError /\ is_witness_payment k = true /\
      exists hrp p, BECH32_HRP net = Some hrp /\ segwit_address hrp 0 h s /\ base58check_of H name p s)).
Proof. exact c13_lemma. Qed.
Print Assumptions script_address_script_partial.
Example script_address_script_ex :
  let round net k h ca := s <- from_output_script toy net (template k h) ca ;;
    match s with Some s => to_output_script toy net s | None => Err TypeError end in
  round BitcoinMain P2PKH h20 true = Ok (template P2PKH h20) /\
  round BitcoinMain P2SH h20 true = Ok (template P2SH h20) /\
  round BitcoinMain P2WPKH h20 true = Ok (template P2WPKH h20) /\
  round BitcoinMain P2WSH h32 true = Ok (template P2WSH h32) /\
  round BitcoinCashMain P2SH h20 true = Ok (template P2SH h20) /\
  round BitcoinCashMain P2SH h20 false = Ok (template P2SH h20) /\
  round DecredMain P2PKH h20 true = Ok (template P2PKH h20) /\
  round NavcoinMain P2WSH h32 true = Ok (template P2WSH h32).
Proof. vm_compute. repeat split; reflexivity. Qed.

(* The exception happens: with the real SHA-256, the P2WPKH address
   bc1qr48nxggertw5vqmn5h3xe7s2waqqnp622d7euu is also a Base58Check text *)
Theorem script_address_script_refuted : exists h s, hashes_ok real /\ all_bytes h /\ len h = hash_len P2WPKH /\
  from_output_script real BitcoinMain (template P2WPKH h) true = Ok (Some s) /\ to_output_script real BitcoinMain s = Err ValueError.
Proof.
  exists [0x1d; 0x4f; 0x33; 0x21; 0x19; 0x1a; 0xdd; 0x46; 0x03; 0x73; 0xa5; 0xe2; 0x6c; 0xfa; 0x0a; 0x77; 0x40; 0x09; 0x87; 0x4a].
  exists (lit "bc1qr48nxggertw5vqmn5h3xe7s2waqqnp622d7euu").
  split; [exact real_ok|]. split; [repeat constructor; discriminate|]. split; [reflexivity|]. split; vm_compute; reflexivity.
Qed.
Print Assumptions script_address_script_refuted.

(* C14: whatever is returned is a template around the hash in the address, under
   a version that the network assigns to that kind of payment *)
Theorem to_output_script_standard : forall H name net s script,
  hashes_ok H -> get_network name = Ok net -> to_output_script H net s = Ok script ->
  exists k v h, script = template k h /\ len h = hash_len k /\ all_bytes h /\
    In v (versions net k) /\ address_text H name net s (v ++ h).
Proof. exact c14_exact_lemma. Qed.
Print Assumptions to_output_script_standard.
Theorem to_output_script_errors : forall H name net s, hashes_ok H -> get_network name = Ok net ->
  (exists script, to_output_script H net s = Ok script) \/ to_output_script H net s = Err ValueError.
Proof. exact c14_err_lemma. Qed.
Print Assumptions to_output_script_errors.
(* C14, conversely: a text that carries such a payload gives the template, unless
   it is a bech32 text and a Base58Check text at once *)
Theorem to_output_script_complete : forall H name net s k v h,
  hashes_ok H -> get_network name = Ok net -> In v (versions net k) -> len h = hash_len k ->
  address_text H name net s (v ++ h) ->
  to_output_script H net s = Ok (template k h) \/
  (to_output_script H net s = Err ValueError /\
   exists hrp w prog p, BECH32_HRP net = Some hrp /\ v ++ h = witness_bytes w prog /\
     segwit_address hrp w prog (lower s) /\ base58check_of H name p s).
Proof. exact c14_complete_lemma. Qed.
Print Assumptions to_output_script_complete.
Example to_output_script_ex :
  to_output_script toy BitcoinMain (lit "bc1qw508d6qejxtdg4y5r3zarvary0c5xw7kv8f3t4") = Ok (template P2WPKH h20) /\
  to_output_script toy BitcoinMain (lit "BC1QW508D6QEJXTDG4Y5R3ZARVARY0C5XW7KV8F3T4") = Ok (template P2WPKH h20) /\
  to_output_script toy BitcoinCashMain (lit "bitcoincash:qp63uahgrxged4z5jswyt5dn5v3lzsem6cy4spdc2h") = Ok (template P2PKH h20) /\
  to_output_script toy BitcoinMain (lit "bc1pw508d6qejxtdg4y5r3zarvary0c5xw7kw508d6qejxtdg4y5r3zarvary0c5xw7k7grplx") = Err ValueError /\
  to_output_script toy BitcoinMain (lit "not an address") = Err ValueError.
Proof. vm_compute. repeat split; reflexivity. Qed.

(* C15: a script that does not open like a template, at its length, is a
   ValueError; one that does gets the address of the template *)
Theorem from_output_script_exact : forall H name net script cashaddr,
  hashes_ok H -> get_network name = Ok net -> all_bytes script ->
  (exists k h, all_bytes h /\ len h = hash_len k /\ looks_like k h script /\
     from_output_script H net script cashaddr = from_output_script H net (template k h) cashaddr) \/
  (from_output_script H net script cashaddr = Err ValueError /\
   forall k h, len h = hash_len k -> ~ looks_like k h script).
Proof. exact c15_cases_lemma. Qed.
Print Assumptions from_output_script_exact.
Example from_output_script_exact_ex :
  from_output_script toy BitcoinMain (template P2WPKH h20) true = Ok (Some (lit "bc1qw508d6qejxtdg4y5r3zarvary0c5xw7kv8f3t4")) /\
  from_output_script toy BitcoinMain (0x51 :: h20) true = Err ValueError.
Proof. split; vm_compute; reflexivity. Qed.

(* C15, full statement: whenever an address is returned, it pays to exactly the
   script, and different scripts never share an address.  True of the standard
   scripts of the network; missing are scripts with other closing opcodes and
   witness scripts on bitcoin cash (both below). *)
Theorem from_output_script_pays_partial : forall H name net k h s cashaddr,
  hashes_ok H -> get_network name = Ok net -> all_bytes h -> len h = hash_len k ->
  (is_witness_payment k = true -> In name segwit_names) ->
  from_output_script H net (template k h) cashaddr = Ok (Some s) ->
  address_for H name net k h s /\
  (forall script, to_output_script H net s = Ok script -> script = template k h).
Proof. exact c15_partial_lemma. Qed.
Print Assumptions from_output_script_pays_partial.
Theorem from_output_script_distinct_partial : forall H name net k h k' h' cashaddr cashaddr' s,
  hashes_ok H -> get_network name = Ok net ->
  all_bytes h -> len h = hash_len k -> (is_witness_payment k = true -> In name segwit_names) ->
  all_bytes h' -> len h' = hash_len k' -> (is_witness_payment k' = true -> In name segwit_names) ->
  from_output_script H net (template k h) cashaddr = Ok (Some s) ->
  from_output_script H net (template k' h') cashaddr' = Ok (Some s) ->
  template k h = template k' h'.
Proof. exact c15_distinct_lemma. Qed.
Print Assumptions from_output_script_distinct_partial.
Example from_output_script_pays_ex :
  from_output_script toy BitcoinCashTest (template P2PKH h20) true =
    Ok (Some (lit "bchtest:qp63uahgrxged4z5jswyt5dn5v3lzsem6cq85x00dt")).
Proof. vm_compute. reflexivity. Qed.
(* the closing opcodes are not read: DUP HASH160 <h> RETURN 0 gets the address of
   the key hash *)
Theorem from_output_script_suffix_refuted :
  let odd := [0x76; 0xa9; 0x14] ++ h20 ++ [0x6a; 0x00] in
  from_output_script toy BitcoinMain odd true = from_output_script toy BitcoinMain (template P2PKH h20) true /\
  (exists s, from_output_script toy BitcoinMain odd true = Ok (Some s)) /\
  odd <> template P2PKH h20.
Proof. split; [vm_compute; reflexivity|split; [eexists; vm_compute; reflexivity|discriminate]]. Qed.
Print Assumptions from_output_script_suffix_refuted.
(* witness scripts where there is no segregated witness: a ValueError, or on
   bitcoin cash a cashaddr of another kind *)
Theorem from_output_script_no_witness : forall H name net k h cashaddr,
  hashes_ok H -> get_network name = Ok net -> all_bytes h -> len h = hash_len k ->
  is_witness_payment k = true -> ~ In name segwit_names ->
  from_output_script H net (template k h) cashaddr = Err ValueError \/
  (cashaddr = true /\ exists p s, CASHADDR_PREFIX net = Some p /\
   cashaddr_of p ((match k with P2WPKH => 0 | _ => 8 end) :: h) s /\
   from_output_script H net (template k h) cashaddr = Ok (Some s)).
Proof. exact c15_unsupported_lemma. Qed.
Print Assumptions from_output_script_no_witness.
Theorem from_output_script_shared_refuted :
  from_output_script toy BitcoinCashMain (template P2WPKH h20) true =
    Ok (Some (lit "bitcoincash:qp63uahgrxged4z5jswyt5dn5v3lzsem6cy4spdc2h")) /\
  from_output_script toy BitcoinCashMain (template P2PKH h20) true =
    Ok (Some (lit "bitcoincash:qp63uahgrxged4z5jswyt5dn5v3lzsem6cy4spdc2h")).
Proof. split; vm_compute; reflexivity. Qed.
Print Assumptions from_output_script_shared_refuted.

(* C16: make_p2pkh_address and make_legacy_p2pkh_address *)
Theorem make_pkh_address_hash : forall H name net pubkey cashaddr,
  hashes_ok H -> get_network name = Ok net ->
  exists s, make_pkh_address H net pubkey false cashaddr = Ok (Some s) /\
    address_for H name net P2PKH (key_hash H name pubkey) s /\
    parse_hash H net s = Ok (key_hash H name pubkey) /\
    to_output_script H net s = Ok (template P2PKH (key_hash H name pubkey)).
Proof. exact c16_key_lemma. Qed.
Print Assumptions make_pkh_address_hash.
(* C16: make_p2sh_address and make_legacy_p2sh_address *)
Theorem make_sh_address_hash : forall H name net script b cashaddr,
  hashes_ok H -> get_network name = Ok net -> serialize net script = Ok b ->
  exists s, make_sh_address H net script false cashaddr = Ok (Some s) /\
    address_for H name net P2SH (key_hash H name b) s /\
    parse_hash H net s = Ok (key_hash H name b) /\
    to_output_script H net s = Ok (template P2SH (key_hash H name b)).
Proof. exact c16_script_lemma. Qed.
Print Assumptions make_sh_address_hash.
Example make_address_ex :
  let round net a := s <- a ;; match s with Some s => parse_hash toy net s | None => Err TypeError end in
  round BitcoinMain (make_p2pkh_address toy BitcoinMain [2; 3; 4]) = Ok (h_rmd160 toy (h_sha256 toy [2; 3; 4])) /\
  round DecredTest (make_p2pkh_address toy DecredTest [2; 3; 4]) = Ok (h_rmd160 toy (h_blake256 toy [2; 3; 4])) /\
  round BitcoinCashMain (make_p2sh_address toy BitcoinCashMain (lit "OP_1 OP_EQUAL")) =
    Ok (h_rmd160 toy (h_sha256 toy [0x51; 0x87])).
Proof. vm_compute. repeat split; reflexivity. Qed.

(* C16: make_p2wpkh_address and make_p2wsh_address where witness addresses are
   bech32.  Full statement as above, without the Base58Check alternative, on all
   networks. *)
Theorem make_p2wpkh_address_partial : forall H name net pubkey cashaddr,
  hashes_ok H -> get_network name = Ok net -> In name segwit_names -> SEGWIT_ENCODER net = Enc_bech32 ->
  exists s, make_pkh_address H net pubkey true cashaddr = Ok (Some s) /\
    address_for H name net P2WPKH (key_hash H name pubkey) s /\
    ((exists p, base58check_of H name p s) \/
     (parse_hash H net s = Ok (key_hash H name pubkey) /\
      to_output_script H net s = Ok (template P2WPKH (key_hash H name pubkey)))).
Proof. exact c16_wkey_lemma. Qed.
Print Assumptions make_p2wpkh_address_partial.
Theorem make_p2wsh_address_partial : forall H name net script b cashaddr,
  hashes_ok H -> get_network name = Ok net -> In name segwit_names -> SEGWIT_ENCODER net = Enc_bech32 ->
  serialize net script = Ok b ->
  exists s, make_sh_address H net script true cashaddr = Ok (Some s) /\
    address_for H name net P2WSH (h_sha256 H b) s /\
    ((exists p, base58check_of H name p s) \/
     (parse_hash H net s = Ok (h_sha256 H b) /\
      to_output_script H net s = Ok (template P2WSH (h_sha256 H b)))).
Proof. exact c16_wscript_lemma. Qed.
Print Assumptions make_p2wsh_address_partial.
Example make_witness_address_ex :
  let round net a := s <- a ;; match s with Some s => parse_hash toy net s | None => Err TypeError end in
  round BitcoinMain (make_p2wpkh_address toy BitcoinMain [2; 3; 4]) = Ok (h_rmd160 toy (h_sha256 toy [2; 3; 4])) /\
  round BitcoinMain (make_p2wsh_address toy BitcoinMain (lit "OP_1 OP_EQUAL")) = Ok (h_sha256 toy [0x51; 0x87]).
Proof. vm_compute. split; reflexivity. Qed.
Theorem make_sh_address_bad_script : forall H net script witness cashaddr e,
  serialize net script = Err e -> make_sh_address H net script witness cashaddr = Err e.
Proof. exact c16_bad_script_lemma. Qed.
Print Assumptions make_sh_address_bad_script.
Example make_sh_address_bad_ex : serialize BitcoinMain (lit "OP_NONSENSE") = Err ValueError.
Proof. vm_compute. reflexivity. Qed.

(* C16, where witness addresses are Base58: the output script is right, but
   parse_hash never returns the hash *)
Theorem make_base58_p2wpkh_refuted : forall H name net pubkey cashaddr,
  hashes_ok H -> get_network name = Ok net -> In name segwit_names -> SEGWIT_ENCODER net = Enc_base58 ->
  exists s, make_pkh_address H net pubkey true cashaddr = Ok (Some s) /\
    to_output_script H net s = Ok (template P2WPKH (key_hash H name pubkey)) /\
    parse_hash H net s = (if leqb (P2PKH_PREFIX net) [0] then Ok (20 :: key_hash H name pubkey) else Err ValueError).
Proof. exact c16_base58_lemma. Qed.
Print Assumptions make_base58_p2wpkh_refuted.
Example make_base58_p2wpkh_ex :
  get_network (lit "bitcore_main") = Ok BitcoreMain /\ In (lit "bitcore_main") segwit_names /\
  SEGWIT_ENCODER BitcoreMain = Enc_base58 /\ P2PKH_PREFIX BitcoreMain = [0] /\
  P2PKH_PREFIX MonacoinMain = [50] /\ SEGWIT_ENCODER MonacoinMain = Enc_base58.
Proof. split; [vm_compute; reflexivity|]. split; [apply LNet.str_mem_In; vm_compute; reflexivity|]. repeat split. Qed.
