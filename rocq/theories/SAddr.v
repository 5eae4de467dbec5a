(* Output script templates and the texts that stand for them *)
From Coq Require Import String.
From Verif Require Import Py MNet MUtils SNum SHash SNet SBase58 SBits SBch SBech32 SCashaddr LBase.
Open Scope list_scope.
Open Scope Z_scope.

Inductive payment := P2PKH | P2SH | P2WPKH | P2WSH.

Definition hash_len (k : payment) : Z := match k with P2WSH => 32 | _ => 20 end.
Definition is_witness_payment (k : payment) : bool :=
  match k with P2WPKH | P2WSH => true | _ => false end.

(* the standard output scripts *)
Definition template (k : payment) (h : bytes) : bytes :=
  match k with
  | P2PKH => [0x76; 0xa9; 0x14] ++ h ++ [0x88; 0xac] (* DUP HASH160 <h> EQUALVERIFY CHECKSIG *)
  | P2SH => [0xa9; 0x14] ++ h ++ [0x87]              (* HASH160 <h> EQUAL *)
  | P2WPKH => [0x00; 0x14] ++ h                      (* 0 <h> *)
  | P2WSH => [0x00; 0x20] ++ h                       (* 0 <h> *)
  end.

(* networks with segregated witness *)
Definition segwit_names : list str :=
  map lit ["bitcoin_main"; "bitcoin_test"; "bitcoin_reg";
           "litecoin_main"; "litecoin_test"; "litecoin_reg";
           "bitcoin_gold_main"; "bitcoin_gold_test"; "bitcoin_gold_reg";
           "viacoin_main"; "viacoin_test"; "viacoin_simnet";
           "feathercoin_main"; "feathercoin_test"; "feathercoin_reg";
           "bitcore_main"; "bitcore_test"; "bitcore_reg";
           "digibyte_main"; "digibyte_test"; "digibyte_reg";
           "groestlcoin_main"; "groestlcoin_test"; "groestlcoin_reg";
           "monacoin_main"; "monacoin_test"; "monacoin_reg";
           "navcoin_main"; "navcoin_test"; "navcoin_reg";
           "syscoin_main"; "syscoin_test"; "syscoin_reg";
           "vertcoin_main"; "vertcoin_test"; "vertcoin_reg"]%string.

(* the version bytes that announce a kind of payment on a network: the legacy
   one and the cashaddr one *)
Definition versions (net : network) (k : payment) : list bytes :=
  match k with
  | P2PKH => P2PKH_PREFIX net :: match CASHADDR_P2PKH net with Some p => [p] | None => [] end
  | P2SH => P2SH_PREFIX net :: match CASHADDR_P2SH net with Some p => [p] | None => [] end
  | P2WPKH => [[0; 20]]
  | P2WSH => [[0; 32]]
  end.

(* s is the Base58Check text of the payload *)
Definition base58check_of (H : hashes) (name : str) (payload : bytes) (s : str) : Prop :=
  all_bytes payload /\
  base58_of (payload ++ firstn 4 (if in_dec list_eq_dec_Z name decred_names
                                  then blake256d H payload else sha256d H payload)) s.

(* s is a text of the network that carries the payload *)
Inductive address_text (H : hashes) (name : str) (net : network) (s : str) (payload : bytes) : Prop :=
| text_base58 : base58check_of H name payload s -> address_text H name net s payload
| text_bech32 : forall hrp v prog, SEGWIT_ENCODER net = Enc_bech32 -> BECH32_HRP net = Some hrp ->
    payload = witness_bytes v prog -> witness_program v prog -> one_case s ->
    segwit_address hrp v prog (lower s) -> address_text H name net s payload
| text_cashaddr : forall p suffix values, CASHADDR_PREFIX net = Some p -> ~ In 58 suffix ->
    cashaddr_text (p ++ suffix) values s -> leading_bytes values payload ->
    len payload = Z.max 0 ((5 * len values + 7) / 8 - 6) -> address_text H name net s payload.

(* s is the address of a payment, in the format and with the version that the
   network prescribes for this kind of payment *)
Definition address_for (H : hashes) (name : str) (net : network) (k : payment) (h : bytes) (s : str) : Prop :=
  let legacy_or_cash prefix cash :=
    base58check_of H name (prefix ++ h) s \/
    exists p q, CASHADDR_PREFIX net = Some p /\ cash = Some q /\ cashaddr_of p (q ++ h) s in
  let witness :=
    In name segwit_names /\
    match SEGWIT_ENCODER net with
    | Enc_base58 => base58check_of H name (0 :: hash_len k :: h) s
    | Enc_bech32 => exists hrp, BECH32_HRP net = Some hrp /\ segwit_address hrp 0 h s
    end in
  match k with
  | P2PKH => legacy_or_cash (P2PKH_PREFIX net) (CASHADDR_P2PKH net)
  | P2SH => legacy_or_cash (P2SH_PREFIX net) (CASHADDR_P2SH net)
  | P2WPKH | P2WSH => witness
  end.

(* the script opens like a template and has its length, whatever the closing
   opcodes are *)
Definition looks_like (k : payment) (h script : bytes) : Prop :=
  match k with
  | P2PKH => exists a b, script = [0x76; 0xa9; 0x14] ++ h ++ [a; b]
  | P2SH => exists a, script = [0xa9; 0x14] ++ h ++ [a]
  | P2WPKH | P2WSH => script = template k h
  end.

(* the hash that stands for a key or a script: RIPEMD-160 of SHA-256, or of
   BLAKE-256 on decred *)
Definition key_hash (H : hashes) (name : str) (m : bytes) : bytes :=
  h_rmd160 H (if in_dec list_eq_dec_Z name decred_names then h_blake256 H m else h_sha256 H m).
