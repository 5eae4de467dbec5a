(* Address parameters of the supported networks: the Base58Check versions of P2PKH
   and P2SH addresses (above 255, two bytes) and the form of witness addresses.
   This is what the library is meant to use for each network; whether a coin's own
   nodes agree cannot be settled from its source. *)
From Coq Require Import String.
From Verif Require Import Py MNet MUtils SNum SHash SBase58 SBech32 SCashaddr SAddr.
Open Scope list_scope.
Open Scope Z_scope.

Inductive witness_format := no_witness | bech32_witness (hrp : string) | base58_witness.

Definition address_table : list (string * Z * Z * witness_format) := [
  ("bitcoin_main", 0, 5, bech32_witness "bc");
  ("bitcoin_test", 111, 196, bech32_witness "tb");
  ("bitcoin_reg", 111, 196, bech32_witness "bcrt");
  ("litecoin_main", 48, 50, bech32_witness "ltc");
  ("litecoin_test", 111, 58, bech32_witness "tltc");
  ("litecoin_reg", 111, 58, bech32_witness "tltc");
  ("bitcoin_cash_main", 0, 5, no_witness);
  ("bitcoin_cash_test", 111, 196, no_witness);
  ("bitcoin_cash_reg", 111, 196, no_witness);
  ("bitcoin_gold_main", 38, 23, bech32_witness "btg");
  ("bitcoin_gold_test", 111, 196, bech32_witness "tbtg");
  ("bitcoin_gold_reg", 111, 196, bech32_witness "tbtg");
  ("dogecoin_main", 30, 22, no_witness);
  ("dogecoin_test", 113, 196, no_witness);
  ("dogecoin_reg", 113, 196, no_witness);
  ("dash_main", 76, 16, no_witness);
  ("dash_test", 140, 19, no_witness);
  ("dash_reg", 140, 19, no_witness);
  ("zcash_sprout_main", 0x1cb8, 0x1cbd, no_witness);
  ("zcash_sprout_test", 0x1d25, 0x1cba, no_witness);
  ("zcash_sprout_reg", 0x1d25, 0x1cba, no_witness);
  ("zcash_overwinter_main", 0x1cb8, 0x1cbd, no_witness);
  ("zcash_overwinter_test", 0x1d25, 0x1cba, no_witness);
  ("zcash_overwinter_reg", 0x1d25, 0x1cba, no_witness);
  ("zcash_sapling_main", 0x1cb8, 0x1cbd, no_witness);
  ("zcash_sapling_test", 0x1d25, 0x1cba, no_witness);
  ("zcash_sapling_reg", 0x1d25, 0x1cba, no_witness);
  ("decred_main", 0x073f, 0x071a, no_witness);
  ("decred_test", 0x0f21, 0x0efc, no_witness);
  ("decred_simnet", 0x28f7, 0x0efc, no_witness);
  ("pivx_main", 30, 13, no_witness);
  ("pivx_test", 139, 19, no_witness);
  ("pivx_reg", 139, 19, no_witness);
  ("viacoin_main", 71, 33, bech32_witness "via");
  ("viacoin_test", 127, 196, bech32_witness "tvia");
  ("viacoin_simnet", 111, 196, bech32_witness "svia");
  ("feathercoin_main", 14, 96, bech32_witness "fc");
  ("feathercoin_test", 111, 196, bech32_witness "tf");
  ("feathercoin_reg", 111, 196, bech32_witness "fcrt");
  ("bitcoin_dark_main", 60, 85, no_witness);
  ("bitcoin_dark_test", 111, 196, no_witness);
  ("bitcoin_dark_reg", 111, 196, no_witness);
  ("axe_main", 55, 16, no_witness);
  ("axe_test", 140, 19, no_witness);
  ("axe_reg", 140, 19, no_witness);
  ("bitcore_main", 0, 50, base58_witness);
  ("bitcore_test", 111, 58, base58_witness);
  ("bitcore_reg", 111, 58, base58_witness);
  ("digibyte_main", 30, 63, bech32_witness "dgb");
  ("digibyte_test", 126, 140, bech32_witness "dgbt");
  ("digibyte_reg", 126, 140, bech32_witness "dgbrt");
  ("groestlcoin_main", 36, 5, base58_witness);
  ("groestlcoin_test", 111, 196, base58_witness);
  ("groestlcoin_reg", 111, 196, base58_witness);
  ("monacoin_main", 50, 55, base58_witness);
  ("monacoin_test", 111, 196, base58_witness);
  ("monacoin_reg", 111, 196, base58_witness);
  ("navcoin_main", 53, 85, base58_witness);
  ("navcoin_test", 54, 86, base58_witness);
  ("navcoin_reg", 20, 96, base58_witness);
  ("syscoin_main", 63, 5, base58_witness);
  ("syscoin_test", 65, 196, base58_witness);
  ("syscoin_reg", 65, 196, base58_witness);
  ("vertcoin_main", 71, 5, bech32_witness "vtc");
  ("vertcoin_test", 74, 196, bech32_witness "tvtc");
  ("vertcoin_reg", 111, 196, bech32_witness "bcrt");
  ("bitcoin_private_main", 0x1325, 0x13af, no_witness);
  ("bitcoin_private_test", 0x1957, 0x19e0, no_witness);
  ("bitcoin_private_reg", 0x1957, 0x19e0, no_witness);
  ("verge_main", 30, 33, no_witness);
  ("verge_test", 115, 198, no_witness);
  ("verge_reg", 115, 198, no_witness)
]%string.

Definition version_bytes (v : Z) : bytes := if v <? 256 then [v] else [v / 256; v mod 256].

Definition legacy_version (name : str) (k : payment) (v : bytes) : Prop :=
  exists n p2pkh p2sh w, In (n, p2pkh, p2sh, w) address_table /\ name = lit n /\
    v = version_bytes (match k with P2SH => p2sh | _ => p2pkh end).
Definition witness_addresses (name : str) (w : witness_format) : Prop :=
  exists n p2pkh p2sh, In (n, p2pkh, p2sh, w) address_table /\ name = lit n.

(* networks that write addresses as CashAddr, with their prefix *)
Definition cash_table : list (string * string) :=
  [("bitcoin_cash_main", "bitcoincash"); ("bitcoin_cash_test", "bchtest"); ("bitcoin_cash_reg", "bchtest")]%string.
Definition cash_network (name p : str) : Prop := exists n q, In (n, q) cash_table /\ name = lit n /\ p = lit q.
Definition cash_kind (k : payment) : Z := match k with P2PKH | P2WPKH => 0 | P2SH | P2WSH => 8 end.

(* (a, b): the P2PKH version of network a is the P2SH version of network b *)
Definition confusable : list (string * string) :=
  [("monacoin_main", "litecoin_main"); ("monacoin_main", "bitcore_main"); ("axe_main", "monacoin_main");
   ("syscoin_main", "digibyte_main");
   ("dash_test", "digibyte_test"); ("dash_test", "digibyte_reg"); ("dash_reg", "digibyte_test"); ("dash_reg", "digibyte_reg");
   ("axe_test", "digibyte_test"); ("axe_test", "digibyte_reg"); ("axe_reg", "digibyte_test"); ("axe_reg", "digibyte_reg")]%string.
Definition confused (a b : str) : Prop := exists x y, In (x, y) confusable /\ a = lit x /\ b = lit y.

(* s is the address, in the network's non-CashAddr format, of a payment to a hash *)
Definition network_address (H : hashes) (name : str) (k : payment) (h : bytes) (s : str) : Prop :=
  match k with
  | P2PKH | P2SH => exists v, legacy_version name k v /\ base58check_of H name (v ++ h) s
  | P2WPKH | P2WSH => exists w, witness_addresses name w /\
      match w with
      | no_witness => False
      | bech32_witness hrp => segwit_address (lit hrp) 0 h s
      | base58_witness => base58check_of H name (0 :: len h :: h) s
      end
  end.
