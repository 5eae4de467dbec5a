(* The networks table.  riemann/networks/networks.py and
   riemann/networks/__init__.py, transcribed class by class (attributes that a
   class does not set are inherited from class Network, networks.py:5-30).
   LEGACY_ENCODER is base58 and CASHADDR_ENCODER is cashaddr on every network
   (networks.py:21-22; no class overrides them).  P2PK_PREFIX (decred only) is
   not used by any code and is left out. *)
From Coq Require Import String.
From Verif Require Import Py.
Open Scope string_scope.
Open Scope Z_scope.

(* riemann/networks/networks.py:20 *)
Inductive encoder := Enc_bech32 | Enc_base58.

(* riemann/networks/networks.py:5-30 *)
Record network := {
  SYMBOL : str;
  NETWORK_NAME : str;
  SUBNET_NAME : str;
  P2PKH_PREFIX : bytes;
  P2SH_PREFIX : bytes;
  SEGWIT : bool;
  P2WSH_PREFIX : bytes;
  P2WPKH_PREFIX : bytes;
  BECH32_HRP : option str;
  SEGWIT_ENCODER : encoder;
  SEGWIT_TX_FLAG : bytes;
  FORKID : option Z;
  CASHADDR_PREFIX : option str;
  CASHADDR_P2SH : option bytes;
  CASHADDR_P2PKH : option bytes;
  CODE_TO_INT_OVERWRITE : list (str * Z);
  INT_TO_CODE_OVERWRITE : list (Z * str)
}.

(* riemann/networks/networks.py:33-42 *)
Definition BitcoinMain : network := {|
  SYMBOL := lit "BTC";
  NETWORK_NAME := lit "bitcoin"; SUBNET_NAME := lit "main";
  P2PKH_PREFIX := [0]; P2SH_PREFIX := [5];
  SEGWIT := true; P2WSH_PREFIX := [0; 32]; P2WPKH_PREFIX := [0; 20];
  BECH32_HRP := (Some (lit "bc")); SEGWIT_ENCODER := Enc_bech32;
  SEGWIT_TX_FLAG := [0; 1];
  FORKID := None;
  CASHADDR_PREFIX := None; CASHADDR_P2SH := None; CASHADDR_P2PKH := None;
  CODE_TO_INT_OVERWRITE := []; INT_TO_CODE_OVERWRITE := [] |}.

(* riemann/networks/networks.py:45-54 *)
Definition BitcoinTest : network := {|
  SYMBOL := lit "tBTC";
  NETWORK_NAME := lit "bitcoin"; SUBNET_NAME := lit "test";
  P2PKH_PREFIX := [111]; P2SH_PREFIX := [196];
  SEGWIT := true; P2WSH_PREFIX := [0; 32]; P2WPKH_PREFIX := [0; 20];
  BECH32_HRP := (Some (lit "tb")); SEGWIT_ENCODER := Enc_bech32;
  SEGWIT_TX_FLAG := [0; 1];
  FORKID := None;
  CASHADDR_PREFIX := None; CASHADDR_P2SH := None; CASHADDR_P2PKH := None;
  CODE_TO_INT_OVERWRITE := []; INT_TO_CODE_OVERWRITE := [] |}.

(* riemann/networks/networks.py:57-66 *)
Definition BitcoinRegtest : network := {|
  SYMBOL := lit "rBTC";
  NETWORK_NAME := lit "bitcoin"; SUBNET_NAME := lit "reg";
  P2PKH_PREFIX := [111]; P2SH_PREFIX := [196];
  SEGWIT := true; P2WSH_PREFIX := [0; 32]; P2WPKH_PREFIX := [0; 20];
  BECH32_HRP := (Some (lit "bcrt")); SEGWIT_ENCODER := Enc_bech32;
  SEGWIT_TX_FLAG := [0; 1];
  FORKID := None;
  CASHADDR_PREFIX := None; CASHADDR_P2SH := None; CASHADDR_P2PKH := None;
  CODE_TO_INT_OVERWRITE := []; INT_TO_CODE_OVERWRITE := [] |}.

(* riemann/networks/networks.py:69-78 *)
Definition LitecoinMain : network := {|
  SYMBOL := lit "LTC";
  NETWORK_NAME := lit "litecoin"; SUBNET_NAME := lit "main";
  P2PKH_PREFIX := [48]; P2SH_PREFIX := [50];
  SEGWIT := true; P2WSH_PREFIX := [0; 32]; P2WPKH_PREFIX := [0; 20];
  BECH32_HRP := (Some (lit "ltc")); SEGWIT_ENCODER := Enc_bech32;
  SEGWIT_TX_FLAG := [0; 1];
  FORKID := None;
  CASHADDR_PREFIX := None; CASHADDR_P2SH := None; CASHADDR_P2PKH := None;
  CODE_TO_INT_OVERWRITE := []; INT_TO_CODE_OVERWRITE := [] |}.

(* riemann/networks/networks.py:81-90 *)
Definition LitecoinTest : network := {|
  SYMBOL := lit "tLTC";
  NETWORK_NAME := lit "litecoin"; SUBNET_NAME := lit "test";
  P2PKH_PREFIX := [111]; P2SH_PREFIX := [58];
  SEGWIT := true; P2WSH_PREFIX := [0; 32]; P2WPKH_PREFIX := [0; 20];
  BECH32_HRP := (Some (lit "tltc")); SEGWIT_ENCODER := Enc_bech32;
  SEGWIT_TX_FLAG := [0; 1];
  FORKID := None;
  CASHADDR_PREFIX := None; CASHADDR_P2SH := None; CASHADDR_P2PKH := None;
  CODE_TO_INT_OVERWRITE := []; INT_TO_CODE_OVERWRITE := [] |}.

(* riemann/networks/networks.py:93-102 *)
Definition LitecoinRegtest : network := {|
  SYMBOL := lit "rLTC";
  NETWORK_NAME := lit "litecoin"; SUBNET_NAME := lit "reg";
  P2PKH_PREFIX := [111]; P2SH_PREFIX := [58];
  SEGWIT := true; P2WSH_PREFIX := [0; 32]; P2WPKH_PREFIX := [0; 20];
  BECH32_HRP := (Some (lit "tltc")); SEGWIT_ENCODER := Enc_bech32;
  SEGWIT_TX_FLAG := [0; 1];
  FORKID := None;
  CASHADDR_PREFIX := None; CASHADDR_P2SH := None; CASHADDR_P2PKH := None;
  CODE_TO_INT_OVERWRITE := []; INT_TO_CODE_OVERWRITE := [] |}.

(* riemann/networks/networks.py:105-115 *)
Definition BitcoinCashMain : network := {|
  SYMBOL := lit "BCH";
  NETWORK_NAME := lit "bitcoin_cash"; SUBNET_NAME := lit "main";
  P2PKH_PREFIX := [0]; P2SH_PREFIX := [5];
  SEGWIT := false; P2WSH_PREFIX := [0; 32]; P2WPKH_PREFIX := [0; 20];
  BECH32_HRP := None; SEGWIT_ENCODER := Enc_bech32;
  SEGWIT_TX_FLAG := [0; 1];
  FORKID := Some 0;
  CASHADDR_PREFIX := (Some (lit "bitcoincash")); CASHADDR_P2SH := Some [8]; CASHADDR_P2PKH := Some [0];
  CODE_TO_INT_OVERWRITE := []; INT_TO_CODE_OVERWRITE := [] |}.

(* riemann/networks/networks.py:118-128 *)
Definition BitcoinCashTest : network := {|
  SYMBOL := lit "tBCH";
  NETWORK_NAME := lit "bitcoin_cash"; SUBNET_NAME := lit "test";
  P2PKH_PREFIX := [111]; P2SH_PREFIX := [196];
  SEGWIT := false; P2WSH_PREFIX := [0; 32]; P2WPKH_PREFIX := [0; 20];
  BECH32_HRP := None; SEGWIT_ENCODER := Enc_bech32;
  SEGWIT_TX_FLAG := [0; 1];
  FORKID := Some 0;
  CASHADDR_PREFIX := (Some (lit "bchtest")); CASHADDR_P2SH := Some [8]; CASHADDR_P2PKH := Some [0];
  CODE_TO_INT_OVERWRITE := []; INT_TO_CODE_OVERWRITE := [] |}.

(* riemann/networks/networks.py:131-141 *)
Definition BitcoinCashRegtest : network := {|
  SYMBOL := lit "rBCH";
  NETWORK_NAME := lit "bitcoin_cash"; SUBNET_NAME := lit "reg";
  P2PKH_PREFIX := [111]; P2SH_PREFIX := [196];
  SEGWIT := false; P2WSH_PREFIX := [0; 32]; P2WPKH_PREFIX := [0; 20];
  BECH32_HRP := None; SEGWIT_ENCODER := Enc_bech32;
  SEGWIT_TX_FLAG := [0; 1];
  FORKID := Some 0;
  CASHADDR_PREFIX := (Some (lit "bchtest")); CASHADDR_P2SH := Some [8]; CASHADDR_P2PKH := Some [0];
  CODE_TO_INT_OVERWRITE := []; INT_TO_CODE_OVERWRITE := [] |}.

(* riemann/networks/networks.py:144-154 *)
Definition BitcoinGoldMain : network := {|
  SYMBOL := lit "BTG";
  NETWORK_NAME := lit "bitcoin_gold"; SUBNET_NAME := lit "main";
  P2PKH_PREFIX := [38]; P2SH_PREFIX := [23];
  SEGWIT := true; P2WSH_PREFIX := [0; 32]; P2WPKH_PREFIX := [0; 20];
  BECH32_HRP := (Some (lit "btg")); SEGWIT_ENCODER := Enc_bech32;
  SEGWIT_TX_FLAG := [0; 1];
  FORKID := Some 79;
  CASHADDR_PREFIX := None; CASHADDR_P2SH := None; CASHADDR_P2PKH := None;
  CODE_TO_INT_OVERWRITE := []; INT_TO_CODE_OVERWRITE := [] |}.

(* riemann/networks/networks.py:157-167 *)
Definition BitcoinGoldTest : network := {|
  SYMBOL := lit "tBTG";
  NETWORK_NAME := lit "bitcoin_gold"; SUBNET_NAME := lit "test";
  P2PKH_PREFIX := [111]; P2SH_PREFIX := [196];
  SEGWIT := true; P2WSH_PREFIX := [0; 32]; P2WPKH_PREFIX := [0; 20];
  BECH32_HRP := (Some (lit "tbtg")); SEGWIT_ENCODER := Enc_bech32;
  SEGWIT_TX_FLAG := [0; 1];
  FORKID := Some 79;
  CASHADDR_PREFIX := None; CASHADDR_P2SH := None; CASHADDR_P2PKH := None;
  CODE_TO_INT_OVERWRITE := []; INT_TO_CODE_OVERWRITE := [] |}.

(* riemann/networks/networks.py:170-180 *)
Definition BitcoinGoldRegtest : network := {|
  SYMBOL := lit "rBTG";
  NETWORK_NAME := lit "bitcoin_gold"; SUBNET_NAME := lit "reg";
  P2PKH_PREFIX := [111]; P2SH_PREFIX := [196];
  SEGWIT := true; P2WSH_PREFIX := [0; 32]; P2WPKH_PREFIX := [0; 20];
  BECH32_HRP := (Some (lit "tbtg")); SEGWIT_ENCODER := Enc_bech32;
  SEGWIT_TX_FLAG := [0; 1];
  FORKID := Some 79;
  CASHADDR_PREFIX := None; CASHADDR_P2SH := None; CASHADDR_P2PKH := None;
  CODE_TO_INT_OVERWRITE := []; INT_TO_CODE_OVERWRITE := [] |}.

(* riemann/networks/networks.py:183-189 *)
Definition DogecoinMain : network := {|
  SYMBOL := lit "DOGE";
  NETWORK_NAME := lit "dogecoin"; SUBNET_NAME := lit "main";
  P2PKH_PREFIX := [30]; P2SH_PREFIX := [22];
  SEGWIT := false; P2WSH_PREFIX := [0; 32]; P2WPKH_PREFIX := [0; 20];
  BECH32_HRP := None; SEGWIT_ENCODER := Enc_bech32;
  SEGWIT_TX_FLAG := [0; 1];
  FORKID := None;
  CASHADDR_PREFIX := None; CASHADDR_P2SH := None; CASHADDR_P2PKH := None;
  CODE_TO_INT_OVERWRITE := []; INT_TO_CODE_OVERWRITE := [] |}.

(* riemann/networks/networks.py:192-198 *)
Definition DogecoinTest : network := {|
  SYMBOL := lit "tDOGE";
  NETWORK_NAME := lit "dogecoin"; SUBNET_NAME := lit "test";
  P2PKH_PREFIX := [113]; P2SH_PREFIX := [196];
  SEGWIT := false; P2WSH_PREFIX := [0; 32]; P2WPKH_PREFIX := [0; 20];
  BECH32_HRP := None; SEGWIT_ENCODER := Enc_bech32;
  SEGWIT_TX_FLAG := [0; 1];
  FORKID := None;
  CASHADDR_PREFIX := None; CASHADDR_P2SH := None; CASHADDR_P2PKH := None;
  CODE_TO_INT_OVERWRITE := []; INT_TO_CODE_OVERWRITE := [] |}.

(* riemann/networks/networks.py:201-209 *)
Definition DogecoinRegtest : network := {|
  SYMBOL := lit "rDOGE";
  NETWORK_NAME := lit "dogecoin"; SUBNET_NAME := lit "reg";
  P2PKH_PREFIX := [113]; P2SH_PREFIX := [196];
  SEGWIT := false; P2WSH_PREFIX := [0; 32]; P2WPKH_PREFIX := [0; 20];
  BECH32_HRP := None; SEGWIT_ENCODER := Enc_bech32;
  SEGWIT_TX_FLAG := [0; 1];
  FORKID := None;
  CASHADDR_PREFIX := None; CASHADDR_P2SH := None; CASHADDR_P2PKH := None;
  CODE_TO_INT_OVERWRITE := []; INT_TO_CODE_OVERWRITE := [] |}.

(* riemann/networks/networks.py:212-218 *)
Definition DashMain : network := {|
  SYMBOL := lit "DASH";
  NETWORK_NAME := lit "dash"; SUBNET_NAME := lit "main";
  P2PKH_PREFIX := [76]; P2SH_PREFIX := [16];
  SEGWIT := false; P2WSH_PREFIX := [0; 32]; P2WPKH_PREFIX := [0; 20];
  BECH32_HRP := None; SEGWIT_ENCODER := Enc_bech32;
  SEGWIT_TX_FLAG := [0; 1];
  FORKID := None;
  CASHADDR_PREFIX := None; CASHADDR_P2SH := None; CASHADDR_P2PKH := None;
  CODE_TO_INT_OVERWRITE := []; INT_TO_CODE_OVERWRITE := [] |}.

(* riemann/networks/networks.py:221-227 *)
Definition DashTest : network := {|
  SYMBOL := lit "tDASH";
  NETWORK_NAME := lit "dash"; SUBNET_NAME := lit "test";
  P2PKH_PREFIX := [140]; P2SH_PREFIX := [19];
  SEGWIT := false; P2WSH_PREFIX := [0; 32]; P2WPKH_PREFIX := [0; 20];
  BECH32_HRP := None; SEGWIT_ENCODER := Enc_bech32;
  SEGWIT_TX_FLAG := [0; 1];
  FORKID := None;
  CASHADDR_PREFIX := None; CASHADDR_P2SH := None; CASHADDR_P2PKH := None;
  CODE_TO_INT_OVERWRITE := []; INT_TO_CODE_OVERWRITE := [] |}.

(* riemann/networks/networks.py:230-236 *)
Definition DashRegtest : network := {|
  SYMBOL := lit "rDASH";
  NETWORK_NAME := lit "dash"; SUBNET_NAME := lit "reg";
  P2PKH_PREFIX := [140]; P2SH_PREFIX := [19];
  SEGWIT := false; P2WSH_PREFIX := [0; 32]; P2WPKH_PREFIX := [0; 20];
  BECH32_HRP := None; SEGWIT_ENCODER := Enc_bech32;
  SEGWIT_TX_FLAG := [0; 1];
  FORKID := None;
  CASHADDR_PREFIX := None; CASHADDR_P2SH := None; CASHADDR_P2PKH := None;
  CODE_TO_INT_OVERWRITE := []; INT_TO_CODE_OVERWRITE := [] |}.

(* riemann/networks/networks.py:239-245 *)
Definition ZcashSproutMain : network := {|
  SYMBOL := lit "ZEC";
  NETWORK_NAME := lit "zcash_sprout"; SUBNET_NAME := lit "main";
  P2PKH_PREFIX := [28; 184]; P2SH_PREFIX := [28; 189];
  SEGWIT := false; P2WSH_PREFIX := [0; 32]; P2WPKH_PREFIX := [0; 20];
  BECH32_HRP := None; SEGWIT_ENCODER := Enc_bech32;
  SEGWIT_TX_FLAG := [0; 1];
  FORKID := None;
  CASHADDR_PREFIX := None; CASHADDR_P2SH := None; CASHADDR_P2PKH := None;
  CODE_TO_INT_OVERWRITE := []; INT_TO_CODE_OVERWRITE := [] |}.

(* riemann/networks/networks.py:248-254 *)
Definition ZcashSproutTest : network := {|
  SYMBOL := lit "tZEC";
  NETWORK_NAME := lit "zcash_sprout"; SUBNET_NAME := lit "test";
  P2PKH_PREFIX := [29; 37]; P2SH_PREFIX := [28; 186];
  SEGWIT := false; P2WSH_PREFIX := [0; 32]; P2WPKH_PREFIX := [0; 20];
  BECH32_HRP := None; SEGWIT_ENCODER := Enc_bech32;
  SEGWIT_TX_FLAG := [0; 1];
  FORKID := None;
  CASHADDR_PREFIX := None; CASHADDR_P2SH := None; CASHADDR_P2PKH := None;
  CODE_TO_INT_OVERWRITE := []; INT_TO_CODE_OVERWRITE := [] |}.

(* riemann/networks/networks.py:257-263 *)
Definition ZcashSproutRegtest : network := {|
  SYMBOL := lit "rZEC";
  NETWORK_NAME := lit "zcash_sprout"; SUBNET_NAME := lit "reg";
  P2PKH_PREFIX := [29; 37]; P2SH_PREFIX := [28; 186];
  SEGWIT := false; P2WSH_PREFIX := [0; 32]; P2WPKH_PREFIX := [0; 20];
  BECH32_HRP := None; SEGWIT_ENCODER := Enc_bech32;
  SEGWIT_TX_FLAG := [0; 1];
  FORKID := None;
  CASHADDR_PREFIX := None; CASHADDR_P2SH := None; CASHADDR_P2PKH := None;
  CODE_TO_INT_OVERWRITE := []; INT_TO_CODE_OVERWRITE := [] |}.

(* riemann/networks/networks.py:266-272 *)
Definition ZcashOverwinterMain : network := {|
  SYMBOL := lit "ZEC";
  NETWORK_NAME := lit "zcash_overwinter"; SUBNET_NAME := lit "main";
  P2PKH_PREFIX := [28; 184]; P2SH_PREFIX := [28; 189];
  SEGWIT := false; P2WSH_PREFIX := [0; 32]; P2WPKH_PREFIX := [0; 20];
  BECH32_HRP := None; SEGWIT_ENCODER := Enc_bech32;
  SEGWIT_TX_FLAG := [0; 1];
  FORKID := None;
  CASHADDR_PREFIX := None; CASHADDR_P2SH := None; CASHADDR_P2PKH := None;
  CODE_TO_INT_OVERWRITE := []; INT_TO_CODE_OVERWRITE := [] |}.

(* riemann/networks/networks.py:275-281 *)
Definition ZcashOverwinterTest : network := {|
  SYMBOL := lit "tZEC";
  NETWORK_NAME := lit "zcash_overwinter"; SUBNET_NAME := lit "test";
  P2PKH_PREFIX := [29; 37]; P2SH_PREFIX := [28; 186];
  SEGWIT := false; P2WSH_PREFIX := [0; 32]; P2WPKH_PREFIX := [0; 20];
  BECH32_HRP := None; SEGWIT_ENCODER := Enc_bech32;
  SEGWIT_TX_FLAG := [0; 1];
  FORKID := None;
  CASHADDR_PREFIX := None; CASHADDR_P2SH := None; CASHADDR_P2PKH := None;
  CODE_TO_INT_OVERWRITE := []; INT_TO_CODE_OVERWRITE := [] |}.

(* riemann/networks/networks.py:284-290 *)
Definition ZcashOverwinterRegtest : network := {|
  SYMBOL := lit "rZEC";
  NETWORK_NAME := lit "zcash_overwinter"; SUBNET_NAME := lit "reg";
  P2PKH_PREFIX := [29; 37]; P2SH_PREFIX := [28; 186];
  SEGWIT := false; P2WSH_PREFIX := [0; 32]; P2WPKH_PREFIX := [0; 20];
  BECH32_HRP := None; SEGWIT_ENCODER := Enc_bech32;
  SEGWIT_TX_FLAG := [0; 1];
  FORKID := None;
  CASHADDR_PREFIX := None; CASHADDR_P2SH := None; CASHADDR_P2PKH := None;
  CODE_TO_INT_OVERWRITE := []; INT_TO_CODE_OVERWRITE := [] |}.

(* riemann/networks/networks.py:293-299 *)
Definition ZcashSaplingMain : network := {|
  SYMBOL := lit "ZEC";
  NETWORK_NAME := lit "zcash_sapling"; SUBNET_NAME := lit "main";
  P2PKH_PREFIX := [28; 184]; P2SH_PREFIX := [28; 189];
  SEGWIT := false; P2WSH_PREFIX := [0; 32]; P2WPKH_PREFIX := [0; 20];
  BECH32_HRP := None; SEGWIT_ENCODER := Enc_bech32;
  SEGWIT_TX_FLAG := [0; 1];
  FORKID := None;
  CASHADDR_PREFIX := None; CASHADDR_P2SH := None; CASHADDR_P2PKH := None;
  CODE_TO_INT_OVERWRITE := []; INT_TO_CODE_OVERWRITE := [] |}.

(* riemann/networks/networks.py:302-308 *)
Definition ZcashSaplingTest : network := {|
  SYMBOL := lit "tZEC";
  NETWORK_NAME := lit "zcash_sapling"; SUBNET_NAME := lit "test";
  P2PKH_PREFIX := [29; 37]; P2SH_PREFIX := [28; 186];
  SEGWIT := false; P2WSH_PREFIX := [0; 32]; P2WPKH_PREFIX := [0; 20];
  BECH32_HRP := None; SEGWIT_ENCODER := Enc_bech32;
  SEGWIT_TX_FLAG := [0; 1];
  FORKID := None;
  CASHADDR_PREFIX := None; CASHADDR_P2SH := None; CASHADDR_P2PKH := None;
  CODE_TO_INT_OVERWRITE := []; INT_TO_CODE_OVERWRITE := [] |}.

(* riemann/networks/networks.py:311-317 *)
Definition ZcashSaplingRegtest : network := {|
  SYMBOL := lit "rZEC";
  NETWORK_NAME := lit "zcash_sapling"; SUBNET_NAME := lit "reg";
  P2PKH_PREFIX := [29; 37]; P2SH_PREFIX := [28; 186];
  SEGWIT := false; P2WSH_PREFIX := [0; 32]; P2WPKH_PREFIX := [0; 20];
  BECH32_HRP := None; SEGWIT_ENCODER := Enc_bech32;
  SEGWIT_TX_FLAG := [0; 1];
  FORKID := None;
  CASHADDR_PREFIX := None; CASHADDR_P2SH := None; CASHADDR_P2PKH := None;
  CODE_TO_INT_OVERWRITE := []; INT_TO_CODE_OVERWRITE := [] |}.

(* riemann/networks/networks.py:320-333 *)
Definition DecredMain : network := {|
  SYMBOL := lit "DCR";
  NETWORK_NAME := lit "decred"; SUBNET_NAME := lit "main";
  P2PKH_PREFIX := [7; 63]; P2SH_PREFIX := [7; 26];
  SEGWIT := false; P2WSH_PREFIX := [0; 32]; P2WPKH_PREFIX := [0; 20];
  BECH32_HRP := None; SEGWIT_ENCODER := Enc_bech32;
  SEGWIT_TX_FLAG := [0; 1];
  FORKID := None;
  CASHADDR_PREFIX := None; CASHADDR_P2SH := None; CASHADDR_P2PKH := None;
  CODE_TO_INT_OVERWRITE := [(lit "OP_BLAKE256", 168); (lit "OP_SHA256", 192)];
  INT_TO_CODE_OVERWRITE := [(168, lit "OP_BLAKE256"); (192, lit "OP_SHA256")] |}.

(* riemann/networks/networks.py:336-349 *)
Definition DecredTest : network := {|
  SYMBOL := lit "DCRT";
  NETWORK_NAME := lit "decred"; SUBNET_NAME := lit "test";
  P2PKH_PREFIX := [15; 33]; P2SH_PREFIX := [14; 252];
  SEGWIT := false; P2WSH_PREFIX := [0; 32]; P2WPKH_PREFIX := [0; 20];
  BECH32_HRP := None; SEGWIT_ENCODER := Enc_bech32;
  SEGWIT_TX_FLAG := [0; 1];
  FORKID := None;
  CASHADDR_PREFIX := None; CASHADDR_P2SH := None; CASHADDR_P2PKH := None;
  CODE_TO_INT_OVERWRITE := [(lit "OP_BLAKE256", 168); (lit "OP_SHA256", 192)];
  INT_TO_CODE_OVERWRITE := [(168, lit "OP_BLAKE256"); (192, lit "OP_SHA256")] |}.

(* riemann/networks/networks.py:352-364 *)
Definition DecredSimnet : network := {|
  SYMBOL := lit "DCRS";
  NETWORK_NAME := lit "decred"; SUBNET_NAME := lit "simnet";
  P2PKH_PREFIX := [40; 247]; P2SH_PREFIX := [14; 252];
  SEGWIT := false; P2WSH_PREFIX := [0; 32]; P2WPKH_PREFIX := [0; 20];
  BECH32_HRP := None; SEGWIT_ENCODER := Enc_bech32;
  SEGWIT_TX_FLAG := [0; 1];
  FORKID := None;
  CASHADDR_PREFIX := None; CASHADDR_P2SH := None; CASHADDR_P2PKH := None;
  CODE_TO_INT_OVERWRITE := [(lit "OP_BLAKE256", 168); (lit "OP_SHA256", 192)];
  INT_TO_CODE_OVERWRITE := [(168, lit "OP_BLAKE256"); (192, lit "OP_SHA256")] |}.

(* riemann/networks/networks.py:367-373 *)
Definition PivxMain : network := {|
  SYMBOL := lit "PIVX";
  NETWORK_NAME := lit "pivx"; SUBNET_NAME := lit "main";
  P2PKH_PREFIX := [30]; P2SH_PREFIX := [13];
  SEGWIT := false; P2WSH_PREFIX := [0; 32]; P2WPKH_PREFIX := [0; 20];
  BECH32_HRP := None; SEGWIT_ENCODER := Enc_bech32;
  SEGWIT_TX_FLAG := [0; 1];
  FORKID := None;
  CASHADDR_PREFIX := None; CASHADDR_P2SH := None; CASHADDR_P2PKH := None;
  CODE_TO_INT_OVERWRITE := []; INT_TO_CODE_OVERWRITE := [] |}.

(* riemann/networks/networks.py:376-382 *)
Definition PivxTest : network := {|
  SYMBOL := lit "tPIVX";
  NETWORK_NAME := lit "pivx"; SUBNET_NAME := lit "test";
  P2PKH_PREFIX := [139]; P2SH_PREFIX := [19];
  SEGWIT := false; P2WSH_PREFIX := [0; 32]; P2WPKH_PREFIX := [0; 20];
  BECH32_HRP := None; SEGWIT_ENCODER := Enc_bech32;
  SEGWIT_TX_FLAG := [0; 1];
  FORKID := None;
  CASHADDR_PREFIX := None; CASHADDR_P2SH := None; CASHADDR_P2PKH := None;
  CODE_TO_INT_OVERWRITE := []; INT_TO_CODE_OVERWRITE := [] |}.

(* riemann/networks/networks.py:385-391 *)
Definition PivxRegtest : network := {|
  SYMBOL := lit "rPIVX";
  NETWORK_NAME := lit "pivx"; SUBNET_NAME := lit "reg";
  P2PKH_PREFIX := [139]; P2SH_PREFIX := [19];
  SEGWIT := false; P2WSH_PREFIX := [0; 32]; P2WPKH_PREFIX := [0; 20];
  BECH32_HRP := None; SEGWIT_ENCODER := Enc_bech32;
  SEGWIT_TX_FLAG := [0; 1];
  FORKID := None;
  CASHADDR_PREFIX := None; CASHADDR_P2SH := None; CASHADDR_P2PKH := None;
  CODE_TO_INT_OVERWRITE := []; INT_TO_CODE_OVERWRITE := [] |}.

(* riemann/networks/networks.py:394-403 *)
Definition ViacoinMain : network := {|
  SYMBOL := lit "VIA";
  NETWORK_NAME := lit "viacoin"; SUBNET_NAME := lit "main";
  P2PKH_PREFIX := [71]; P2SH_PREFIX := [33];
  SEGWIT := true; P2WSH_PREFIX := [0; 32]; P2WPKH_PREFIX := [0; 20];
  BECH32_HRP := (Some (lit "via")); SEGWIT_ENCODER := Enc_bech32;
  SEGWIT_TX_FLAG := [0; 1];
  FORKID := None;
  CASHADDR_PREFIX := None; CASHADDR_P2SH := None; CASHADDR_P2PKH := None;
  CODE_TO_INT_OVERWRITE := []; INT_TO_CODE_OVERWRITE := [] |}.

(* riemann/networks/networks.py:406-415 *)
Definition ViacoinTest : network := {|
  SYMBOL := lit "tVIA";
  NETWORK_NAME := lit "viacoin"; SUBNET_NAME := lit "test";
  P2PKH_PREFIX := [127]; P2SH_PREFIX := [196];
  SEGWIT := true; P2WSH_PREFIX := [0; 32]; P2WPKH_PREFIX := [0; 20];
  BECH32_HRP := (Some (lit "tvia")); SEGWIT_ENCODER := Enc_bech32;
  SEGWIT_TX_FLAG := [0; 1];
  FORKID := None;
  CASHADDR_PREFIX := None; CASHADDR_P2SH := None; CASHADDR_P2PKH := None;
  CODE_TO_INT_OVERWRITE := []; INT_TO_CODE_OVERWRITE := [] |}.

(* riemann/networks/networks.py:418-427 *)
Definition ViacoinSimnet : network := {|
  SYMBOL := lit "sVIA";
  NETWORK_NAME := lit "viacoin"; SUBNET_NAME := lit "simnet";
  P2PKH_PREFIX := [111]; P2SH_PREFIX := [196];
  SEGWIT := true; P2WSH_PREFIX := [0; 32]; P2WPKH_PREFIX := [0; 20];
  BECH32_HRP := (Some (lit "svia")); SEGWIT_ENCODER := Enc_bech32;
  SEGWIT_TX_FLAG := [0; 1];
  FORKID := None;
  CASHADDR_PREFIX := None; CASHADDR_P2SH := None; CASHADDR_P2PKH := None;
  CODE_TO_INT_OVERWRITE := []; INT_TO_CODE_OVERWRITE := [] |}.

(* riemann/networks/networks.py:430-439 *)
Definition FeathercoinMain : network := {|
  SYMBOL := lit "FTC";
  NETWORK_NAME := lit "feathercoin"; SUBNET_NAME := lit "main";
  P2PKH_PREFIX := [14]; P2SH_PREFIX := [96];
  SEGWIT := true; P2WSH_PREFIX := [0; 32]; P2WPKH_PREFIX := [0; 20];
  BECH32_HRP := (Some (lit "fc")); SEGWIT_ENCODER := Enc_bech32;
  SEGWIT_TX_FLAG := [0; 1];
  FORKID := None;
  CASHADDR_PREFIX := None; CASHADDR_P2SH := None; CASHADDR_P2PKH := None;
  CODE_TO_INT_OVERWRITE := []; INT_TO_CODE_OVERWRITE := [] |}.

(* riemann/networks/networks.py:442-451 *)
Definition FeathercoinTest : network := {|
  SYMBOL := lit "tFTC";
  NETWORK_NAME := lit "feathercoin"; SUBNET_NAME := lit "test";
  P2PKH_PREFIX := [111]; P2SH_PREFIX := [196];
  SEGWIT := true; P2WSH_PREFIX := [0; 32]; P2WPKH_PREFIX := [0; 20];
  BECH32_HRP := (Some (lit "tf")); SEGWIT_ENCODER := Enc_bech32;
  SEGWIT_TX_FLAG := [0; 1];
  FORKID := None;
  CASHADDR_PREFIX := None; CASHADDR_P2SH := None; CASHADDR_P2PKH := None;
  CODE_TO_INT_OVERWRITE := []; INT_TO_CODE_OVERWRITE := [] |}.

(* riemann/networks/networks.py:454-463 *)
Definition FeathercoinRegtest : network := {|
  SYMBOL := lit "rFTC";
  NETWORK_NAME := lit "feathercoin"; SUBNET_NAME := lit "reg";
  P2PKH_PREFIX := [111]; P2SH_PREFIX := [196];
  SEGWIT := true; P2WSH_PREFIX := [0; 32]; P2WPKH_PREFIX := [0; 20];
  BECH32_HRP := (Some (lit "fcrt")); SEGWIT_ENCODER := Enc_bech32;
  SEGWIT_TX_FLAG := [0; 1];
  FORKID := None;
  CASHADDR_PREFIX := None; CASHADDR_P2SH := None; CASHADDR_P2PKH := None;
  CODE_TO_INT_OVERWRITE := []; INT_TO_CODE_OVERWRITE := [] |}.

(* riemann/networks/networks.py:466-472 *)
Definition BitcoinDarkMain : network := {|
  SYMBOL := lit "BTCD";
  NETWORK_NAME := lit "bitcoin_dark"; SUBNET_NAME := lit "main";
  P2PKH_PREFIX := [60]; P2SH_PREFIX := [85];
  SEGWIT := false; P2WSH_PREFIX := [0; 32]; P2WPKH_PREFIX := [0; 20];
  BECH32_HRP := None; SEGWIT_ENCODER := Enc_bech32;
  SEGWIT_TX_FLAG := [0; 1];
  FORKID := None;
  CASHADDR_PREFIX := None; CASHADDR_P2SH := None; CASHADDR_P2PKH := None;
  CODE_TO_INT_OVERWRITE := []; INT_TO_CODE_OVERWRITE := [] |}.

(* riemann/networks/networks.py:475-481 *)
Definition BitcoinDarkTest : network := {|
  SYMBOL := lit "tBTCD";
  NETWORK_NAME := lit "bitcoin_dark"; SUBNET_NAME := lit "test";
  P2PKH_PREFIX := [111]; P2SH_PREFIX := [196];
  SEGWIT := false; P2WSH_PREFIX := [0; 32]; P2WPKH_PREFIX := [0; 20];
  BECH32_HRP := None; SEGWIT_ENCODER := Enc_bech32;
  SEGWIT_TX_FLAG := [0; 1];
  FORKID := None;
  CASHADDR_PREFIX := None; CASHADDR_P2SH := None; CASHADDR_P2PKH := None;
  CODE_TO_INT_OVERWRITE := []; INT_TO_CODE_OVERWRITE := [] |}.

(* riemann/networks/networks.py:484-491 *)
Definition BitcoinDarkRegtest : network := {|
  SYMBOL := lit "rBTCD";
  NETWORK_NAME := lit "bitcoin_dark"; SUBNET_NAME := lit "reg";
  P2PKH_PREFIX := [111]; P2SH_PREFIX := [196];
  SEGWIT := false; P2WSH_PREFIX := [0; 32]; P2WPKH_PREFIX := [0; 20];
  BECH32_HRP := None; SEGWIT_ENCODER := Enc_bech32;
  SEGWIT_TX_FLAG := [0; 1];
  FORKID := None;
  CASHADDR_PREFIX := None; CASHADDR_P2SH := None; CASHADDR_P2PKH := None;
  CODE_TO_INT_OVERWRITE := []; INT_TO_CODE_OVERWRITE := [] |}.

(* riemann/networks/networks.py:494-500 *)
Definition AxeMain : network := {|
  SYMBOL := lit "AXE";
  NETWORK_NAME := lit "axe"; SUBNET_NAME := lit "main";
  P2PKH_PREFIX := [55]; P2SH_PREFIX := [16];
  SEGWIT := false; P2WSH_PREFIX := [0; 32]; P2WPKH_PREFIX := [0; 20];
  BECH32_HRP := None; SEGWIT_ENCODER := Enc_bech32;
  SEGWIT_TX_FLAG := [0; 1];
  FORKID := None;
  CASHADDR_PREFIX := None; CASHADDR_P2SH := None; CASHADDR_P2PKH := None;
  CODE_TO_INT_OVERWRITE := []; INT_TO_CODE_OVERWRITE := [] |}.

(* riemann/networks/networks.py:503-509 *)
Definition AxeTest : network := {|
  SYMBOL := lit "tAXE";
  NETWORK_NAME := lit "axe"; SUBNET_NAME := lit "test";
  P2PKH_PREFIX := [140]; P2SH_PREFIX := [19];
  SEGWIT := false; P2WSH_PREFIX := [0; 32]; P2WPKH_PREFIX := [0; 20];
  BECH32_HRP := None; SEGWIT_ENCODER := Enc_bech32;
  SEGWIT_TX_FLAG := [0; 1];
  FORKID := None;
  CASHADDR_PREFIX := None; CASHADDR_P2SH := None; CASHADDR_P2PKH := None;
  CODE_TO_INT_OVERWRITE := []; INT_TO_CODE_OVERWRITE := [] |}.

(* riemann/networks/networks.py:512-518 *)
Definition AxeRegtest : network := {|
  SYMBOL := lit "rAXE";
  NETWORK_NAME := lit "axe"; SUBNET_NAME := lit "reg";
  P2PKH_PREFIX := [140]; P2SH_PREFIX := [19];
  SEGWIT := false; P2WSH_PREFIX := [0; 32]; P2WPKH_PREFIX := [0; 20];
  BECH32_HRP := None; SEGWIT_ENCODER := Enc_bech32;
  SEGWIT_TX_FLAG := [0; 1];
  FORKID := None;
  CASHADDR_PREFIX := None; CASHADDR_P2SH := None; CASHADDR_P2PKH := None;
  CODE_TO_INT_OVERWRITE := []; INT_TO_CODE_OVERWRITE := [] |}.

(* riemann/networks/networks.py:521-530 *)
Definition BitcoreMain : network := {|
  SYMBOL := lit "BTX";
  NETWORK_NAME := lit "bitcore"; SUBNET_NAME := lit "main";
  P2PKH_PREFIX := [0]; P2SH_PREFIX := [50];
  SEGWIT := true; P2WSH_PREFIX := [0; 32]; P2WPKH_PREFIX := [0; 20];
  BECH32_HRP := None; SEGWIT_ENCODER := Enc_base58;
  SEGWIT_TX_FLAG := [0; 1];
  FORKID := None;
  CASHADDR_PREFIX := None; CASHADDR_P2SH := None; CASHADDR_P2PKH := None;
  CODE_TO_INT_OVERWRITE := []; INT_TO_CODE_OVERWRITE := [] |}.

(* riemann/networks/networks.py:533-542 *)
Definition BitcoreTest : network := {|
  SYMBOL := lit "tBTX";
  NETWORK_NAME := lit "bitcore"; SUBNET_NAME := lit "test";
  P2PKH_PREFIX := [111]; P2SH_PREFIX := [58];
  SEGWIT := true; P2WSH_PREFIX := [0; 32]; P2WPKH_PREFIX := [0; 20];
  BECH32_HRP := None; SEGWIT_ENCODER := Enc_base58;
  SEGWIT_TX_FLAG := [0; 1];
  FORKID := None;
  CASHADDR_PREFIX := None; CASHADDR_P2SH := None; CASHADDR_P2PKH := None;
  CODE_TO_INT_OVERWRITE := []; INT_TO_CODE_OVERWRITE := [] |}.

(* riemann/networks/networks.py:545-554 *)
Definition BitcoreRegtest : network := {|
  SYMBOL := lit "rBTX";
  NETWORK_NAME := lit "bitcore"; SUBNET_NAME := lit "reg";
  P2PKH_PREFIX := [111]; P2SH_PREFIX := [58];
  SEGWIT := true; P2WSH_PREFIX := [0; 32]; P2WPKH_PREFIX := [0; 20];
  BECH32_HRP := None; SEGWIT_ENCODER := Enc_base58;
  SEGWIT_TX_FLAG := [0; 1];
  FORKID := None;
  CASHADDR_PREFIX := None; CASHADDR_P2SH := None; CASHADDR_P2PKH := None;
  CODE_TO_INT_OVERWRITE := []; INT_TO_CODE_OVERWRITE := [] |}.

(* riemann/networks/networks.py:557-566 *)
Definition DigibyteMain : network := {|
  SYMBOL := lit "DGB";
  NETWORK_NAME := lit "digibyte"; SUBNET_NAME := lit "main";
  P2PKH_PREFIX := [30]; P2SH_PREFIX := [63];
  SEGWIT := true; P2WSH_PREFIX := [0; 32]; P2WPKH_PREFIX := [0; 20];
  BECH32_HRP := (Some (lit "dgb")); SEGWIT_ENCODER := Enc_bech32;
  SEGWIT_TX_FLAG := [0; 1];
  FORKID := None;
  CASHADDR_PREFIX := None; CASHADDR_P2SH := None; CASHADDR_P2PKH := None;
  CODE_TO_INT_OVERWRITE := []; INT_TO_CODE_OVERWRITE := [] |}.

(* riemann/networks/networks.py:569-578 *)
Definition DigibyteTest : network := {|
  SYMBOL := lit "tDGB";
  NETWORK_NAME := lit "digibyte"; SUBNET_NAME := lit "test";
  P2PKH_PREFIX := [126]; P2SH_PREFIX := [140];
  SEGWIT := true; P2WSH_PREFIX := [0; 32]; P2WPKH_PREFIX := [0; 20];
  BECH32_HRP := (Some (lit "dgbt")); SEGWIT_ENCODER := Enc_bech32;
  SEGWIT_TX_FLAG := [0; 1];
  FORKID := None;
  CASHADDR_PREFIX := None; CASHADDR_P2SH := None; CASHADDR_P2PKH := None;
  CODE_TO_INT_OVERWRITE := []; INT_TO_CODE_OVERWRITE := [] |}.

(* riemann/networks/networks.py:581-590 *)
Definition DigibyteRegtest : network := {|
  SYMBOL := lit "rDGB";
  NETWORK_NAME := lit "digibyte"; SUBNET_NAME := lit "reg";
  P2PKH_PREFIX := [126]; P2SH_PREFIX := [140];
  SEGWIT := true; P2WSH_PREFIX := [0; 32]; P2WPKH_PREFIX := [0; 20];
  BECH32_HRP := (Some (lit "dgbrt")); SEGWIT_ENCODER := Enc_bech32;
  SEGWIT_TX_FLAG := [0; 1];
  FORKID := None;
  CASHADDR_PREFIX := None; CASHADDR_P2SH := None; CASHADDR_P2PKH := None;
  CODE_TO_INT_OVERWRITE := []; INT_TO_CODE_OVERWRITE := [] |}.

(* riemann/networks/networks.py:593-603 *)
Definition GroestlcoinMain : network := {|
  SYMBOL := lit "GRS";
  NETWORK_NAME := lit "groestlcoin"; SUBNET_NAME := lit "main";
  P2PKH_PREFIX := [36]; P2SH_PREFIX := [5];
  SEGWIT := true; P2WSH_PREFIX := [0; 32]; P2WPKH_PREFIX := [0; 20];
  BECH32_HRP := (Some (lit "grs")); SEGWIT_ENCODER := Enc_base58;
  SEGWIT_TX_FLAG := [0; 1];
  FORKID := None;
  CASHADDR_PREFIX := None; CASHADDR_P2SH := None; CASHADDR_P2PKH := None;
  CODE_TO_INT_OVERWRITE := []; INT_TO_CODE_OVERWRITE := [] |}.

(* riemann/networks/networks.py:607-617 *)
Definition GroestlcoinTest : network := {|
  SYMBOL := lit "tGRS";
  NETWORK_NAME := lit "groestlcoin"; SUBNET_NAME := lit "test";
  P2PKH_PREFIX := [111]; P2SH_PREFIX := [196];
  SEGWIT := true; P2WSH_PREFIX := [0; 32]; P2WPKH_PREFIX := [0; 20];
  BECH32_HRP := (Some (lit "tgrs")); SEGWIT_ENCODER := Enc_base58;
  SEGWIT_TX_FLAG := [0; 1];
  FORKID := None;
  CASHADDR_PREFIX := None; CASHADDR_P2SH := None; CASHADDR_P2PKH := None;
  CODE_TO_INT_OVERWRITE := []; INT_TO_CODE_OVERWRITE := [] |}.

(* riemann/networks/networks.py:620-630 *)
Definition GroestlcoinRegtest : network := {|
  SYMBOL := lit "rGRS";
  NETWORK_NAME := lit "groestlcoin"; SUBNET_NAME := lit "reg";
  P2PKH_PREFIX := [111]; P2SH_PREFIX := [196];
  SEGWIT := true; P2WSH_PREFIX := [0; 32]; P2WPKH_PREFIX := [0; 20];
  BECH32_HRP := (Some (lit "grsrt")); SEGWIT_ENCODER := Enc_base58;
  SEGWIT_TX_FLAG := [0; 1];
  FORKID := None;
  CASHADDR_PREFIX := None; CASHADDR_P2SH := None; CASHADDR_P2PKH := None;
  CODE_TO_INT_OVERWRITE := []; INT_TO_CODE_OVERWRITE := [] |}.

(* riemann/networks/networks.py:633-642 *)
Definition MonacoinMain : network := {|
  SYMBOL := lit "MONA";
  NETWORK_NAME := lit "monacoin"; SUBNET_NAME := lit "main";
  P2PKH_PREFIX := [50]; P2SH_PREFIX := [55];
  SEGWIT := true; P2WSH_PREFIX := [0; 32]; P2WPKH_PREFIX := [0; 20];
  BECH32_HRP := None; SEGWIT_ENCODER := Enc_base58;
  SEGWIT_TX_FLAG := [0; 1];
  FORKID := None;
  CASHADDR_PREFIX := None; CASHADDR_P2SH := None; CASHADDR_P2PKH := None;
  CODE_TO_INT_OVERWRITE := []; INT_TO_CODE_OVERWRITE := [] |}.

(* riemann/networks/networks.py:647-656 *)
Definition MonacoinTest : network := {|
  SYMBOL := lit "tMONA";
  NETWORK_NAME := lit "monacoin"; SUBNET_NAME := lit "test";
  P2PKH_PREFIX := [111]; P2SH_PREFIX := [196];
  SEGWIT := true; P2WSH_PREFIX := [0; 32]; P2WPKH_PREFIX := [0; 20];
  BECH32_HRP := None; SEGWIT_ENCODER := Enc_base58;
  SEGWIT_TX_FLAG := [0; 1];
  FORKID := None;
  CASHADDR_PREFIX := None; CASHADDR_P2SH := None; CASHADDR_P2PKH := None;
  CODE_TO_INT_OVERWRITE := []; INT_TO_CODE_OVERWRITE := [] |}.

(* riemann/networks/networks.py:660-669 *)
Definition MonacoinRegtest : network := {|
  SYMBOL := lit "rMONA";
  NETWORK_NAME := lit "monacoin"; SUBNET_NAME := lit "reg";
  P2PKH_PREFIX := [111]; P2SH_PREFIX := [196];
  SEGWIT := true; P2WSH_PREFIX := [0; 32]; P2WPKH_PREFIX := [0; 20];
  BECH32_HRP := None; SEGWIT_ENCODER := Enc_base58;
  SEGWIT_TX_FLAG := [0; 1];
  FORKID := None;
  CASHADDR_PREFIX := None; CASHADDR_P2SH := None; CASHADDR_P2PKH := None;
  CODE_TO_INT_OVERWRITE := []; INT_TO_CODE_OVERWRITE := [] |}.

(* riemann/networks/networks.py:673-682 *)
Definition NavcoinMain : network := {|
  SYMBOL := lit "NAV";
  NETWORK_NAME := lit "navcoin"; SUBNET_NAME := lit "main";
  P2PKH_PREFIX := [53]; P2SH_PREFIX := [85];
  SEGWIT := true; P2WSH_PREFIX := [0; 32]; P2WPKH_PREFIX := [0; 20];
  BECH32_HRP := None; SEGWIT_ENCODER := Enc_base58;
  SEGWIT_TX_FLAG := [0; 1];
  FORKID := None;
  CASHADDR_PREFIX := None; CASHADDR_P2SH := None; CASHADDR_P2PKH := None;
  CODE_TO_INT_OVERWRITE := []; INT_TO_CODE_OVERWRITE := [] |}.

(* riemann/networks/networks.py:686-695 *)
Definition NavcoinTest : network := {|
  SYMBOL := lit "tNAV";
  NETWORK_NAME := lit "navcoin"; SUBNET_NAME := lit "test";
  P2PKH_PREFIX := [54]; P2SH_PREFIX := [86];
  SEGWIT := true; P2WSH_PREFIX := [0; 32]; P2WPKH_PREFIX := [0; 20];
  BECH32_HRP := None; SEGWIT_ENCODER := Enc_base58;
  SEGWIT_TX_FLAG := [0; 1];
  FORKID := None;
  CASHADDR_PREFIX := None; CASHADDR_P2SH := None; CASHADDR_P2PKH := None;
  CODE_TO_INT_OVERWRITE := []; INT_TO_CODE_OVERWRITE := [] |}.

(* riemann/networks/networks.py:698-708 *)
Definition NavcoinRegtest : network := {|
  SYMBOL := lit "rNAV";
  NETWORK_NAME := lit "navcoin"; SUBNET_NAME := lit "reg";
  P2PKH_PREFIX := [20]; P2SH_PREFIX := [96];
  SEGWIT := true; P2WSH_PREFIX := [0; 32]; P2WPKH_PREFIX := [0; 20];
  BECH32_HRP := None; SEGWIT_ENCODER := Enc_base58;
  SEGWIT_TX_FLAG := [0; 1];
  FORKID := None;
  CASHADDR_PREFIX := None; CASHADDR_P2SH := None; CASHADDR_P2PKH := None;
  CODE_TO_INT_OVERWRITE := []; INT_TO_CODE_OVERWRITE := [] |}.

(* riemann/networks/networks.py:711-720 *)
Definition SyscoinMain : network := {|
  SYMBOL := lit "SYS";
  NETWORK_NAME := lit "syscoin"; SUBNET_NAME := lit "main";
  P2PKH_PREFIX := [63]; P2SH_PREFIX := [5];
  SEGWIT := true; P2WSH_PREFIX := [0; 32]; P2WPKH_PREFIX := [0; 20];
  BECH32_HRP := None; SEGWIT_ENCODER := Enc_base58;
  SEGWIT_TX_FLAG := [0; 1];
  FORKID := None;
  CASHADDR_PREFIX := None; CASHADDR_P2SH := None; CASHADDR_P2PKH := None;
  CODE_TO_INT_OVERWRITE := []; INT_TO_CODE_OVERWRITE := [] |}.

(* riemann/networks/networks.py:723-732 *)
Definition SyscoinTest : network := {|
  SYMBOL := lit "tSYS";
  NETWORK_NAME := lit "syscoin"; SUBNET_NAME := lit "test";
  P2PKH_PREFIX := [65]; P2SH_PREFIX := [196];
  SEGWIT := true; P2WSH_PREFIX := [0; 32]; P2WPKH_PREFIX := [0; 20];
  BECH32_HRP := None; SEGWIT_ENCODER := Enc_base58;
  SEGWIT_TX_FLAG := [0; 1];
  FORKID := None;
  CASHADDR_PREFIX := None; CASHADDR_P2SH := None; CASHADDR_P2PKH := None;
  CODE_TO_INT_OVERWRITE := []; INT_TO_CODE_OVERWRITE := [] |}.

(* riemann/networks/networks.py:735-744 *)
Definition SyscoinRegtest : network := {|
  SYMBOL := lit "rSYS";
  NETWORK_NAME := lit "syscoin"; SUBNET_NAME := lit "reg";
  P2PKH_PREFIX := [65]; P2SH_PREFIX := [196];
  SEGWIT := true; P2WSH_PREFIX := [0; 32]; P2WPKH_PREFIX := [0; 20];
  BECH32_HRP := None; SEGWIT_ENCODER := Enc_base58;
  SEGWIT_TX_FLAG := [0; 1];
  FORKID := None;
  CASHADDR_PREFIX := None; CASHADDR_P2SH := None; CASHADDR_P2PKH := None;
  CODE_TO_INT_OVERWRITE := []; INT_TO_CODE_OVERWRITE := [] |}.

(* riemann/networks/networks.py:747-756 *)
Definition VertcoinMain : network := {|
  SYMBOL := lit "VTC";
  NETWORK_NAME := lit "vertcoin"; SUBNET_NAME := lit "main";
  P2PKH_PREFIX := [71]; P2SH_PREFIX := [5];
  SEGWIT := true; P2WSH_PREFIX := [0; 32]; P2WPKH_PREFIX := [0; 20];
  BECH32_HRP := (Some (lit "vtc")); SEGWIT_ENCODER := Enc_bech32;
  SEGWIT_TX_FLAG := [0; 1];
  FORKID := None;
  CASHADDR_PREFIX := None; CASHADDR_P2SH := None; CASHADDR_P2PKH := None;
  CODE_TO_INT_OVERWRITE := []; INT_TO_CODE_OVERWRITE := [] |}.

(* riemann/networks/networks.py:759-768 *)
Definition VertcoinTest : network := {|
  SYMBOL := lit "tVTC";
  NETWORK_NAME := lit "vertcoin"; SUBNET_NAME := lit "test";
  P2PKH_PREFIX := [74]; P2SH_PREFIX := [196];
  SEGWIT := true; P2WSH_PREFIX := [0; 32]; P2WPKH_PREFIX := [0; 20];
  BECH32_HRP := (Some (lit "tvtc")); SEGWIT_ENCODER := Enc_bech32;
  SEGWIT_TX_FLAG := [0; 1];
  FORKID := None;
  CASHADDR_PREFIX := None; CASHADDR_P2SH := None; CASHADDR_P2PKH := None;
  CODE_TO_INT_OVERWRITE := []; INT_TO_CODE_OVERWRITE := [] |}.

(* riemann/networks/networks.py:771-780 *)
Definition VertcoinRegtest : network := {|
  SYMBOL := lit "rVTC";
  NETWORK_NAME := lit "vertcoin"; SUBNET_NAME := lit "reg";
  P2PKH_PREFIX := [111]; P2SH_PREFIX := [196];
  SEGWIT := true; P2WSH_PREFIX := [0; 32]; P2WPKH_PREFIX := [0; 20];
  BECH32_HRP := (Some (lit "bcrt")); SEGWIT_ENCODER := Enc_bech32;
  SEGWIT_TX_FLAG := [0; 1];
  FORKID := None;
  CASHADDR_PREFIX := None; CASHADDR_P2SH := None; CASHADDR_P2PKH := None;
  CODE_TO_INT_OVERWRITE := []; INT_TO_CODE_OVERWRITE := [] |}.

(* riemann/networks/networks.py:783-792 *)
Definition BitcoinPrivateMain : network := {|
  SYMBOL := lit "BCTP";
  NETWORK_NAME := lit "bitcoin_private"; SUBNET_NAME := lit "main";
  P2PKH_PREFIX := [19; 37]; P2SH_PREFIX := [19; 175];
  SEGWIT := false; P2WSH_PREFIX := [0; 32]; P2WPKH_PREFIX := [0; 20];
  BECH32_HRP := None; SEGWIT_ENCODER := Enc_bech32;
  SEGWIT_TX_FLAG := [0; 1];
  FORKID := Some 42;
  CASHADDR_PREFIX := None; CASHADDR_P2SH := None; CASHADDR_P2PKH := None;
  CODE_TO_INT_OVERWRITE := []; INT_TO_CODE_OVERWRITE := [] |}.

(* riemann/networks/networks.py:795-802 *)
Definition BitcoinPrivateTest : network := {|
  SYMBOL := lit "tBTCP";
  NETWORK_NAME := lit "bitcoin_private"; SUBNET_NAME := lit "test";
  P2PKH_PREFIX := [25; 87]; P2SH_PREFIX := [25; 224];
  SEGWIT := false; P2WSH_PREFIX := [0; 32]; P2WPKH_PREFIX := [0; 20];
  BECH32_HRP := None; SEGWIT_ENCODER := Enc_bech32;
  SEGWIT_TX_FLAG := [0; 1];
  FORKID := Some 42;
  CASHADDR_PREFIX := None; CASHADDR_P2SH := None; CASHADDR_P2PKH := None;
  CODE_TO_INT_OVERWRITE := []; INT_TO_CODE_OVERWRITE := [] |}.

(* riemann/networks/networks.py:805-812 *)
Definition BitcoinPrivateRegtest : network := {|
  SYMBOL := lit "rBCTP";
  NETWORK_NAME := lit "bitcoin_private"; SUBNET_NAME := lit "reg";
  P2PKH_PREFIX := [25; 87]; P2SH_PREFIX := [25; 224];
  SEGWIT := false; P2WSH_PREFIX := [0; 32]; P2WPKH_PREFIX := [0; 20];
  BECH32_HRP := None; SEGWIT_ENCODER := Enc_bech32;
  SEGWIT_TX_FLAG := [0; 1];
  FORKID := Some 42;
  CASHADDR_PREFIX := None; CASHADDR_P2SH := None; CASHADDR_P2PKH := None;
  CODE_TO_INT_OVERWRITE := []; INT_TO_CODE_OVERWRITE := [] |}.

(* riemann/networks/networks.py:815-821 *)
Definition VergeMain : network := {|
  SYMBOL := lit "XVG";
  NETWORK_NAME := lit "verge"; SUBNET_NAME := lit "main";
  P2PKH_PREFIX := [30]; P2SH_PREFIX := [33];
  SEGWIT := false; P2WSH_PREFIX := [0; 32]; P2WPKH_PREFIX := [0; 20];
  BECH32_HRP := None; SEGWIT_ENCODER := Enc_bech32;
  SEGWIT_TX_FLAG := [0; 1];
  FORKID := None;
  CASHADDR_PREFIX := None; CASHADDR_P2SH := None; CASHADDR_P2PKH := None;
  CODE_TO_INT_OVERWRITE := []; INT_TO_CODE_OVERWRITE := [] |}.

(* riemann/networks/networks.py:824-830 *)
Definition VergeTest : network := {|
  SYMBOL := lit "tXVG";
  NETWORK_NAME := lit "verge"; SUBNET_NAME := lit "test";
  P2PKH_PREFIX := [115]; P2SH_PREFIX := [198];
  SEGWIT := false; P2WSH_PREFIX := [0; 32]; P2WPKH_PREFIX := [0; 20];
  BECH32_HRP := None; SEGWIT_ENCODER := Enc_bech32;
  SEGWIT_TX_FLAG := [0; 1];
  FORKID := None;
  CASHADDR_PREFIX := None; CASHADDR_P2SH := None; CASHADDR_P2PKH := None;
  CODE_TO_INT_OVERWRITE := []; INT_TO_CODE_OVERWRITE := [] |}.

(* riemann/networks/networks.py:833-841 *)
Definition VergeRegtest : network := {|
  SYMBOL := lit "rXVG";
  NETWORK_NAME := lit "verge"; SUBNET_NAME := lit "reg";
  P2PKH_PREFIX := [115]; P2SH_PREFIX := [198];
  SEGWIT := false; P2WSH_PREFIX := [0; 32]; P2WPKH_PREFIX := [0; 20];
  BECH32_HRP := None; SEGWIT_ENCODER := Enc_bech32;
  SEGWIT_TX_FLAG := [0; 1];
  FORKID := None;
  CASHADDR_PREFIX := None; CASHADDR_P2SH := None; CASHADDR_P2PKH := None;
  CODE_TO_INT_OVERWRITE := []; INT_TO_CODE_OVERWRITE := [] |}.

(* riemann/networks/__init__.py:10-83 *)
Definition SUPPORTED : list (str * network) := [
  (lit "bitcoin_main", BitcoinMain);
  (lit "bitcoin_test", BitcoinTest);
  (lit "bitcoin_reg", BitcoinRegtest);
  (lit "litecoin_main", LitecoinMain);
  (lit "litecoin_test", LitecoinTest);
  (lit "litecoin_reg", LitecoinRegtest);
  (lit "bitcoin_cash_main", BitcoinCashMain);
  (lit "bitcoin_cash_test", BitcoinCashTest);
  (lit "bitcoin_cash_reg", BitcoinCashRegtest);
  (lit "bitcoin_gold_main", BitcoinGoldMain);
  (lit "bitcoin_gold_test", BitcoinGoldTest);
  (lit "bitcoin_gold_reg", BitcoinGoldRegtest);
  (lit "dogecoin_main", DogecoinMain);
  (lit "dogecoin_test", DogecoinTest);
  (lit "dogecoin_reg", DogecoinRegtest);
  (lit "dash_main", DashMain);
  (lit "dash_test", DashTest);
  (lit "dash_reg", DashRegtest);
  (lit "zcash_sprout_main", ZcashSproutMain);
  (lit "zcash_sprout_test", ZcashSproutTest);
  (lit "zcash_sprout_reg", ZcashSproutRegtest);
  (lit "zcash_overwinter_main", ZcashOverwinterMain);
  (lit "zcash_overwinter_test", ZcashOverwinterTest);
  (lit "zcash_overwinter_reg", ZcashOverwinterRegtest);
  (lit "zcash_sapling_main", ZcashSaplingMain);
  (lit "zcash_sapling_test", ZcashSaplingTest);
  (lit "zcash_sapling_reg", ZcashSaplingRegtest);
  (lit "decred_main", DecredMain);
  (lit "decred_test", DecredTest);
  (lit "decred_simnet", DecredSimnet);
  (lit "pivx_main", PivxMain);
  (lit "pivx_test", PivxTest);
  (lit "pivx_reg", PivxRegtest);
  (lit "viacoin_main", ViacoinMain);
  (lit "viacoin_test", ViacoinTest);
  (lit "viacoin_simnet", ViacoinSimnet);
  (lit "feathercoin_main", FeathercoinMain);
  (lit "feathercoin_test", FeathercoinTest);
  (lit "feathercoin_reg", FeathercoinRegtest);
  (lit "bitcoin_dark_main", BitcoinDarkMain);
  (lit "bitcoin_dark_test", BitcoinDarkTest);
  (lit "bitcoin_dark_reg", BitcoinDarkRegtest);
  (lit "axe_main", AxeMain);
  (lit "axe_test", AxeTest);
  (lit "axe_reg", AxeRegtest);
  (lit "bitcore_main", BitcoreMain);
  (lit "bitcore_test", BitcoreTest);
  (lit "bitcore_reg", BitcoreRegtest);
  (lit "digibyte_main", DigibyteMain);
  (lit "digibyte_test", DigibyteTest);
  (lit "digibyte_reg", DigibyteRegtest);
  (lit "groestlcoin_main", GroestlcoinMain);
  (lit "groestlcoin_test", GroestlcoinTest);
  (lit "groestlcoin_reg", GroestlcoinRegtest);
  (lit "monacoin_main", MonacoinMain);
  (lit "monacoin_test", MonacoinTest);
  (lit "monacoin_reg", MonacoinRegtest);
  (lit "navcoin_main", NavcoinMain);
  (lit "navcoin_test", NavcoinTest);
  (lit "navcoin_reg", NavcoinRegtest);
  (lit "syscoin_main", SyscoinMain);
  (lit "syscoin_test", SyscoinTest);
  (lit "syscoin_reg", SyscoinRegtest);
  (lit "vertcoin_main", VertcoinMain);
  (lit "vertcoin_test", VertcoinTest);
  (lit "vertcoin_reg", VertcoinRegtest);
  (lit "bitcoin_private_main", BitcoinPrivateMain);
  (lit "bitcoin_private_test", BitcoinPrivateTest);
  (lit "bitcoin_private_reg", BitcoinPrivateRegtest);
  (lit "verge_main", VergeMain);
  (lit "verge_test", VergeTest);
  (lit "verge_reg", VergeRegtest)
].

(* riemann/networks/__init__.py:86-93 *)
Definition get_network (name : str) : res network :=
  match assoc_str name SUPPORTED with
  | None => Err ValueError
  | Some n => Ok n
  end.

(* riemann/__init__.py:3 *)
Definition initial_network : network := BitcoinMain.

(* riemann/__init__.py:6-17: select_network, as a function from the current
   network to the next one and the outcome of the call *)
Definition select_network (name : str) (current : network) : network * res unit :=
  match get_network name with
  | Ok n => (n, Ok tt)
  | Err e => (current, Err e)
  end.

(* riemann/__init__.py:25-27 *)
Definition get_current_network_name (net : network) : str :=
  (NETWORK_NAME net ++ lit "_" ++ SUBNET_NAME net)%list.
