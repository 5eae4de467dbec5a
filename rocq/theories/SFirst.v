(* How the addresses of each network begin and how long they are *)
From Coq Require Import String.
From Verif Require Import Py MNet MUtils SNum SHash SNet SBase58 SBech32 SCashaddr SAddr SParams.
Open Scope list_scope.
Open Scope Z_scope.

(* P2PKH and P2SH: the possible first characters, the least and the greatest length *)
Definition address_starts : list (string * (list string * Z * Z) * (list string * Z * Z)) := [
  ("bitcoin_main", (["1"], 25, 34), (["3"], 34, 34));
  ("bitcoin_test", (["m"; "n"], 34, 34), (["2"], 35, 35));
  ("bitcoin_reg", (["m"; "n"], 34, 34), (["2"], 35, 35));
  ("litecoin_main", (["L"], 34, 34), (["M"], 34, 34));
  ("litecoin_test", (["m"; "n"], 34, 34), (["Q"], 34, 34));
  ("litecoin_reg", (["m"; "n"], 34, 34), (["Q"], 34, 34));
  ("bitcoin_cash_main", (["1"], 25, 34), (["3"], 34, 34));
  ("bitcoin_cash_test", (["m"; "n"], 34, 34), (["2"], 35, 35));
  ("bitcoin_cash_reg", (["m"; "n"], 34, 34), (["2"], 35, 35));
  ("bitcoin_gold_main", (["G"], 34, 34), (["A"], 34, 34));
  ("bitcoin_gold_test", (["m"; "n"], 34, 34), (["2"], 35, 35));
  ("bitcoin_gold_reg", (["m"; "n"], 34, 34), (["2"], 35, 35));
  ("dogecoin_main", (["D"], 34, 34), (["9"; "A"], 34, 34));
  ("dogecoin_test", (["n"], 34, 34), (["2"], 35, 35));
  ("dogecoin_reg", (["n"], 34, 34), (["2"], 35, 35));
  ("dash_main", (["X"], 34, 34), (["7"], 34, 34));
  ("dash_test", (["y"], 34, 34), (["8"; "9"], 34, 34));
  ("dash_reg", (["y"], 34, 34), (["8"; "9"], 34, 34));
  ("zcash_sprout_main", (["t1"], 35, 35), (["t3"], 35, 35));
  ("zcash_sprout_test", (["tm"], 35, 35), (["t2"], 35, 35));
  ("zcash_sprout_reg", (["tm"], 35, 35), (["t2"], 35, 35));
  ("zcash_overwinter_main", (["t1"], 35, 35), (["t3"], 35, 35));
  ("zcash_overwinter_test", (["tm"], 35, 35), (["t2"], 35, 35));
  ("zcash_overwinter_reg", (["tm"], 35, 35), (["t2"], 35, 35));
  ("zcash_sapling_main", (["t1"], 35, 35), (["t3"], 35, 35));
  ("zcash_sapling_test", (["tm"], 35, 35), (["t2"], 35, 35));
  ("zcash_sapling_reg", (["tm"], 35, 35), (["t2"], 35, 35));
  ("decred_main", (["Ds"], 35, 35), (["Dc"], 35, 35));
  ("decred_test", (["Ts"], 35, 35), (["Tc"], 35, 35));
  ("decred_simnet", (["2F"], 36, 36), (["Tc"], 35, 35));
  ("pivx_main", (["D"], 34, 34), (["6"], 34, 34));
  ("pivx_test", (["x"; "y"], 34, 34), (["8"; "9"], 34, 34));
  ("pivx_reg", (["x"; "y"], 34, 34), (["8"; "9"], 34, 34));
  ("viacoin_main", (["V"], 34, 34), (["E"], 34, 34));
  ("viacoin_test", (["t"], 34, 34), (["2"], 35, 35));
  ("viacoin_simnet", (["m"; "n"], 34, 34), (["2"], 35, 35));
  ("feathercoin_main", (["6"; "7"], 34, 34), (["f"; "g"], 34, 34));
  ("feathercoin_test", (["m"; "n"], 34, 34), (["2"], 35, 35));
  ("feathercoin_reg", (["m"; "n"], 34, 34), (["2"], 35, 35));
  ("bitcoin_dark_main", (["R"], 34, 34), (["b"], 34, 34));
  ("bitcoin_dark_test", (["m"; "n"], 34, 34), (["2"], 35, 35));
  ("bitcoin_dark_reg", (["m"; "n"], 34, 34), (["2"], 35, 35));
  ("axe_main", (["P"], 34, 34), (["7"], 34, 34));
  ("axe_test", (["y"], 34, 34), (["8"; "9"], 34, 34));
  ("axe_reg", (["y"], 34, 34), (["8"; "9"], 34, 34));
  ("bitcore_main", (["1"], 25, 34), (["M"], 34, 34));
  ("bitcore_test", (["m"; "n"], 34, 34), (["Q"], 34, 34));
  ("bitcore_reg", (["m"; "n"], 34, 34), (["Q"], 34, 34));
  ("digibyte_main", (["D"], 34, 34), (["S"], 34, 34));
  ("digibyte_test", (["s"; "t"], 34, 34), (["y"], 34, 34));
  ("digibyte_reg", (["s"; "t"], 34, 34), (["y"], 34, 34));
  ("groestlcoin_main", (["F"], 34, 34), (["3"], 34, 34));
  ("groestlcoin_test", (["m"; "n"], 34, 34), (["2"], 35, 35));
  ("groestlcoin_reg", (["m"; "n"], 34, 34), (["2"], 35, 35));
  ("monacoin_main", (["M"], 34, 34), (["P"], 34, 34));
  ("monacoin_test", (["m"; "n"], 34, 34), (["2"], 35, 35));
  ("monacoin_reg", (["m"; "n"], 34, 34), (["2"], 35, 35));
  ("navcoin_main", (["N"], 34, 34), (["b"], 34, 34));
  ("navcoin_test", (["N"; "P"], 34, 34), (["b"; "c"], 34, 34));
  ("navcoin_reg", (["9"], 34, 34), (["f"; "g"], 34, 34));
  ("syscoin_main", (["S"], 34, 34), (["3"], 34, 34));
  ("syscoin_test", (["T"], 34, 34), (["2"], 35, 35));
  ("syscoin_reg", (["T"], 34, 34), (["2"], 35, 35));
  ("vertcoin_main", (["V"], 34, 34), (["3"], 34, 34));
  ("vertcoin_test", (["W"; "X"], 34, 34), (["2"], 35, 35));
  ("vertcoin_reg", (["m"; "n"], 34, 34), (["2"], 35, 35));
  ("bitcoin_private_main", (["b1"], 35, 35), (["bx"], 35, 35));
  ("bitcoin_private_test", (["n1"], 35, 35), (["nx"], 35, 35));
  ("bitcoin_private_reg", (["n1"], 35, 35), (["nx"], 35, 35));
  ("verge_main", (["D"], 34, 34), (["E"], 34, 34));
  ("verge_test", (["o"], 34, 34), (["2"], 35, 35));
  ("verge_reg", (["o"], 34, 34), (["2"], 35, 35))
]%string.

Definition begins (starts : list string) (least greatest : Z) (s : str) : Prop :=
  (exists p r, In p starts /\ s = lit p ++ r) /\ least <= len s <= greatest.

(* an address in the network's non-CashAddr format *)
Definition looks (name : str) (k : payment) (s : str) : Prop :=
  match k with
  | P2PKH | P2SH => exists n pkh sh, In (n, pkh, sh) address_starts /\ name = lit n /\
      let '(starts, least, greatest) := match k with P2SH => sh | _ => pkh end in begins starts least greatest s
  | P2WPKH | P2WSH => exists w, witness_addresses name w /\
      match w with
      | no_witness => False
      | bech32_witness hrp => exists r, s = lit hrp ++ lit "1q" ++ r /\ len s = len (lit hrp) + match k with P2WPKH => 40 | _ => 60 end
      | base58_witness => match k with P2WPKH => begins ["19"%string] 35 35 s | _ => begins ["12"%string] 52 52 s end
      end
  end.
(* a CashAddr text: q for keys, p for scripts *)
Definition cash_looks (p : str) (k : payment) (s : str) : Prop :=
  exists r, s = p ++ lit (match k with P2PKH | P2WPKH => ":q" | _ => ":p" end) ++ r /\
    len s = len p + match k with P2WSH => 62 | _ => 43 end.

(* A text that is read as a payment of the kind, where there is no CashAddr.  Beside the network's own addresses:
   capitals for a bech32 address; a Base58Check text of a witness program, on every network; and a bech32 address of
   witness version 1 to 16 if this is also the version of Base58Check addresses. *)
Definition reads_like (name : str) (k : payment) (s : str) : Prop :=
  match k with
  | P2PKH | P2SH => looks name k s \/
      exists hrp v r, witness_addresses name (bech32_witness hrp) /\ legacy_version name k [v] /\ 1 <= v <= 16 /\ one_case s /\
        lower s = lit hrp ++ lit "1" ++ b32_char v :: r /\ len s = len (lit hrp) + 39
  | P2WPKH => begins ["19"%string] 35 35 s \/ (one_case s /\ looks name k (lower s))
  | P2WSH => begins ["12"%string] 52 52 s \/ (one_case s /\ looks name k (lower s))
  end.

(* The same where there is CashAddr: the text under a prefix that begins with the network's, of which the first character is
   the upper five bits of a version byte.  The version bytes of Base58Check are taken in CashAddr texts, too, and those of
   CashAddr in Base58Check texts. *)
Definition cash_reads_like (name p : str) (k : payment) (s : str) : Prop :=
  match k with
  | P2PKH => looks name k s \/ begins ["1"%string] 25 34 s
  | P2SH => looks name k s \/ begins ["4"%string] 34 34 s
  | P2WPKH => begins ["19"%string] 35 35 s
  | P2WSH => begins ["12"%string] 52 52 s
  end \/
  exists suffix v r, ~ In 58 suffix /\ s = (p ++ suffix) ++ lit ":" ++ b32_char (v / 8) :: r /\
    match k with
    | P2PKH | P2SH => (v = cash_kind k \/ legacy_version name k [v]) /\ 41 <= len r <= 42
    | P2WPKH => v = 0 /\ len r = 43
    | P2WSH => v = 0 /\ 62 <= len r <= 63
    end.
