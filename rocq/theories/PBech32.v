(* Properties C08, C09 and C10: bech32 *)
From Coq Require Import String.
From Verif Require Import Py MNet MUtils MBech32 SNum SBits SBch SBech32 SNet LBase LBech32 LBeLimit.
Open Scope list_scope.
Open Scope Z_scope.

(* C08: every valid witness program gets its BIP173 address, and decoding the
   address gives the program back *)
Theorem bech32_encode_valid : forall name net hrp v prog,
  get_network name = Ok net -> BECH32_HRP net = Some hrp -> witness_program v prog ->
  exists s, bech32_net_encode net (witness_bytes v prog) = Ok (Some s) /\
    segwit_address hrp v prog s /\
    bech32_net_decode net s = Ok (witness_bytes v prog).
Proof. exact encode_decode_lemma. Qed.
Print Assumptions bech32_encode_valid.
(* the first BIP173 example: hash160 of the generator point, version 0 *)
Definition bip173_hash : bytes :=
  [0x75; 0x1e; 0x76; 0xe8; 0x19; 0x91; 0x96; 0xd4; 0x54; 0x94;
   0x1c; 0x45; 0xd1; 0xb3; 0xa3; 0x23; 0xf1; 0x43; 0x3b; 0xd6].
Example bech32_encode_valid_ex :
  bech32_net_encode BitcoinMain (witness_bytes 0 bip173_hash)
    = Ok (Some (lit "bc1qw508d6qejxtdg4y5r3zarvary0c5xw7kv8f3t4")) /\
  bech32_net_decode BitcoinMain (lit "BC1QW508D6QEJXTDG4Y5R3ZARVARY0C5XW7KV8F3T4")
    = Ok (witness_bytes 0 bip173_hash).
Proof. split; vm_compute; reflexivity. Qed.

(* C08: nothing else is encoded; the length byte is not read *)
Theorem bech32_encode_exact : forall name net hrp data s,
  get_network name = Ok net -> BECH32_HRP net = Some hrp -> all_bytes data ->
  bech32_net_encode net data = Ok (Some s) <->
  exists v x prog, data = v :: x :: prog /\ witness_program v prog /\ segwit_address hrp v prog s.
Proof. exact net_encode_spec. Qed.
Print Assumptions bech32_encode_exact.
Example bech32_encode_exact_ex :
  bech32_net_encode BitcoinMain (0 :: 77 :: bip173_hash)
    = Ok (Some (lit "bc1qw508d6qejxtdg4y5r3zarvary0c5xw7kv8f3t4")).
Proof. vm_compute. reflexivity. Qed.

(* C08: what happens to other byte strings: None, or an IndexError when there is
   no version byte or it is not a 5-bit number *)
Theorem bech32_encode_outcomes : forall name net hrp data,
  get_network name = Ok net -> BECH32_HRP net = Some hrp -> all_bytes data ->
  (exists s, bech32_net_encode net data = Ok (Some s)) \/
  (bech32_net_encode net data = Ok None /\ exists v t, data = v :: t /\ v < 32) \/
  (bech32_net_encode net data = Err IndexError /\ forall v t, data = v :: t -> 32 <= v).
Proof. exact net_encode_outcomes. Qed.
Print Assumptions bech32_encode_outcomes.
Example bech32_encode_outcomes_ex :
  bech32_net_encode BitcoinMain [0; 2; 1; 1] = Ok None /\
  bech32_net_encode BitcoinMain [81; 2; 1; 1] = Err IndexError.
Proof. split; vm_compute; reflexivity. Qed.

(* C09: decoding returns exactly the witness program whose address the text is,
   in one case *)
Theorem bech32_decode_exact : forall name net hrp s b,
  get_network name = Ok net -> BECH32_HRP net = Some hrp ->
  bech32_net_decode net s = Ok b <->
  exists v prog, b = witness_bytes v prog /\ witness_program v prog /\
                 one_case s /\ segwit_address hrp v prog (lower s).
Proof. exact net_decode_spec. Qed.
Print Assumptions bech32_decode_exact.
Example bech32_decode_exact_ex :
  bech32_net_decode BitcoinMain (lit "bc1pw508d6qejxtdg4y5r3zarvary0c5xw7kw508d6qejxtdg4y5r3zarvary0c5xw7k7grplx")
    = Ok (witness_bytes 1 (bip173_hash ++ bip173_hash)).
Proof. vm_compute. reflexivity. Qed.

(* C09: the lower-cased text is what encode makes of the decoded bytes *)
Theorem bech32_decode_canonical : forall name net s b,
  get_network name = Ok net -> bech32_net_decode net s = Ok b ->
  bech32_net_encode net b = Ok (Some (lower s)).
Proof. exact canonical_lemma. Qed.
Print Assumptions bech32_decode_canonical.
Example bech32_decode_canonical_ex :
  bech32_net_decode BitcoinMain (lit "BC1SW50QA3JX3S") = Ok [16; 2; 0x75; 0x1e].
Proof. vm_compute. reflexivity. Qed.

(* C09: any other text is a TypeError; on a network without a bech32 prefix both
   functions are a ValueError *)
Theorem bech32_decode_refuses : forall name net hrp s,
  get_network name = Ok net -> BECH32_HRP net = Some hrp ->
  (exists b, bech32_net_decode net s = Ok b) \/ bech32_net_decode net s = Err TypeError.
Proof. exact net_decode_total. Qed.
Print Assumptions bech32_decode_refuses.
Example bech32_decode_refuses_ex :
  bech32_net_decode BitcoinMain (lit "bc1QW508D6QEJXTDG4Y5R3ZARVARY0C5XW7KV8F3T4") = Err TypeError.
Proof. vm_compute. reflexivity. Qed.
Theorem bech32_without_prefix : forall net b s, BECH32_HRP net = None ->
  bech32_net_encode net b = Err ValueError /\ bech32_net_decode net s = Err ValueError.
Proof. exact no_hrp_lemma. Qed.
Print Assumptions bech32_without_prefix.
Example bech32_without_prefix_ex : BECH32_HRP DogecoinMain = None.
Proof. reflexivity. Qed.

(* C10: changing one to four characters after the separator, in any way, makes
   the text invalid *)
Theorem bech32_detects_substitutions : forall name net hrp p t t' b,
  get_network name = Ok net -> BECH32_HRP net = Some hrp ->
  len p = len hrp + 1 -> length t = length t' -> (1 <= hamming t t' <= 4)%nat ->
  bech32_net_decode net (p ++ t) = Ok b -> bech32_net_decode net (p ++ t') = Err TypeError.
Proof. exact detect_lemma. Qed.
Print Assumptions bech32_detects_substitutions.
Example bech32_detects_ex :
  hamming (lit "qw508d6qejxtdg4y5r3zarvary0c5xw7kv8f3t4") (lit "qw508d6qejxtdg4Q5r3z1rvary0c5xw7kv8f3tq") = 3%nat /\
  bech32_net_decode BitcoinMain (lit "bc1" ++ lit "qw508d6qejxtdg4Q5r3z1rvary0c5xw7kv8f3tq") = Err TypeError.
Proof. split; vm_compute; reflexivity. Qed.

(* C10: five would be too many.  Every accepted address with at least 28
   characters after the separator (39 or 59 for version 0) turns into another
   accepted one, of the same version and the same program length, by some five
   changes. *)
Theorem bech32_unnoticed : forall name net hrp s b,
  get_network name = Ok net -> BECH32_HRP net = Some hrp ->
  bech32_net_decode net s = Ok b -> len hrp + 29 <= len s ->
  exists s' b', length s' = length s /\ hamming s s' = 5%nat /\
    bech32_net_decode net s' = Ok b' /\ firstn 2 b' = firstn 2 b.
Proof. exact five_unnoticed. Qed.
Print Assumptions bech32_unnoticed.
Example bech32_unnoticed_ex :
  (exists b, bech32_net_decode BitcoinMain (lit "bc1qw508d6qejxtdg4y5r3zarvary0c5xw7kv8f3t4") = Ok (0 :: 20 :: b)) /\
  hamming (lit "qw508d6qejxtdg4y5r3zarvary0c5xw7kv8f3t4") (lit "qw508d6qejxt8g4y5razarvary0c5xw7kv8j3r5") = 5%nat /\
  (exists b, bech32_net_decode BitcoinMain (lit "bc1qw508d6qejxt8g4y5razarvary0c5xw7kv8j3r5") = Ok (0 :: 20 :: b)).
Proof. split; [eexists; vm_compute; reflexivity|]. split; [reflexivity|eexists; vm_compute; reflexivity]. Qed.
