(* Properties C11 and C12: cashaddr *)
From Coq Require Import String.
From Verif Require Import Py MNet MUtils MBech32 MCashaddr SNum SBits SBch SBech32 SCashaddr SNet LBase LCashaddr LCaLimit LBchFive.
Open Scope list_scope.
Open Scope Z_scope.

Definition pkh : bytes :=
  [0x75; 0x1e; 0x76; 0xe8; 0x19; 0x91; 0x96; 0xd4; 0x54; 0x94;
   0x1c; 0x45; 0xd1; 0xb3; 0xa3; 0x23; 0xf1; 0x43; 0x3b; 0xd6].

(* C11: every byte string gets its cashaddr text *)
Theorem cashaddr_encode_text : forall net p b, CASHADDR_PREFIX net = Some p -> all_bytes b ->
  exists s, cashaddr_encode net b = Ok s /\ cashaddr_of p b s.
Proof. exact ca_encode_spec. Qed.
Print Assumptions cashaddr_encode_text.
Example cashaddr_encode_text_ex :
  cashaddr_encode BitcoinCashMain (0 :: pkh) = Ok (lit "bitcoincash:qp63uahgrxged4z5jswyt5dn5v3lzsem6cy4spdc2h").
Proof. vm_compute. reflexivity. Qed.

(* C11, full statement: for all b, decode (encode b) = b.  It holds when the
   length is not a multiple of five, which covers the 21 and 33 byte payloads
   that the library makes; missing are the multiples of five. *)
Theorem cashaddr_roundtrip_partial : forall name net p b,
  get_network name = Ok net -> CASHADDR_PREFIX net = Some p -> all_bytes b ->
  len b mod 5 <> 0 \/ b = [] ->
  exists s, cashaddr_encode net b = Ok s /\ cashaddr_decode net s = Ok b.
Proof. exact ca_roundtrip_partial. Qed.
Print Assumptions cashaddr_roundtrip_partial.
Example cashaddr_roundtrip_ex : len (0 :: pkh) mod 5 = 1 /\
  cashaddr_decode BitcoinCashMain (lit "bitcoincash:qp63uahgrxged4z5jswyt5dn5v3lzsem6cy4spdc2h") = Ok (0 :: pkh).
Proof. split; vm_compute; reflexivity. Qed.

(* C11: the exact value for every b; multiples of five lose their last byte *)
Theorem cashaddr_roundtrip_value : forall name net p b s,
  get_network name = Ok net -> CASHADDR_PREFIX net = Some p -> all_bytes b ->
  cashaddr_encode net b = Ok s ->
  cashaddr_decode net s = Ok (if len b mod 5 =? 0 then removelast b else b).
Proof. exact ca_roundtrip_value. Qed.
Print Assumptions cashaddr_roundtrip_value.
Theorem cashaddr_roundtrip_refuted :
  cashaddr_encode BitcoinCashMain pkh = Ok (lit "bitcoincash:w508d6qejxtdg4y5r3zarvary0c5xw7kegnluzvt") /\
  cashaddr_decode BitcoinCashMain (lit "bitcoincash:w508d6qejxtdg4y5r3zarvary0c5xw7kegnluzvt") = Ok (removelast pkh).
Proof. split; vm_compute; reflexivity. Qed.
Print Assumptions cashaddr_roundtrip_refuted.

(* C12: what is accepted, and what it decodes to: the first bytes of the payload *)
Theorem cashaddr_decode_exact : forall name net p s b,
  get_network name = Ok net -> CASHADDR_PREFIX net = Some p ->
  cashaddr_decode net s = Ok b <->
  exists suffix values, ~ In 58 suffix /\ cashaddr_text (p ++ suffix) values s /\
    leading_bytes values b /\ len b = Z.max 0 ((5 * len values + 7) / 8 - 6).
Proof. exact ca_decode_spec. Qed.
Print Assumptions cashaddr_decode_exact.
Theorem cashaddr_decode_errors : forall name net p s,
  get_network name = Ok net -> CASHADDR_PREFIX net = Some p ->
  (exists b, cashaddr_decode net s = Ok b) \/ cashaddr_decode net s = Err ValueError \/
  cashaddr_decode net s = Err TypeError.
Proof. exact ca_decode_total. Qed.
Print Assumptions cashaddr_decode_errors.
Theorem cashaddr_without_prefix : forall net b s, CASHADDR_PREFIX net = None ->
  cashaddr_encode net b = Err ValueError /\ cashaddr_decode net s = Err ValueError.
Proof. exact no_prefix_lemma. Qed.
Print Assumptions cashaddr_without_prefix.
Example cashaddr_without_prefix_ex : CASHADDR_PREFIX BitcoinMain = None.
Proof. reflexivity. Qed.

(* C12, prefix: full statement "accepted only with the network prefix".  The
   text starts with the network prefix, but more may follow before the colon. *)
Theorem cashaddr_prefix_partial : forall name net p s b,
  get_network name = Ok net -> CASHADDR_PREFIX net = Some p ->
  cashaddr_decode net s = Ok b -> exists rest, s = p ++ rest.
Proof. exact ca_accept_prefix. Qed.
Print Assumptions cashaddr_prefix_partial.
Theorem cashaddr_foreign_prefix_refuted :
  cashaddr_decode BitcoinCashMain (lit "bitcoincashx:qp63uahgrxged4z5jswyt5dn5v3lzsem6cw6n49p54") = Ok (0 :: pkh).
Proof. vm_compute. reflexivity. Qed.
Print Assumptions cashaddr_foreign_prefix_refuted.
(* and two texts under the right prefix decode to the same bytes, because the
   padding bits are not checked *)
Theorem cashaddr_canonical_refuted :
  cashaddr_decode BitcoinCashMain (lit "bitcoincash:qp63uahgrxged4z5jswyt5dn5v3lzsem6ehkf25mek") = Ok (0 :: pkh) /\
  cashaddr_decode BitcoinCashMain (lit "bitcoincash:qp63uahgrxged4z5jswyt5dn5v3lzsem6cy4spdc2h") = Ok (0 :: pkh).
Proof. split; vm_compute; reflexivity. Qed.
Print Assumptions cashaddr_canonical_refuted.

(* C12: a changed payload character is always refused; so are up to four in any
   payload of at most 1025 characters (the longest that cashaddr defines has
   112); cashaddr_unnoticed says that neither bound can be raised *)
Theorem cashaddr_detects_substitutions : forall name net prefix t t' b,
  get_network name = Ok net -> ~ In 58 prefix -> length t = length t' ->
  (hamming t t' = 1 \/ (1 <= hamming t t' <= 4 /\ length t <= 1025))%nat ->
  cashaddr_decode net (prefix ++ lit ":" ++ t) = Ok b ->
  cashaddr_decode net (prefix ++ lit ":" ++ t') = Err ValueError \/
  cashaddr_decode net (prefix ++ lit ":" ++ t') = Err TypeError.
Proof. exact ca_detect_lemma. Qed.
Print Assumptions cashaddr_detects_substitutions.
Example cashaddr_detects_ex :
  hamming (lit "qp63uahgrxged4z5jswyt5dn5v3lzsem6cy4spdc2h") (lit "qp63uahgrxged4z5jswyt5dn5v3l!sem6cy4spdc2h") = 1%nat /\
  cashaddr_decode BitcoinCashMain (lit "bitcoincash" ++ lit ":" ++ lit "qp63uahgrxged4z5jswyt5dn5v3l!sem6cy4spdc2h")
    = Err ValueError.
Proof. split; vm_compute; reflexivity. Qed.

(* C12: up to five in a payload of at most 112 characters *)
Theorem cashaddr_detects_five : forall name net prefix t t' b,
  get_network name = Ok net -> ~ In 58 prefix -> length t = length t' ->
  (1 <= hamming t t' <= 5)%nat -> (length t <= 112)%nat ->
  cashaddr_decode net (prefix ++ lit ":" ++ t) = Ok b ->
  cashaddr_decode net (prefix ++ lit ":" ++ t') = Err ValueError \/
  cashaddr_decode net (prefix ++ lit ":" ++ t') = Err TypeError.
Proof. exact ca_detect_five. Qed.
Print Assumptions cashaddr_detects_five.
Example cashaddr_detects_five_ex :
  hamming (lit "qp63uahgrxged4z5jswyt5dn5v3lzsem6cy4spdc2h") (lit "qp63uapgrxgsd4z5jswyt5dn553lzsem6cy45pdcch") = 5%nat /\
  cashaddr_decode BitcoinCashMain (lit "bitcoincash" ++ lit ":" ++ lit "qp63uapgrxgsd4z5jswyt5dn553lzsem6cy45pdcch")
    = Err ValueError.
Proof. split; vm_compute; reflexivity. Qed.

(* C12: the limits of this.  From 36 characters on some six changes go unnoticed
   in every accepted payload (an address of a key hash has 42), from 224 on some
   five, from 1026 on some two. *)
Theorem cashaddr_unnoticed : forall name net prefix t b k,
  get_network name = Ok net -> ~ In 58 prefix ->
  (k = 6 /\ 36 <= length t \/ k = 5 /\ 224 <= length t \/ k = 2 /\ 1026 <= length t)%nat ->
  cashaddr_decode net (prefix ++ lit ":" ++ t) = Ok b ->
  exists t' b', length t' = length t /\ hamming t t' = k /\
    cashaddr_decode net (prefix ++ lit ":" ++ t') = Ok b'.
Proof. exact unnoticed_lemma. Qed.
Print Assumptions cashaddr_unnoticed.
Example cashaddr_unnoticed_ex :
  length (lit "qp63uahgrxged4z5jswyt5dn5v3lzsem6cy4spdc2h") = 42%nat /\
  hamming (lit "qp63uahgrxged4z5jswyt5dn5v3lzsem6cy4spdc2h") (lit "qp63uapgrxgsd4z5jswyt5dn553lzsem6cy45pdcck") = 6%nat /\
  (exists b, cashaddr_decode BitcoinCashMain (lit "bitcoincash:qp63uapgrxgsd4z5jswyt5dn553lzsem6cy45pdcck") = Ok b /\ b <> 0 :: pkh) /\
  (exists b s t, len b = 636 /\ cashaddr_encode BitcoinCashMain b = Ok s /\ s = lit "bitcoincash:" ++ t /\ length t = 1026%nat /\
    cashaddr_decode BitcoinCashMain s = Ok b).
Proof.
  split; [reflexivity|]. split; [reflexivity|].
  split; [eexists; split; [vm_compute; reflexivity|discriminate]|].
  exists (repeat 7 636). eexists. eexists. split; [reflexivity|].
  split; [vm_compute; reflexivity|]. split; [reflexivity|]. split; [reflexivity|]. vm_compute. reflexivity.
Qed.
