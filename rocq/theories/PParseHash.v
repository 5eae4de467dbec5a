(* Properties C74 and C75: the hash that parse_hash finds in an address, and the
   bech32 addresses of later witness versions *)
From Coq Require Import String.
From Verif Require Import Py MNet MUtils MBase58 MBech32 MCashaddr MAddr SNum SHash SNet SBase58 SBits SBch SBech32 SCashaddr SAddr SParseHash
  LBase LBase58 LBech32 LAddr LParseHash PAddr SSha LSha.
Open Scope list_scope.
Open Scope Z_scope.

(* C74, full statement: for every text that to_output_script accepts, parse_hash
   returns the hash that the output script pays to.  This is false; the theorems
   below say what is returned for each kind of text. *)

(* a Base58Check text: what follows the legacy version bytes *)
Theorem parse_hash_base58 : forall H name net s raw,
  hashes_ok H -> get_network name = Ok net -> base58check_of H name raw s ->
  (forall p t, CASHADDR_PREFIX net = Some p -> s <> p ++ t) \/ len raw = 21 ->
  parse_hash H net s = behind_legacy net raw.
Proof. intros H name net s raw K En. exact (parse_hash_base58_lemma H name net K En s raw). Qed.
Print Assumptions parse_hash_base58.
Example parse_hash_base58_ex :
  let round net raw := s <- base58_encode toy net raw true ;; parse_hash toy net s in
  round BitcoinMain (0 :: h20) = Ok h20 /\ round BitcoinMain (5 :: h20) = Ok h20 /\
  round BitcoinMain (6 :: h20) = Err ValueError /\ round BitcoinMain (5 :: [1; 2; 3]) = Ok [1; 2; 3] /\
  round ZcashSaplingMain (0x1c :: 0xbd :: h20) = Ok h20 /\
  round BitcoinCashMain (8 :: h20) = Err ValueError.
Proof. vm_compute. repeat split; reflexivity. Qed.
(* ... and if it opens like a cashaddr text (which no payment does), what follows
   a cashaddr version *)
Theorem parse_hash_base58_cash : forall H name net s raw p t,
  hashes_ok H -> get_network name = Ok net -> base58check_of H name raw s -> CASHADDR_PREFIX net = Some p -> s = p ++ t ->
  parse_hash H net s = behind_cash net raw.
Proof. intros H name net s raw p t K En. exact (parse_hash_base58_cash_lemma H name net K En s raw p t). Qed.
Print Assumptions parse_hash_base58_cash.
Example parse_hash_base58_cash_ex :
  let h := [229; 28; 213; 92; 113; 126; 216; 93; 222; 63; 217; 155; 3; 182; 72; 198; 141; 239; 33; 42; 104; 4; 42; 191; 31; 106; 237] in
  base58_decode real BitcoinCashMain (lit "bitcoincash555555555555555555555555557aZLCB") true = Ok (8 :: h) /\
  parse_hash real BitcoinCashMain (lit "bitcoincash555555555555555555555555557aZLCB") = Ok h.
Proof. vm_compute. repeat split; reflexivity. Qed.

(* a cashaddr text *)
Theorem parse_hash_cashaddr : forall H name net s p suffix values raw,
  hashes_ok H -> get_network name = Ok net -> CASHADDR_PREFIX net = Some p -> ~ In 58 suffix ->
  cashaddr_text (p ++ suffix) values s -> leading_bytes values raw ->
  len raw = Z.max 0 ((5 * len values + 7) / 8 - 6) -> parse_hash H net s = behind_cash net raw.
Proof. intros H name net s p suffix values raw K En. exact (parse_hash_cashaddr_lemma H name net K En s p suffix values raw). Qed.
Print Assumptions parse_hash_cashaddr.
Example parse_hash_cashaddr_ex :
  let round net raw := s <- cashaddr_encode net raw ;; parse_hash toy net s in
  parse_hash toy BitcoinCashMain (lit "bitcoincash:qp63uahgrxged4z5jswyt5dn5v3lzsem6cy4spdc2h") = Ok h20 /\
  round BitcoinCashMain (8 :: h20) = Ok h20 /\ round BitcoinCashMain (5 :: h20) = Ok h20 /\
  round BitcoinCashMain (7 :: h20) = Err ValueError /\ round BitcoinCashMain (0 :: 20 :: h20) = Ok (20 :: h20).
Proof. vm_compute. repeat split; reflexivity. Qed.

(* a bech32 text *)
Theorem parse_hash_bech32_text : forall H name net s hrp v prog,
  hashes_ok H -> get_network name = Ok net -> SEGWIT_ENCODER net = Enc_bech32 -> BECH32_HRP net = Some hrp ->
  witness_program v prog -> one_case s -> segwit_address hrp v prog (lower s) ->
  (forall p, ~ base58check_of H name p s) ->
  parse_hash H net s = if (v =? 0) && leqb (lower s) s then Ok prog else behind_legacy net (witness_bytes v prog).
Proof. intros H name net s hrp v prog K En. exact (parse_hash_bech32_lemma H name net K En s hrp v prog). Qed.
Print Assumptions parse_hash_bech32_text.
Example parse_hash_bech32_ex :
  parse_hash toy BitcoinMain (lit "bc1qw508d6qejxtdg4y5r3zarvary0c5xw7kv8f3t4") = Ok h20 /\
  parse_hash toy BitcoinMain (lit "BC1QW508D6QEJXTDG4Y5R3ZARVARY0C5XW7KV8F3T4") = Ok (20 :: h20) /\
  parse_hash toy BitcoinTest (lit "tb1qw508d6qejxtdg4y5r3zarvary0c5xw7kxpjzsx") = Ok h20 /\
  parse_hash toy BitcoinTest (lit "TB1QW508D6QEJXTDG4Y5R3ZARVARY0C5XW7KXPJZSX") = Err ValueError.
Proof. vm_compute. repeat split; reflexivity. Qed.

(* no other text has a hash, no other exception escapes, and what is returned is
   the end of the payload *)
Theorem parse_hash_total : forall H name net s, hashes_ok H -> get_network name = Ok net ->
  (exists h raw, parse_hash H net s = Ok h /\ address_text H name net s raw /\ exists v, raw = v ++ h) \/
  parse_hash H net s = Err ValueError.
Proof. exact parse_hash_total_lemma. Qed.
Print Assumptions parse_hash_total.

(* for a text that pays to a key or script hash in the legacy way: the hash, except
   for a Base58Check text with a version that only cashaddr has *)
Theorem payment_hash_legacy : forall H name net s k h,
  hashes_ok H -> get_network name = Ok net -> to_output_script H net s = Ok (template k h) -> len h = hash_len k ->
  is_witness_payment k = false ->
  (parse_hash H net s = Ok h /\
   forall q, cash_only net k = Some q -> q <> legacy_version net k -> ~ base58check_of H name (q ++ h) s) \/
  (parse_hash H net s = Err ValueError /\
   exists q, cash_only net k = Some q /\ q <> legacy_version net k /\ base58check_of H name (q ++ h) s).
Proof. intros H name net s k h K En. exact (payment_hash_legacy_lemma H name net K En s k h). Qed.
Print Assumptions payment_hash_legacy.
Example payment_hash_legacy_ex :
  let round net raw := s <- base58_encode toy net raw true ;; a <- to_output_script toy net s ;; Ok (a, parse_hash toy net s) in
  round BitcoinMain (5 :: h20) = Ok (template P2SH h20, Ok h20) /\
  round BitcoinCashMain (5 :: h20) = Ok (template P2SH h20, Ok h20) /\
  round BitcoinCashMain (8 :: h20) = Ok (template P2SH h20, Err ValueError).
Proof. vm_compute. repeat split; reflexivity. Qed.

(* for a text that pays to a witness program: the hash, if it is a lower case
   bech32 text; otherwise the length byte and the hash, or a ValueError *)
Theorem payment_hash_witness : forall H name net s k h,
  hashes_ok H -> get_network name = Ok net -> to_output_script H net s = Ok (template k h) -> len h = hash_len k ->
  is_witness_payment k = true ->
  (parse_hash H net s = Ok h /\
   SEGWIT_ENCODER net = Enc_bech32 /\ exists hrp, BECH32_HRP net = Some hrp /\ segwit_address hrp 0 h s) \/
  (parse_hash H net s = (if leqb (P2PKH_PREFIX net) [0] || (if in_dec Z.eq_dec 58 s then true else false)
                         then Ok (hash_len k :: h) else Err ValueError) /\
   forall hrp, SEGWIT_ENCODER net = Enc_bech32 -> BECH32_HRP net = Some hrp -> ~ segwit_address hrp 0 h s).
Proof. intros H name net s k h K En. exact (payment_hash_witness_lemma H name net K En s k h). Qed.
Print Assumptions payment_hash_witness.
Example payment_hash_witness_ex :
  let b58 net raw := s <- base58_encode toy net raw true ;; a <- to_output_script toy net s ;; Ok (a, parse_hash toy net s) in
  let cash net raw := s <- cashaddr_encode net raw ;; a <- to_output_script toy net s ;; Ok (a, parse_hash toy net s) in
  b58 BitcoinMain (0 :: 20 :: h20) = Ok (template P2WPKH h20, Ok (20 :: h20)) /\
  b58 BitcoinTest (0 :: 20 :: h20) = Ok (template P2WPKH h20, Err ValueError) /\
  cash BitcoinCashMain (0 :: 32 :: h32) = Ok (template P2WSH h32, Ok (32 :: h32)).
Proof. vm_compute. repeat split; reflexivity. Qed.

(* C74, what is true of it *)
Theorem payment_hash_partial : forall H name net s k h,
  hashes_ok H -> get_network name = Ok net -> to_output_script H net s = Ok (template k h) -> len h = hash_len k ->
  (if is_witness_payment k
   then SEGWIT_ENCODER net = Enc_bech32 /\ exists hrp, BECH32_HRP net = Some hrp /\ segwit_address hrp 0 h s
   else CASHADDR_PREFIX net = None \/ In 58 s \/ base58check_of H name (legacy_version net k ++ h) s) ->
  parse_hash H net s = Ok h.
Proof.
  intros H name net s k h K En E L C. destruct (is_witness_payment k) eqn:Wk.
  - destruct (payment_hash_witness_lemma H name net K En s k h E L Wk) as [[X _]|[_ N]]; [exact X|].
    destruct C as [Ee [hrp [Eh A]]]. contradiction (N hrp Ee Eh).
  - destruct (payment_hash_legacy_lemma H name net K En s k h E L Wk) as [[X _]|[_ [q [Q [N B]]]]]; [exact X|].
    destruct C as [C|[C|C]].
    + exfalso. pose proof (shapes _ _ En) as S. destruct (sh_cash _ _ S) as [[X [Y _]]|[_ [_ [[p X] _]]]]; [|congruence].
      destruct k; cbn [cash_only] in Q; congruence.
    + contradiction (no_colon_base58 H name net K En _ _ B C).
    + pose proof (base58_text_fun H name net K En _ _ _ B C) as F. apply app_inv_tail in F. congruence.
Qed.
Print Assumptions payment_hash_partial.
Example payment_hash_ex :
  let s := lit "bc1qw508d6qejxtdg4y5r3zarvary0c5xw7kv8f3t4" in
  to_output_script real BitcoinMain s = Ok (template P2WPKH h20) /\ parse_hash real BitcoinMain s = Ok h20.
Proof. vm_compute. repeat split; reflexivity. Qed.

(* The full statement fails: BIP173 allows an address in capitals (QR codes use
   it), and its hash comes back with the length byte in front; a script hash of
   bitcoin cash under version 8 in Base58 has no hash at all *)
Theorem payment_hash_refuted :
  (exists s, to_output_script real BitcoinMain s = Ok (template P2WPKH h20) /\ parse_hash real BitcoinMain s = Ok (20 :: h20)) /\
  (exists s, to_output_script real BitcoinCashMain s = Ok (template P2SH h20) /\ parse_hash real BitcoinCashMain s = Err ValueError).
Proof.
  split.
  - exists (lit "BC1QW508D6QEJXTDG4Y5R3ZARVARY0C5XW7KV8F3T4"). split; vm_compute; reflexivity.
  - exists (lit "4QP6S2Gv3WZmgnJgR8mshrbHA9W6hQiTxR"). split; vm_compute; reflexivity.
Qed.
Print Assumptions payment_hash_refuted.

(* C75, full statement: a bech32 address of witness version 1 to 16 never yields a
   script of another kind (the library does not know these versions, so it must
   refuse).  What it yields: *)
Theorem higher_witness_script : forall H name net s hrp v prog,
  hashes_ok H -> get_network name = Ok net -> SEGWIT_ENCODER net = Enc_bech32 -> BECH32_HRP net = Some hrp ->
  witness_program v prog -> v <> 0 -> one_case s -> segwit_address hrp v prog (lower s) ->
  (forall p, ~ base58check_of H name p s) ->
  to_output_script H net s =
    match taken_for name v with
    | Some k => if len prog =? 19 then Ok (template k (19 :: prog)) else Err ValueError
    | None => Err ValueError
    end.
Proof. intros H name net s hrp v prog K En. exact (higher_witness_lemma H name net K En s hrp v prog). Qed.
Print Assumptions higher_witness_script.
Example higher_witness_script_ex :
  let prog := map Z.of_nat (seq 1 19) in
  bech32_net_encode BitcoinMain (witness_bytes 5 prog) = Ok (Some (lit "bc19qypqxpq9qcrsszg2pvxq6rs0zqg3yycxppzq4")) /\
  to_output_script real BitcoinMain (lit "bc19qypqxpq9qcrsszg2pvxq6rs0zqg3yycxppzq4") = Ok (template P2SH (19 :: prog)) /\
  to_output_script real FeathercoinMain (lit "fc1wqypqxpq9qcrsszg2pvxq6rs0zqg3yyc3csr99") = Ok (template P2PKH (19 :: prog)) /\
  to_output_script real BitcoinMain (lit "bc1pw508d6qejxtdg4y5r3zarvary0c5xw7kw508d6qejxtdg4y5r3zarvary0c5xw7k7grplx") = Err ValueError.
Proof. vm_compute. repeat split; reflexivity. Qed.

(* C75, what is true of it: everywhere but on three networks, and for programs of
   any length but 19, these addresses are refused *)
Theorem higher_witness_refused_partial : forall H name net s hrp v prog,
  hashes_ok H -> get_network name = Ok net -> SEGWIT_ENCODER net = Enc_bech32 -> BECH32_HRP net = Some hrp ->
  witness_program v prog -> v <> 0 -> one_case s -> segwit_address hrp v prog (lower s) ->
  (forall p, ~ base58check_of H name p s) ->
  ~ In name [lit "bitcoin_main"; lit "vertcoin_main"; lit "feathercoin_main"] \/ len prog <> 19 \/ v = 1 ->
  to_output_script H net s = Err ValueError.
Proof.
  intros H name net s hrp v prog K En Ee Eh W Nv C A NB X.
  rewrite (higher_witness_lemma H name net K En s hrp v prog Ee Eh W Nv C A NB).
  destruct X as [X|[X|X]].
  - assert (taken_for name v = None) as ->; [|reflexivity]. unfold taken_for, existsb.
    assert (forall y, In y [lit "bitcoin_main"; lit "vertcoin_main"; lit "feathercoin_main"] -> leqb name y = false) as F.
    { intros y I. destruct (leqb name y) eqn:Q; [|reflexivity]. apply leqb_eq in Q. subst y. contradiction. }
    rewrite !F by (cbn [In]; auto). reflexivity.
  - destruct (Z.eqb_spec (len prog) 19); [contradiction|]. destruct (taken_for name v); reflexivity.
  - subst v. unfold taken_for. change (1 =? 5) with false. change (1 =? 14) with false. cbv iota.
    destruct (existsb _ _); [reflexivity|]. destruct (leqb _ _); reflexivity.
Qed.
Print Assumptions higher_witness_refused_partial.

(* The full statement fails for every 19-byte program of version 5 on bitcoin: the
   script pays to a "script hash" that is the length byte and the program.  (Or
   the address is Base58Check by accident, and is refused.) *)
Theorem higher_witness_refuted : forall H prog, hashes_ok H -> all_bytes prog -> len prog = 19 ->
  exists s, bech32_net_encode BitcoinMain (witness_bytes 5 prog) = Ok (Some s) /\
    segwit_address (lit "bc") 5 prog s /\
    (to_output_script H BitcoinMain s = Ok (template P2SH (19 :: prog)) \/
     to_output_script H BitcoinMain s = Err ValueError /\ exists p, base58check_of H (lit "bitcoin_main") p s).
Proof.
  intros H prog K B L.
  assert (get_network (lit "bitcoin_main") = Ok BitcoinMain) as En by reflexivity.
  assert (witness_program 5 prog) as W by (split; [lia|split; [exact B|split; [lia|lia]]]).
  destruct (encode_decode_lemma _ _ (lit "bc") 5 prog En eq_refl W) as [s [E [A D]]]. exists s.
  split; [exact E|]. split; [exact A|].
  pose proof (good_hrps _ _ _ En (eq_refl : BECH32_HRP BitcoinMain = Some (lit "bc"))) as [_ [Gl _]].
  pose proof (segwit_address_lower _ 5 prog s Gl A) as Lo.
  destruct (base58_total H (lit "bitcoin_main") BitcoinMain K En s) as [[p Ep]|Ep].
  - right. apply (base58_text H (lit "bitcoin_main") BitcoinMain K En) in Ep. split; [|eauto].
    rewrite to_output_script_unfold, (parse_base58 H _ _ K En s p Ep). cbn [bind].
    destruct (script_of_cases _ BitcoinMain p (shapes _ _ En)) as [[sc [_ P]]|[Q _]]; [|exact Q].
    exfalso. refine (accident H (lit "bitcoin_main") BitcoinMain K En (lit "bc") 5 prog p s sc eq_refl _ Ep _ P).
    + rewrite Lo. exact A.
    + left. change (19 <= len prog <= 20). lia.
  - left. rewrite (higher_witness_lemma H (lit "bitcoin_main") BitcoinMain K En s (lit "bc") 5 prog); try assumption; try reflexivity.
    + rewrite L. reflexivity.
    + lia.
    + left. exact Lo.
    + rewrite Lo. exact A.
    + intros p Q. apply (base58_text H (lit "bitcoin_main") BitcoinMain K En) in Q. congruence.
Qed.
Print Assumptions higher_witness_refuted.
