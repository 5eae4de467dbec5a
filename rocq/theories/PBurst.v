(* Properties C98 and C99: damage to a stretch of an address; characters added
   to an address or lost from it *)
From Coq Require Import String.
From Verif Require Import Py MNet MUtils MBech32 MCashaddr MAddr SNum SBits SBch SBech32 SCashaddr SNet SAddr SHash LBase LBurst LPaid.
Open Scope list_scope.
Open Scope Z_scope.

(* C98: whatever happens to up to six consecutive characters after the
   separator, however far from each other the texts are, is noticed *)
Theorem bech32_detects_burst : forall name net hrp p a x x' c b,
  get_network name = Ok net -> BECH32_HRP net = Some hrp -> len p = len hrp + 1 ->
  length x = length x' -> (length x <= 6)%nat -> x <> x' ->
  bech32_net_decode net (p ++ a ++ x ++ c) = Ok b -> bech32_net_decode net (p ++ a ++ x' ++ c) = Err TypeError.
Proof. exact bech32_burst_lemma. Qed.
Print Assumptions bech32_detects_burst.
(* six characters are exchanged, all different from the ones before *)
Example bech32_detects_burst_ex :
  (exists b, bech32_net_decode BitcoinMain (lit "bc1" ++ lit "qw508d6qejx" ++ lit "tdg4y5" ++ lit "r3zarvary0c5xw7kv8f3t4") = Ok b) /\
  hamming (lit "tdg4y5") (lit "5y4gdt") = 6%nat /\
  bech32_net_decode BitcoinMain (lit "bc1" ++ lit "qw508d6qejx" ++ lit "5y4gdt" ++ lit "r3zarvary0c5xw7kv8f3t4") = Err TypeError.
Proof. split; [eexists; vm_compute; reflexivity|split; vm_compute; reflexivity]. Qed.

(* C98: seven would be too many: these two texts are both accepted *)
Theorem bech32_burst_sharp : exists a x x' c b b',
  length x = 7%nat /\ length x' = 7%nat /\ x <> x' /\
  bech32_net_decode BitcoinMain (lit "bc1" ++ a ++ x ++ c) = Ok b /\
  bech32_net_decode BitcoinMain (lit "bc1" ++ a ++ x' ++ c) = Ok b' /\ b <> b'.
Proof.
  exists (lit "qk08ca5f6h"), (lit "uff5vyh"), (lit "a5lqee9"), (lit "4kttgskk6x777jzsnhuqq3").
  eexists. eexists. split; [reflexivity|]. split; [reflexivity|]. split; [discriminate|].
  split; [vm_compute; reflexivity|]. split; [vm_compute; reflexivity|discriminate].
Qed.
Print Assumptions bech32_burst_sharp.

(* C98: for cashaddr eight consecutive characters, in a payload of any length *)
Theorem cashaddr_detects_burst : forall name net prefix a x x' c b,
  get_network name = Ok net -> ~ In 58 prefix ->
  length x = length x' -> (length x <= 8)%nat -> x <> x' ->
  cashaddr_decode net (prefix ++ lit ":" ++ a ++ x ++ c) = Ok b ->
  cashaddr_decode net (prefix ++ lit ":" ++ a ++ x' ++ c) = Err ValueError \/
  cashaddr_decode net (prefix ++ lit ":" ++ a ++ x' ++ c) = Err TypeError.
Proof. exact cashaddr_burst_lemma. Qed.
Print Assumptions cashaddr_detects_burst.
Example cashaddr_detects_burst_ex :
  (exists b, cashaddr_decode BitcoinCashMain (lit "bitcoincash" ++ lit ":" ++ lit "qp63uahgrxged4z5j" ++ lit "swyt5dn5" ++ lit "v3lzsem6cy4spdc2h") = Ok b) /\
  cashaddr_decode BitcoinCashMain (lit "bitcoincash" ++ lit ":" ++ lit "qp63uahgrxged4z5j" ++ lit "5nd5tyws" ++ lit "v3lzsem6cy4spdc2h") = Err ValueError.
Proof. split; [eexists; vm_compute; reflexivity|vm_compute; reflexivity]. Qed.

(* C99, full statement: a SegWit or cashaddr address that lost characters, or had
   some added, is refused.  True for witness version 0, the only version that
   to_output_script pays to, as long as fewer than 20 characters are at stake:
   there are two lengths, 20 apart. *)
Theorem segwit_lengths : forall name net hrp s r,
  get_network name = Ok net -> BECH32_HRP net = Some hrp ->
  bech32_net_decode net s = Ok (0 :: r) -> len s = len hrp + 40 \/ len s = len hrp + 60.
Proof. exact v0_length_lemma. Qed.
Print Assumptions segwit_lengths.
Theorem segwit_added_or_lost_partial : forall name net hrp s s' r r',
  get_network name = Ok net -> BECH32_HRP net = Some hrp ->
  bech32_net_decode net s = Ok (0 :: r) -> 1 <= Z.abs (len s' - len s) < 20 ->
  bech32_net_decode net s' <> Ok (0 :: r').
Proof. exact added_or_lost_lemma. Qed.
Print Assumptions segwit_added_or_lost_partial.
(* the second text is the first with q inserted before its last p: its checksum
   is right, but the length is not *)
Example segwit_added_or_lost_ex :
  (exists r, bech32_net_decode BitcoinMain (lit "bc1q79e4gx6y8z39eamrzt2wav7zy358n0cqmewqfp") = Ok (0 :: r)) /\
  bech32_net_decode BitcoinMain (lit "bc1q79e4gx6y8z39eamrzt2wav7zy358n0cqmewqfqp") = Err TypeError.
Proof. split; [eexists; vm_compute; reflexivity|vm_compute; reflexivity]. Qed.

(* C99: not so for later versions: the two programs of version 1 have 32 and 33
   bytes, and the texts differ by one q *)
Theorem segwit_later_versions_refuted : exists prog,
  len prog = 32 /\
  bech32_net_decode BitcoinMain (lit "bc1p2ga7v4tm2y6dasvks862zvm25g2q6pvh50nv3gxvyqs296fesphqzh84h" ++ lit "p") = Ok (1 :: 32 :: prog) /\
  bech32_net_decode BitcoinMain (lit "bc1p2ga7v4tm2y6dasvks862zvm25g2q6pvh50nv3gxvyqs296fesphqzh84h" ++ lit "qp") = Ok (1 :: 33 :: prog ++ [1]).
Proof. eexists. split; [|split; vm_compute; reflexivity]. reflexivity. Qed.
Print Assumptions segwit_later_versions_refuted.

(* C99: for cashaddr any number of q (113) may be inserted before a last p; the
   bytes decoded before stay at the front *)
Theorem cashaddr_added_q : forall name net prefix t b k,
  get_network name = Ok net -> ~ In 58 prefix ->
  cashaddr_decode net (prefix ++ lit ":" ++ t ++ lit "p") = Ok b ->
  exists more, cashaddr_decode net (prefix ++ lit ":" ++ t ++ repeat 113 k ++ lit "p") = Ok (b ++ more).
Proof. exact q_before_p_lemma. Qed.
Print Assumptions cashaddr_added_q.
Example cashaddr_added_q_ex : exists b,
  cashaddr_decode BitcoinCashMain (lit "bitcoincash" ++ lit ":" ++ lit "qq2t3py7ndrrv3hfz0j0pf47gqrk0zfpasy7wf97e" ++ lit "p") = Ok b.
Proof. eexists. vm_compute. reflexivity. Qed.

(* C99: the number of bytes decoded follows from the length alone, so that an
   address of the library's 21 bytes has 42 characters, or one more *)
Theorem cashaddr_lengths : forall name net prefix t b,
  get_network name = Ok net -> ~ In 58 prefix -> cashaddr_decode net (prefix ++ lit ":" ++ t) = Ok b ->
  len b = Z.max 0 ((5 * len t + 7) / 8 - 6) /\ (len b = 21 <-> len t = 42 \/ len t = 43).
Proof. exact cashaddr_lengths_lemma. Qed.
Print Assumptions cashaddr_lengths.

(* C99: the lengths of all texts with a colon that are paid to; with every other
   length a text that lost characters or gained some is refused *)
Theorem cashaddr_paid_lengths : forall H name net prefix t script,
  hashes_ok H -> get_network name = Ok net -> ~ In 58 prefix ->
  to_output_script H net (prefix ++ lit ":" ++ t) = Ok script ->
  exists k h, script = template k h /\ len h = hash_len k /\
    match k with P2WPKH => len t = 44 | P2WSH => len t = 63 \/ len t = 64 | _ => len t = 42 \/ len t = 43 end.
Proof. exact paid_lengths_lemma. Qed.
Print Assumptions cashaddr_paid_lengths.

(* C99: with one character added in the middle an address stays valid and pays
   to a different hash *)
Theorem cashaddr_added_character_refuted : forall H, exists h h',
  to_output_script H BitcoinCashMain (lit "bitcoincash:" ++ lit "qpygsrjx7yemwn5trc3c" ++ lit "rpdzlu438txwevua9kje82")
    = Ok (template P2PKH h) /\
  to_output_script H BitcoinCashMain (lit "bitcoincash:" ++ lit "qpygsrjx7yemwn5trc3c" ++ lit "8" ++ lit "rpdzlu438txwevua9kje82")
    = Ok (template P2PKH h') /\ len h = 20 /\ len h' = 20 /\ h <> h'.
Proof.
  intros H.
  exists [72; 136; 14; 70; 241; 51; 183; 78; 139; 30; 35; 129; 133; 162; 255; 43; 19; 172; 206; 203],
         [72; 136; 14; 70; 241; 51; 183; 78; 139; 30; 35; 131; 140; 45; 23; 249; 88; 157; 102; 118].
  split; [vm_compute; reflexivity|]. split; [vm_compute; reflexivity|].
  split; [reflexivity|]. split; [reflexivity|discriminate].
Qed.
Print Assumptions cashaddr_added_character_refuted.

(* C99: with two characters added the address of a public key hash pays to a
   witness program, on a network that has no segregated witness *)
Theorem cashaddr_added_two_refuted : forall H, exists h h',
  to_output_script H BitcoinCashMain (lit "bitcoincash:" ++ lit "qq2t3py7ndrrv3hfz0j0pf47gqrk0zfpasy7wf97e" ++ lit "p")
    = Ok (template P2PKH h) /\
  to_output_script H BitcoinCashMain (lit "bitcoincash:" ++ lit "qq2t3py7ndrrv3hfz0j0pf47gqrk0zfpasy7wf97e" ++ lit "qqp")
    = Ok (template P2WPKH h') /\ SEGWIT BitcoinCashMain = false.
Proof.
  intros H.
  exists (20 :: [184; 132; 158; 155; 70; 54; 70; 233; 19; 228; 240; 166; 190; 64; 7; 103; 137; 33; 236]),
         ([184; 132; 158; 155; 70; 54; 70; 233; 19; 228; 240; 166; 190; 64; 7; 103; 137; 33; 236] ++ [9]).
  split; [vm_compute; reflexivity|]. split; vm_compute; reflexivity.
Qed.
Print Assumptions cashaddr_added_two_refuted.
