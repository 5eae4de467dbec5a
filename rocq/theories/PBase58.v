(* Properties C06 and C07: Base58 and Base58Check *)
From Coq Require Import String.
From Verif Require Import Py MNet MUtils MBase58 SNum SBase58 SHash SNet LBase LBase58.
Open Scope list_scope.
Open Scope Z_scope.

(* C06: every byte string has a text, and it is the Base58 text of that number
   with one '1' per leading zero byte *)
Theorem base58_encode_text : forall H net b, all_bytes b ->
  exists s, base58_encode H net b false = Ok s /\ base58_of b s.
Proof. exact encode_raw. Qed.
Print Assumptions base58_encode_text.
Example base58_encode_ex : base58_encode toy BitcoinMain [0; 0; 1; 2] false = Ok (lit "115T").
Proof. reflexivity. Qed.

(* C06: decoding returns exactly the byte string that the text spells *)
Theorem base58_decode_text : forall H net s b,
  base58_decode H net s false = Ok b <-> all_bytes b /\ base58_of b s.
Proof. exact decode_raw_spec. Qed.
Print Assumptions base58_decode_text.
Example base58_decode_ex : base58_decode toy BitcoinMain (lit "115T") false = Ok [0; 0; 1; 2].
Proof. reflexivity. Qed.

Theorem base58_decode_after_encode : forall H net b s,
  all_bytes b -> base58_encode H net b false = Ok s -> base58_decode H net s false = Ok b.
Proof. exact decode_encode_raw. Qed.
Print Assumptions base58_decode_after_encode.
Example base58_decode_after_encode_ex :
  base58_encode toy BitcoinMain [0; 255; 0] false = Ok (lit "1LQX") /\
  base58_decode toy BitcoinMain (lit "1LQX") false = Ok [0; 255; 0].
Proof. split; reflexivity. Qed.

Theorem base58_encode_after_decode : forall H net s b,
  base58_decode H net s false = Ok b -> all_bytes b /\ base58_encode H net b false = Ok s.
Proof. exact encode_decode_raw. Qed.
Print Assumptions base58_encode_after_decode.
Example base58_encode_after_decode_ex : base58_decode toy BitcoinMain (lit "1z") false = Ok [0; 57].
Proof. reflexivity. Qed.

(* C06: ValueError exactly on a character outside the alphabet *)
Theorem base58_decode_refuses : forall H net s,
  ((exists c, In c s /\ ~ In c b58_digits) <-> base58_decode H net s false = Err ValueError).
Proof. exact decode_raw_error. Qed.
Print Assumptions base58_decode_refuses.
Theorem base58_decode_no_other_error : forall H net s,
  (exists b, base58_decode H net s false = Ok b) \/ base58_decode H net s false = Err ValueError.
Proof. exact decode_raw_total. Qed.
Print Assumptions base58_decode_no_other_error.
Example base58_decode_refuses_ex : base58_decode toy BitcoinMain (lit "10") false = Err ValueError.
Proof. reflexivity. Qed.

(* C07: the text with checksum is the text of the payload followed by the first
   four bytes of its double hash *)
Theorem base58check_text : forall H name net b s,
  hashes_ok H -> get_network name = Ok net -> all_bytes b ->
  encode_with_checksum H net b = Ok s <->
  base58_of (b ++ firstn 4 (if in_dec list_eq_dec_Z name decred_names then blake256d H b else sha256d H b)) s.
Proof. exact base58check_text_lemma. Qed.
Print Assumptions base58check_text.
Example base58check_text_ex :
  hashes_ok toy /\ get_network (lit "bitcoin_main") = Ok BitcoinMain /\
  encode_with_checksum toy BitcoinMain [5; 6] = Ok (lit "3W8LdR11").
Proof. split; [exact toy_ok|split; vm_compute; reflexivity]. Qed.

Theorem base58check_decode_after_encode : forall H net b, hashes_ok H -> all_bytes b ->
  exists s, encode_with_checksum H net b = Ok s /\ decode_with_checksum H net s = Ok b.
Proof. exact decode_encode_check. Qed.
Print Assumptions base58check_decode_after_encode.
Example base58check_decode_after_encode_ex :
  hashes_ok toy /\ all_bytes [5; 6] /\
  encode_with_checksum toy BitcoinMain [5; 6] = Ok (lit "3W8LdR11") /\
  decode_with_checksum toy BitcoinMain (lit "3W8LdR11") = Ok [5; 6].
Proof. split; [exact toy_ok|split; [repeat constructor; discriminate|split; vm_compute; reflexivity]]. Qed.

(* C07: a string decodes only if it is the encoding of the result *)
Theorem base58check_exact : forall H net s b, hashes_ok H ->
  decode_with_checksum H net s = Ok b <-> all_bytes b /\ encode_with_checksum H net b = Ok s.
Proof. exact decode_checksum_spec. Qed.
Print Assumptions base58check_exact.
Theorem base58check_no_other_error : forall H net s,
  (exists b, decode_with_checksum H net s = Ok b) \/ decode_with_checksum H net s = Err ValueError.
Proof. exact decode_checksum_total. Qed.
Print Assumptions base58check_no_other_error.
Example base58check_exact_ex :
  decode_with_checksum toy BitcoinMain (lit "3W8LdR11") = Ok [5; 6] /\
  decode_with_checksum toy BitcoinMain (lit "3W8LdR12") = Err ValueError.
Proof. split; vm_compute; reflexivity. Qed.

Theorem has_checksum_exact : forall H net s, hashes_ok H ->
  (has_checksum H net s = Ok true <-> exists b, all_bytes b /\ encode_with_checksum H net b = Ok s) /\
  (has_checksum H net s = Ok true \/ has_checksum H net s = Ok false).
Proof. exact has_checksum_spec. Qed.
Print Assumptions has_checksum_exact.
Example has_checksum_ex :
  has_checksum toy BitcoinMain (lit "3W8LdR11") = Ok true /\ has_checksum toy BitcoinMain (lit "0") = Ok false.
Proof. split; vm_compute; reflexivity. Qed.
