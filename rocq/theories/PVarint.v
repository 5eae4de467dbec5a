(* Properties C03, C04 and C05: VarInt *)
From Coq Require Import String.
From Verif Require Import Py MNet MUtils MShared SNum SNet LVarint.
Open Scope list_scope.
Open Scope Z_scope.

(* C03 *)
Theorem VarInt_canonical : forall n, 0 <= n < 2 ^ 64 ->
  VarInt n None = Ok {| vi_number := n; vi_bytes := compactsize n |} /\
  compactsize_of (compactsize n) n /\
  forall w, compactsize_of w n -> len (compactsize n) <= len w.
Proof. exact VarInt_canonical_lemma. Qed.
Print Assumptions VarInt_canonical.
Example VarInt_canonical_ex :
  VarInt 252 None = Ok {| vi_number := 252; vi_bytes := [252] |} /\
  VarInt 253 None = Ok {| vi_number := 253; vi_bytes := [253; 253; 0] |} /\
  VarInt 65536 None = Ok {| vi_number := 65536; vi_bytes := [254; 0; 0; 1; 0] |}.
Proof. repeat split. Qed.

Theorem VarInt_rejects : forall n l, ~ 0 <= n < 2 ^ 64 -> VarInt n l = Err ValueError.
Proof. exact VarInt_out_of_range. Qed.
Print Assumptions VarInt_rejects.
Example VarInt_rejects_ex : VarInt (2 ^ 64) None = Err ValueError /\ VarInt (-1) None = Err ValueError.
Proof. split; reflexivity. Qed.

(* C04, with its one exception: 253, 254 and 255 on upgraded Zcash *)
Theorem VarInt_roundtrip_partial : forall name net n rest,
  get_network name = Ok net -> 0 <= n < 2 ^ 64 ->
  ~ In name upgraded_zcash \/ ~ 253 <= n <= 255 ->
  VarInt_from_bytes net (compactsize n ++ rest) = Ok {| vi_number := n; vi_bytes := compactsize n |}.
Proof. exact VarInt_roundtrip_lemma. Qed.
Print Assumptions VarInt_roundtrip_partial.
Example VarInt_roundtrip_ex :
  VarInt_from_bytes BitcoinMain (compactsize 253 ++ [1; 2]) =
    Ok {| vi_number := 253; vi_bytes := [253; 253; 0] |} /\
  VarInt_from_bytes ZcashSaplingMain (compactsize 70000 ++ [1; 2]) =
    Ok {| vi_number := 70000; vi_bytes := [254; 112; 17; 1; 0] |}.
Proof. split; reflexivity. Qed.

(* C04 is false there: the canonical encoding is taken for a non-canonical one *)
Theorem VarInt_roundtrip_refuted : forall name net n rest,
  get_network name = Ok net -> In name upgraded_zcash -> 253 <= n <= 255 ->
  VarInt n None = Ok {| vi_number := n; vi_bytes := compactsize n |} /\
  VarInt_from_bytes net (compactsize n ++ rest) = Err ValueError.
Proof. exact VarInt_roundtrip_refuted_lemma. Qed.
Print Assumptions VarInt_roundtrip_refuted.
Example VarInt_roundtrip_refuted_ex :
  VarInt_from_bytes ZcashOverwinterMain (compactsize 253) = Err ValueError.
Proof. reflexivity. Qed.

(* C05: what is read from each complete encoding, canonical or not.  Outside
   upgraded Zcash everything is accepted with the right number; the length is
   the wire length exactly for canonical encodings and for numbers up to 252. *)
Theorem VarInt_reads_partial : forall name net w n rest,
  get_network name = Ok net -> ~ In name upgraded_zcash -> compactsize_of w n ->
  exists v, VarInt_from_bytes net (w ++ rest) = Ok v /\ vi_number v = n /\
            (len (vi_bytes v) = len w <-> w = compactsize n \/ n <= 252) /\
            (vi_bytes v = w <-> w = compactsize n).
Proof. exact VarInt_reads_lemma. Qed.
Print Assumptions VarInt_reads_partial.
Example VarInt_reads_ex :
  compactsize_of [253; 5; 0] 5 /\
  VarInt_from_bytes BitcoinMain ([253; 5; 0] ++ [9]) = Ok {| vi_number := 5; vi_bytes := [5; 0; 0] |}.
Proof. split; [apply (cs3 [5; 0]); [repeat constructor; discriminate|reflexivity]|reflexivity]. Qed.

(* upgraded Zcash accepts canonical encodings only *)
Theorem VarInt_reads_zcash : forall name net w n rest v,
  get_network name = Ok net -> In name upgraded_zcash -> compactsize_of w n ->
  VarInt_from_bytes net (w ++ rest) = Ok v ->
  w = compactsize n /\ vi_number v = n /\ vi_bytes v = w.
Proof. exact VarInt_reads_zcash_lemma. Qed.
Print Assumptions VarInt_reads_zcash.
Example VarInt_reads_zcash_ex :
  VarInt_from_bytes ZcashSaplingMain [253; 5; 1; 7] = Ok {| vi_number := 261; vi_bytes := [253; 5; 1] |}.
Proof. reflexivity. Qed.

(* C05 is false: a non-canonical five-byte encoding of 300 counts as three bytes,
   and an encoding cut short is accepted *)
Theorem VarInt_wire_length_refuted :
  (exists w rest v, compactsize_of w 300 /\ VarInt_from_bytes BitcoinMain (w ++ rest) = Ok v /\
                    len w = 5 /\ len (vi_bytes v) = 3) /\
  (exists v, compactsize_width 253 = 3 /\ VarInt_from_bytes BitcoinMain [253; 1] = Ok v /\
             vi_number v = 1 /\ len (vi_bytes v) = 1).
Proof. exact VarInt_wire_length_refuted_lemma. Qed.
Print Assumptions VarInt_wire_length_refuted.

(* a string that ends early is refused unless 1, 2 or 4 bytes follow the marker *)
Theorem VarInt_short_input_partial : forall net first x,
  253 <= first <= 255 -> 1 + len x < compactsize_width first ->
  len x <> 1 -> len x <> 2 -> len x <> 4 ->
  VarInt_from_bytes net (first :: x) = Err ValueError.
Proof. exact VarInt_truncated. Qed.
Print Assumptions VarInt_short_input_partial.
Example VarInt_short_input_ex : VarInt_from_bytes BitcoinMain [255; 1; 2; 3; 4; 5] = Err ValueError.
Proof. reflexivity. Qed.

Theorem VarInt_empty_input : forall net, VarInt_from_bytes net [] = Err IndexError.
Proof. exact VarInt_parse_empty. Qed.
Print Assumptions VarInt_empty_input.
