(* C69: VarInt.from_bytes on every byte string, VarInt with every length *)
From Coq Require Import String.
From Verif Require Import Py MNet MUtils MShared SNum SNet LBase LVarint LVarRead.
Open Scope list_scope.
Open Scope Z_scope.

(* x: the bytes that are read as the number.  padded: their upper half, as announced by the
   first byte, is zero *)
Theorem VarInt_reads_exactly : forall name net first rest, get_network name = Ok net -> all_bytes (first :: rest) ->
  let x := if first <? 253 then [first] else firstn (Z.to_nat (compactsize_width first - 1)) rest in
  let padded := 253 <= first /\ exists p, x = p ++ repeat 0 (Z.to_nat ((compactsize_width first - 1) / 2)) in
  let r := VarInt_from_bytes net (first :: rest) in
  (~ In (len x) [1; 2; 4; 8] -> r = Err ValueError) /\
  (In (len x) [1; 2; 4; 8] ->
    (~ padded -> r = Ok {| vi_number := le_value x; vi_bytes := compactsize (le_value x) |}) /\
    (padded -> In name upgraded_zcash -> r = Err ValueError) /\
    (padded -> ~ In name upgraded_zcash ->
      r = Ok {| vi_number := le_value x; vi_bytes := if le_value x <=? 252 then le_value x :: repeat 0 (length x) else compactsize (le_value x) |})).
Proof. exact varint_reads. Qed.
Print Assumptions VarInt_reads_exactly.
Example VarInt_reads_exactly_ex :
  VarInt_from_bytes BitcoinMain [254; 1; 2; 3] = Err ValueError /\
  VarInt_from_bytes BitcoinMain [254; 44; 1] = Ok {| vi_number := 300; vi_bytes := [253; 44; 1] |} /\
  VarInt_from_bytes BitcoinMain [255; 0; 0; 0; 0] = Ok {| vi_number := 0; vi_bytes := [0; 0; 0; 0; 0] |} /\
  VarInt_from_bytes ZcashSaplingMain [255; 0; 0; 0; 0] = Err ValueError /\
  VarInt_from_bytes ZcashSaplingMain [255; 9; 0; 0; 0] = Ok {| vi_number := 9; vi_bytes := [9] |}.
Proof. repeat split. Qed.

(* the length argument pads numbers up to 252, and is ignored for larger ones if it is
   large enough *)
Theorem VarInt_with_length : forall n l, 0 <= n < 2 ^ 64 -> l <> 3 \/ n < 2 ^ 16 -> l <> 5 \/ n < 2 ^ 32 ->
  VarInt n (Some l) = Ok {| vi_number := n; vi_bytes := if n <=? 252 then n :: repeat 0 (Z.to_nat (l - 1)) else compactsize n |}.
Proof. intros n l. exact (varint_some n l). Qed.
Print Assumptions VarInt_with_length.
Example VarInt_with_length_ex : VarInt 7 (Some 3) = Ok {| vi_number := 7; vi_bytes := [7; 0; 0] |} /\
  VarInt 300 (Some 9) = Ok {| vi_number := 300; vi_bytes := [253; 44; 1] |}.
Proof. split; reflexivity. Qed.

(* otherwise the marker of that length comes before all bytes of the number *)
Theorem VarInt_short_length : forall n, 2 ^ 16 <= n < 2 ^ 64 ->
  (exists b, VarInt n (Some 3) = Ok {| vi_number := n; vi_bytes := 253 :: b |} /\ all_bytes b /\ 3 <= len b /\ le_value b = n) /\
  (2 ^ 32 <= n -> exists b, VarInt n (Some 5) = Ok {| vi_number := n; vi_bytes := 254 :: b |} /\ all_bytes b /\ 5 <= len b /\ le_value b = n).
Proof. exact varint_short. Qed.
Print Assumptions VarInt_short_length.
Example VarInt_short_length_ex : VarInt 65536 (Some 3) = Ok {| vi_number := 65536; vi_bytes := [253; 0; 0; 1] |} /\
  VarInt (2 ^ 32) (Some 5) = Ok {| vi_number := 2 ^ 32; vi_bytes := [254; 0; 0; 0; 0; 1] |}.
Proof. split; reflexivity. Qed.
