(* Properties C01 and C02: integers, byte strings, Script numbers *)
From Coq Require Import String.
From Verif Require Import Py MNet MUtils SNum LUtils.
Open Scope list_scope.
Open Scope Z_scope.

(* C01: i2le gives the shortest non-empty little-endian string of each
   non-negative number, OverflowError on each negative one *)
Theorem i2le_shortest_encoding : forall n, 0 <= n ->
  exists b, i2le n = Ok b /\ all_bytes b /\ b <> [] /\ le_value b = n /\
            forall b', all_bytes b' -> b' <> [] -> le_value b' = n -> len b <= len b'.
Proof. exact i2le_exact. Qed.
Print Assumptions i2le_shortest_encoding.
Example i2le_ex : i2le 65536 = Ok [0; 0; 1] /\ i2le 0 = Ok [0].
Proof. split; reflexivity. Qed.

Theorem i2be_shortest_encoding : forall n, 0 <= n ->
  exists b, i2be n = Ok b /\ all_bytes b /\ b <> [] /\ le_value (rev b) = n /\
            forall b', all_bytes b' -> b' <> [] -> le_value (rev b') = n -> len b <= len b'.
Proof. exact i2be_exact. Qed.
Print Assumptions i2be_shortest_encoding.
Example i2be_ex : i2be 65536 = Ok [1; 0; 0].
Proof. reflexivity. Qed.

Theorem negative_ints_overflow : forall n, n < 0 ->
  i2le n = Err OverflowError /\ i2be n = Err OverflowError.
Proof. exact i2le_neg. Qed.
Print Assumptions negative_ints_overflow.
Example negative_ex : i2le (-256) = Err OverflowError.
Proof. reflexivity. Qed.

(* C01: the padded forms have exactly the requested length, or overflow *)
Theorem i2le_padded_spec : forall n k, 0 <= k ->
  (0 <= n < 256 ^ k ->
     exists b, i2le_padded n k = Ok b /\ all_bytes b /\ len b = k /\ le_value b = n) /\
  (~ 0 <= n < 256 ^ k -> i2le_padded n k = Err OverflowError).
Proof. exact i2le_padded_exact. Qed.
Print Assumptions i2le_padded_spec.
Example i2le_padded_ex : i2le_padded 258 4 = Ok [2; 1; 0; 0] /\ i2le_padded 65536 2 = Err OverflowError.
Proof. split; reflexivity. Qed.

Theorem i2be_padded_spec : forall n k, 0 <= k ->
  (0 <= n < 256 ^ k ->
     exists b, i2be_padded n k = Ok b /\ all_bytes b /\ len b = k /\ le_value (rev b) = n) /\
  (~ 0 <= n < 256 ^ k -> i2be_padded n k = Err OverflowError).
Proof. exact i2be_padded_exact. Qed.
Print Assumptions i2be_padded_spec.
Example i2be_padded_ex : i2be_padded 258 4 = Ok [0; 0; 1; 2].
Proof. reflexivity. Qed.

Theorem padded_negative_length : forall n k, k < 0 ->
  i2le_padded n k = Err ValueError /\ i2be_padded n k = Err ValueError.
Proof. exact padded_neg_length. Qed.
Print Assumptions padded_negative_length.
Example padded_negative_length_ex : i2le_padded 1 (-1) = Err ValueError.
Proof. reflexivity. Qed.

(* C01: le2i / be2i read the number a byte string stands for, signed or not *)
Theorem le2i_be2i_value : forall b, all_bytes b ->
  le2i b false = le_value b /\ le2i b true = twos_value b /\
  be2i b false = le_value (rev b) /\ be2i b true = twos_value (rev b).
Proof. exact le2i_value. Qed.
Print Assumptions le2i_be2i_value.
Example le2i_ex : le2i [0; 128] true = -32768 /\ be2i [1; 0] false = 256.
Proof. split; reflexivity. Qed.

Theorem pad_after_read : forall b, all_bytes b ->
  i2le_padded (le2i b false) (len b) = Ok b /\ i2be_padded (be2i b false) (len b) = Ok b.
Proof. exact pad_le2i. Qed.
Print Assumptions pad_after_read.
Example pad_after_read_ex : i2le_padded (le2i [7; 0; 0] false) 3 = Ok [7; 0; 0].
Proof. reflexivity. Qed.

Theorem change_endianness_swaps : forall b,
  change_endianness (change_endianness b) = b /\
  forall signed, le2i (change_endianness b) signed = be2i b signed /\
                 be2i (change_endianness b) signed = le2i b signed.
Proof. exact change_endianness_spec. Qed.
Print Assumptions change_endianness_swaps.
Example change_endianness_ex : change_endianness [1; 2; 3] = [3; 2; 1].
Proof. reflexivity. Qed.

(* C02, for positive numbers: the minimal Script number, and the only one *)
Theorem i2le_script_positive_partial : forall n, 0 < n -> 2 * n < 256 ^ 519 ->
  exists b, i2le_script n = Ok (hex b) /\ all_bytes b /\ scriptnum_minimal b /\
            scriptnum_value b = n /\
            (forall b', all_bytes b' -> scriptnum_minimal b' -> scriptnum_value b' = n -> b' = b).
Proof. exact i2le_script_positive. Qed.
Print Assumptions i2le_script_positive_partial.
Example i2le_script_ex : i2le_script 128 = Ok (lit "8000") /\ i2le_script 127 = Ok (lit "7f").
Proof. split; reflexivity. Qed.

(* C02 is false for zero and for negative numbers: 0 is not the empty string,
   -1 is the empty string (which reads back as 0), -5 reads back as -123 *)
Theorem i2le_script_refuted :
  (i2le_script 0 = Ok (hex [0]) /\ ~ scriptnum_minimal [0]) /\
  (i2le_script (-1) = Ok (hex []) /\ scriptnum_value [] = 0) /\
  (i2le_script (-5) = Ok (hex [251]) /\ scriptnum_value [251] = -123).
Proof.
  split; [split; [reflexivity|]|split; split; reflexivity].
  intros [C|[C|[p [x [y [E _]]]]]]; [discriminate|apply C; reflexivity|].
  destruct p as [|? [|]]; discriminate.
Qed.
Print Assumptions i2le_script_refuted.

(* every negative number below -1 is written in two's complement instead; it
   reads back right only at the numbers -2^(8k-2) *)
Theorem i2le_script_negative_twos_complement : forall n, n < -1 -> - 2 * n - 1 < 256 ^ 519 ->
  exists b, i2le_script n = Ok (hex b) /\ all_bytes b /\ b <> [] /\ twos_value b = n /\
            (scriptnum_value b = n <-> 4 * n = - 256 ^ len b).
Proof. exact i2le_script_negative. Qed.
Print Assumptions i2le_script_negative_twos_complement.
Example i2le_script_neg_ex : i2le_script (-64) = Ok (hex [192]) /\ scriptnum_value [192] = -64.
Proof. split; reflexivity. Qed.

(* numbers that need 520 bytes or more are refused *)
Theorem i2le_script_limit : forall n,
  256 ^ 519 <= 2 * n \/ 256 ^ 519 <= - 2 * n - 1 -> i2le_script n = Err ValueError.
Proof. exact i2le_script_limit_lemma. Qed.
Print Assumptions i2le_script_limit.
Example i2le_script_limit_ex : i2le_script (256 ^ 519) = Err ValueError.
Proof. vm_compute. reflexivity. Qed.
