(* BLAKE, from "SHA-3 proposal BLAKE" (Aumasson, Henzen, Meier, Phan; version 1.3,
   16 December 2010), chapter 2.  Independent of the model. *)
From Coq Require Import List ZArith.
From Verif Require Import SNum.
Import ListNotations.
Open Scope Z_scope.

(** * Constants *)

(* the first 1024 bits of the fractional part of pi *)
Definition pi_bits : Z := 0x243F6A8885A308D313198A2E03707344A4093822299F31D0082EFA98EC4E6C89452821E638D01377BE5466CF34E90C6CC0AC29B7C97C50DD3F84D5B5B54709179216D5D98979FB1BD1310BA698DFB5AC2FFD72DBD01ADFB7B8E1AFED6A267E96BA7C9045F12C7F9924A19947B3916CF70801F2E2858EFC16636920D871574E69.
Definition pi_word (w : Z) (i : nat) : Z := (pi_bits / 2 ^ (1024 - w * (Z.of_nat i + 1))) mod 2 ^ w.

(* initial values are those of SHA-2: bits of the fractional parts of the square
   roots of primes *)
Definition root_bits (bits prime : Z) : Z := Z.sqrt (prime * 2 ^ (2 * bits)) mod 2 ^ bits.
Definition primes : list Z := [2; 3; 5; 7; 11; 13; 17; 19].
Definition next_primes : list Z := [23; 29; 31; 37; 41; 43; 47; 53].

(* the ten permutations; sigma r is the permutation of round r *)
Definition permutations : list (list nat) := [
  [ 0; 1; 2; 3; 4; 5; 6; 7; 8; 9;10;11;12;13;14;15];
  [14;10; 4; 8; 9;15;13; 6; 1;12; 0; 2;11; 7; 5; 3];
  [11; 8;12; 0; 5; 2;15;13;10;14; 3; 6; 7; 1; 9; 4];
  [ 7; 9; 3; 1;13;12;11;14; 2; 6; 5;10; 4; 0;15; 8];
  [ 9; 0; 5; 7; 2; 4;10;15;14; 1;11;12; 6; 8; 3;13];
  [ 2;12; 6;10; 0;11; 8; 3; 4;13; 7; 5;15;14; 1; 9];
  [12; 5; 1;15;14;13; 4;10; 0; 7; 6; 3; 9; 2; 8;11];
  [13;11; 7;14;12; 1; 3; 9; 5; 0;15; 4; 8; 6; 2;10];
  [ 6;15;14; 9;11; 3; 0; 8;12; 2;13; 7; 1; 4;10; 5];
  [10; 2; 8; 4; 7; 6; 1; 5;15;11; 9;14; 3;12;13; 0]]%nat.
Definition sigma (r i : nat) : nat := nth i (nth (r mod 10) permutations []) 0%nat.

(** * The four functions *)

Record variant := {
  word : Z;                        (* bits of a word *)
  rounds : nat;
  r1 : Z; r2 : Z; r3 : Z; r4 : Z;  (* rotations *)
  iv : list Z;
  final_bit : Z;                   (* the bit before the length *)
  digest_bytes : Z
}.
Definition variant32 (bytes bit : Z) (iv : list Z) : variant :=
  {| word := 32; rounds := 14; r1 := 16; r2 := 12; r3 := 8; r4 := 7; iv := iv; final_bit := bit; digest_bytes := bytes |}.
Definition variant64 (bytes bit : Z) (iv : list Z) : variant :=
  {| word := 64; rounds := 16; r1 := 32; r2 := 25; r3 := 16; r4 := 11; iv := iv; final_bit := bit; digest_bytes := bytes |}.
Definition BLAKE256 : variant := variant32 32 1 (map (root_bits 32) primes).
Definition BLAKE512 : variant := variant64 64 1 (map (root_bits 64) primes).
Definition BLAKE384 : variant := variant64 48 0 (map (root_bits 64) next_primes).
(* the low halves of the words of BLAKE-384 *)
Definition BLAKE224 : variant := variant32 28 0 (map (fun p => root_bits 64 p mod 2 ^ 32) next_primes).

Inductive variant_of : Z -> variant -> Prop :=
  | v224 : variant_of 224 BLAKE224
  | v256 : variant_of 256 BLAKE256
  | v384 : variant_of 384 BLAKE384
  | v512 : variant_of 512 BLAKE512.

Section Blake.
Variable V : variant.

Definition word_bytes : Z := word V / 8.
Definition block_bytes : Z := 16 * word_bytes.

(* arithmetic of words *)
Definition plus (x y : Z) : Z := (x + y) mod 2 ^ word V.
Definition rotate (x n : Z) : Z := (x mod 2 ^ n) * 2 ^ (word V - n) + x / 2 ^ n.
Definition word_at (l : list Z) (i : nat) : Z := nth i l 0.

(* a string of bytes as words, most significant byte first *)
Definition be_value (l : list Z) : Z := le_value (rev l).
Definition words (n : nat) (block : list Z) : list Z :=
  map (fun i => be_value (firstn (Z.to_nat word_bytes) (skipn (i * Z.to_nat word_bytes) block))) (seq 0 n).
Definition be_bytes (n : Z) (x : Z) : list Z := rev (le_bytes (Z.to_nat n) x).

(** * Compression *)

Definition quad : Type := Z * Z * Z * Z.
(* G_i in round r on the message m *)
Definition G (m : list Z) (r i : nat) (q : quad) : quad :=
  let '(a, b, c, d) := q in
  let j := sigma r (2 * i) in
  let k := sigma r (2 * i + 1) in
  let a := plus (plus a b) (Z.lxor (word_at m j) (pi_word (word V) k)) in
  let d := rotate (Z.lxor d a) (r1 V) in
  let c := plus c d in
  let b := rotate (Z.lxor b c) (r2 V) in
  let a := plus (plus a b) (Z.lxor (word_at m k) (pi_word (word V) j)) in
  let d := rotate (Z.lxor d a) (r3 V) in
  let c := plus c d in
  let b := rotate (Z.lxor b c) (r4 V) in
  (a, b, c, d).

(* the state: the columns of the four by four matrix v0..v15 *)
Definition state : Type := quad * quad * quad * quad.
Definition round (m : list Z) (s : state) (r : nat) : state :=
  let '(x0, x1, x2, x3) := s in
  (* columns *)
  let '(v0, v4, v8, v12) := G m r 0 x0 in
  let '(v1, v5, v9, v13) := G m r 1 x1 in
  let '(v2, v6, v10, v14) := G m r 2 x2 in
  let '(v3, v7, v11, v15) := G m r 3 x3 in
  (* diagonals *)
  let '(v0, v5, v10, v15) := G m r 4 (v0, v5, v10, v15) in
  let '(v1, v6, v11, v12) := G m r 5 (v1, v6, v11, v12) in
  let '(v2, v7, v8, v13) := G m r 6 (v2, v7, v8, v13) in
  let '(v3, v4, v9, v14) := G m r 7 (v3, v4, v9, v14) in
  ((v0, v4, v8, v12), (v1, v5, v9, v13), (v2, v6, v10, v14), (v3, v7, v11, v15)).

(* chain value h, salt s, counter t of message bits so far, one block *)
Definition compress (h s : list Z) (t : Z) (block : list Z) : list Z :=
  let m := words 16 block in
  let c i := pi_word (word V) i in
  let t0 := t mod 2 ^ word V in
  let t1 := t / 2 ^ word V in
  let start : state :=
    ((word_at h 0, word_at h 4, Z.lxor (word_at s 0) (c 0%nat), Z.lxor t0 (c 4%nat)),
     (word_at h 1, word_at h 5, Z.lxor (word_at s 1) (c 1%nat), Z.lxor t0 (c 5%nat)),
     (word_at h 2, word_at h 6, Z.lxor (word_at s 2) (c 2%nat), Z.lxor t1 (c 6%nat)),
     (word_at h 3, word_at h 7, Z.lxor (word_at s 3) (c 3%nat), Z.lxor t1 (c 7%nat))) in
  let '((v0, v4, v8, v12), (v1, v5, v9, v13), (v2, v6, v10, v14), (v3, v7, v11, v15)) :=
    fold_left (round m) (seq 0 (rounds V)) start in
  let xor h s v v' := Z.lxor (Z.lxor (Z.lxor h s) v) v' in
  [xor (word_at h 0) (word_at s 0) v0 v8; xor (word_at h 1) (word_at s 1) v1 v9;
   xor (word_at h 2) (word_at s 2) v2 v10; xor (word_at h 3) (word_at s 3) v3 v11;
   xor (word_at h 4) (word_at s 0) v4 v12; xor (word_at h 5) (word_at s 1) v5 v13;
   xor (word_at h 6) (word_at s 2) v6 v14; xor (word_at h 7) (word_at s 3) v7 v15].

(** * Padding and iteration *)

(* a 1 bit, 0 bits, the final bit, and the length in bits as two words; in
   whole bytes *)
Definition length_bytes : Z := 2 * word_bytes.
Definition marks (k : nat) : list Z :=
  match k with
  | 1%nat => [128 + final_bit V]
  | _ => [128] ++ repeat 0 (k - 2) ++ [final_bit V]
  end.
(* the number of bytes between 1 and block_bytes that completes the last block *)
Definition mark_bytes (n : Z) : Z := block_bytes - (n + length_bytes) mod block_bytes.
Definition pad (msg : list Z) : list Z :=
  msg ++ marks (Z.to_nat (mark_bytes (len msg))) ++ be_bytes length_bytes (8 * len msg).

(* block number i *)
Definition block (l : list Z) (i : nat) : list Z :=
  firstn (Z.to_nat block_bytes) (skipn (i * Z.to_nat block_bytes) l).
(* the number of message bits in blocks 0..i, or 0 when block i has none *)
Definition counter (bits : Z) (i : nat) : Z :=
  let per_block := 8 * block_bytes in
  if bits <=? Z.of_nat i * per_block then 0 else Z.min bits ((Z.of_nat i + 1) * per_block).

Definition blake_digest (salt msg : list Z) : list Z :=
  let p := pad msg in
  let n := Z.to_nat (len p / block_bytes) in
  let h := fold_left (fun h i => compress h salt (counter (8 * len msg) i) (block p i)) (seq 0 n) (iv V) in
  firstn (Z.to_nat (digest_bytes V)) (concat (map (be_bytes word_bytes) h)).

Definition no_salt : list Z := [0; 0; 0; 0].
(* the longest message: its length in bits fits in two words *)
Definition message_fits (msg : list Z) : Prop := 8 * len msg < 2 ^ (2 * word V).
End Blake.

(* a salt of four words, from the last bytes of a string that is long enough *)
Definition salt_words (V : variant) (salt : list Z) : list Z :=
  words V 4 (skipn (length salt - Z.to_nat (4 * word_bytes V)) salt).
