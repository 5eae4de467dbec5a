(* SHA-256 (FIPS 180-4), RIPEMD-160 (Dobbertin, Bosselaers, Preneel, 1996) and
   BLAKE2b with personalisation (RFC 7693), the functions hashlib provides.  They
   are used to run the model on known data; the theorems hold for any functions. *)
From Coq Require Import List ZArith.
From Verif Require Import Py SBlake MUtils.
Import ListNotations.
Open Scope Z_scope.

Definition add32 (a b : Z) : Z := (a + b) mod 2 ^ 32.
Definition rotl32 (x n : Z) : Z := Z.lor (Z.shiftl x n mod 2 ^ 32) (Z.shiftr x (32 - n)).
Definition rotr32 (x n : Z) : Z := rotl32 x (32 - n).
Definition not32 (x : Z) : Z := 2 ^ 32 - 1 - x.

(* cut l n k: k consecutive pieces of n bytes *)
Fixpoint cut (n k : nat) (l : bytes) : list bytes :=
  match k with O => [] | S k' => firstn n l :: cut n k' (skipn n l) end.

(* message, bit 1, zeros, 64-bit length, to a multiple of 64 bytes *)
Definition md_pad (length_field : bytes) (m : bytes) : bytes :=
  m ++ [128] ++ repeat 0 (Z.to_nat ((55 - zlen m) mod 64)) ++ length_field.
Definition blocks64 (l : bytes) : list bytes := cut 64 (Nat.div (length l) 64) l.

(** * SHA-256 *)

Definition sha256_k : list Z := [
  0x428a2f98;0x71374491;0xb5c0fbcf;0xe9b5dba5;0x3956c25b;0x59f111f1;0x923f82a4;0xab1c5ed5;
  0xd807aa98;0x12835b01;0x243185be;0x550c7dc3;0x72be5d74;0x80deb1fe;0x9bdc06a7;0xc19bf174;
  0xe49b69c1;0xefbe4786;0x0fc19dc6;0x240ca1cc;0x2de92c6f;0x4a7484aa;0x5cb0a9dc;0x76f988da;
  0x983e5152;0xa831c66d;0xb00327c8;0xbf597fc7;0xc6e00bf3;0xd5a79147;0x06ca6351;0x14292967;
  0x27b70a85;0x2e1b2138;0x4d2c6dfc;0x53380d13;0x650a7354;0x766a0abb;0x81c2c92e;0x92722c85;
  0xa2bfe8a1;0xa81a664b;0xc24b8b70;0xc76c51a3;0xd192e819;0xd6990624;0xf40e3585;0x106aa070;
  0x19a4c116;0x1e376c08;0x2748774c;0x34b0bcb5;0x391c0cb3;0x4ed8aa4a;0x5b9cca4f;0x682e6ff3;
  0x748f82ee;0x78a5636f;0x84c87814;0x8cc70208;0x90befffa;0xa4506ceb;0xbef9a3f7;0xc67178f2].

Definition sha256_iv : list Z := map (root_bits 32) primes.

(* the message schedule; ws is reversed: the newest word first *)
Fixpoint sha256_schedule (n : nat) (ws : list Z) : list Z :=
  match n with
  | O => rev ws
  | S n' =>
      let w2 := nth 1 ws 0 in let w7 := nth 6 ws 0 in let w15 := nth 14 ws 0 in let w16 := nth 15 ws 0 in
      let s0 := Z.lxor (Z.lxor (rotr32 w15 7) (rotr32 w15 18)) (Z.shiftr w15 3) in
      let s1 := Z.lxor (Z.lxor (rotr32 w2 17) (rotr32 w2 19)) (Z.shiftr w2 10) in
      sha256_schedule n' ((w16 + s0 + w7 + s1) mod 2 ^ 32 :: ws)
  end.

Definition sha256_round (st : list Z) (kw : Z * Z) : list Z :=
  match st with
  | [a; b; c; d; e; f; g; h] =>
      let s1 := Z.lxor (Z.lxor (rotr32 e 6) (rotr32 e 11)) (rotr32 e 25) in
      let ch := Z.lxor (Z.land e f) (Z.land (not32 e) g) in
      let t1 := h + s1 + ch + fst kw + snd kw in
      let s0 := Z.lxor (Z.lxor (rotr32 a 2) (rotr32 a 13)) (rotr32 a 22) in
      let maj := Z.lxor (Z.lxor (Z.land a b) (Z.land a c)) (Z.land b c) in
      [(t1 + s0 + maj) mod 2 ^ 32; a; b; c; add32 d t1; e; f; g]
  | _ => st
  end.

Definition sha256_block (st : list Z) (block : bytes) : list Z :=
  let ws := sha256_schedule 48 (rev (map (from_bytes true false) (cut 4 16 block))) in
  map (fun p => add32 (fst p) (snd p)) (combine st (fold_left sha256_round (combine sha256_k ws) st)).

Definition real_sha256 (m : bytes) : bytes :=
  let p := md_pad (rev (to_le 8 (8 * zlen m))) m in
  concat (map (fun w => rev (to_le 4 w)) (fold_left sha256_block (blocks64 p) sha256_iv)).

(** * RIPEMD-160 *)

Definition rmd_r : list (list nat) := [
  [0;1;2;3;4;5;6;7;8;9;10;11;12;13;14;15];
  [7;4;13;1;10;6;15;3;12;0;9;5;2;14;11;8];
  [3;10;14;4;9;15;8;1;2;7;0;6;13;11;5;12];
  [1;9;11;10;0;8;12;4;13;3;7;15;14;5;6;2];
  [4;0;5;9;7;12;2;10;14;1;3;8;11;6;15;13]]%nat.
Definition rmd_r' : list (list nat) := [
  [5;14;7;0;9;2;11;4;13;6;15;8;1;10;3;12];
  [6;11;3;7;0;13;5;10;14;15;8;12;4;9;1;2];
  [15;5;1;3;7;14;6;9;11;8;12;2;10;0;4;13];
  [8;6;4;1;3;11;15;0;5;12;2;13;9;7;10;14];
  [12;15;10;4;1;5;8;7;6;2;13;14;0;3;9;11]]%nat.
Definition rmd_s : list (list Z) := [
  [11;14;15;12;5;8;7;9;11;13;14;15;6;7;9;8];
  [7;6;8;13;11;9;7;15;7;12;15;9;11;7;13;12];
  [11;13;6;7;14;9;13;15;14;8;13;6;5;12;7;5];
  [11;12;14;15;14;15;9;8;9;14;5;6;8;6;5;12];
  [9;15;5;11;6;8;13;12;5;12;13;14;11;8;5;6]].
Definition rmd_s' : list (list Z) := [
  [8;9;9;11;13;15;15;5;7;7;8;11;14;14;12;6];
  [9;13;15;7;12;8;9;11;7;7;12;7;6;15;13;11];
  [9;7;15;11;8;6;6;14;12;13;5;14;13;13;7;5];
  [15;5;8;11;14;14;6;14;6;9;12;9;12;5;15;8];
  [8;5;12;9;12;5;14;6;8;13;6;5;15;13;11;11]].
Definition rmd_k : list Z := [0; 0x5a827999; 0x6ed9eba1; 0x8f1bbcdc; 0xa953fd4e].
Definition rmd_k' : list Z := [0x50a28be6; 0x5c4dd124; 0x6d703ef3; 0x7a6d76e9; 0].

Definition rmd_f (j : nat) (x y z : Z) : Z :=
  match j with
  | 0%nat => Z.lxor (Z.lxor x y) z
  | 1%nat => Z.lor (Z.land x y) (Z.land (not32 x) z)
  | 2%nat => Z.lxor (Z.lor x (not32 y)) z
  | 3%nat => Z.lor (Z.land x z) (Z.land y (not32 z))
  | _ => Z.lxor x (Z.lor y (not32 z))
  end.

Definition rmd_step (f : Z -> Z -> Z -> Z) (k : Z) (x : list Z) (st : list Z) (rs : nat * Z) : list Z :=
  match st with
  | [a; b; c; d; e] =>
      let t := add32 (rotl32 ((a + f b c d + nth (fst rs) x 0 + k) mod 2 ^ 32) (snd rs)) e in
      [e; t; b; rotl32 c 10; d]
  | _ => st
  end.
Fixpoint rmd_line (fs : list (Z -> Z -> Z -> Z)) (ks : list Z) (r : list (list nat)) (s : list (list Z)) (x st : list Z) : list Z :=
  match fs, ks, r, s with
  | f :: fs, k :: ks, r0 :: r, s0 :: s => rmd_line fs ks r s x (fold_left (rmd_step f k x) (combine r0 s0) st)
  | _, _, _, _ => st
  end.

Definition rmd_block (st : list Z) (block : bytes) : list Z :=
  let x := map from_le (cut 4 16 block) in
  let fs := map rmd_f (seq 0 5) in
  let l := rmd_line fs rmd_k rmd_r rmd_s x st in
  let r := rmd_line (rev fs) rmd_k' rmd_r' rmd_s' x st in
  let h i := nth i st 0 in let a i := nth i l 0 in let b i := nth i r 0 in
  [(h 1%nat + a 2%nat + b 3%nat) mod 2 ^ 32; (h 2%nat + a 3%nat + b 4%nat) mod 2 ^ 32;
   (h 3%nat + a 4%nat + b 0%nat) mod 2 ^ 32; (h 4%nat + a 0%nat + b 1%nat) mod 2 ^ 32;
   (h 0%nat + a 1%nat + b 2%nat) mod 2 ^ 32].

Definition real_rmd160 (m : bytes) : bytes :=
  let p := md_pad (to_le 8 (8 * zlen m)) m in
  concat (map (to_le 4) (fold_left rmd_block (blocks64 p) [0x67452301; 0xefcdab89; 0x98badcfe; 0x10325476; 0xc3d2e1f0])).

(** * BLAKE2b *)

Definition add64 (a b : Z) : Z := (a + b) mod 2 ^ 64.
Definition rotr64 (x n : Z) : Z := Z.lor (Z.shiftr x n) (Z.shiftl x (64 - n) mod 2 ^ 64).
Definition blake2b_iv : list Z := map (root_bits 64) primes.

Definition blake2b_g (v : list Z) (a b c d : nat) (x y : Z) : list Z :=
  let va := add64 (add64 (nth a v 0) (nth b v 0)) x in
  let vd := rotr64 (Z.lxor (nth d v 0) va) 32 in
  let vc := add64 (nth c v 0) vd in
  let vb := rotr64 (Z.lxor (nth b v 0) vc) 24 in
  let va := add64 (add64 va vb) y in
  let vd := rotr64 (Z.lxor vd va) 16 in
  let vc := add64 vc vd in
  let vb := rotr64 (Z.lxor vb vc) 63 in
  set_nth (set_nth (set_nth (set_nth v a va) b vb) c vc) d vd.
Definition blake2b_lanes : list (nat * nat * nat * nat) :=
  [(0, 4, 8, 12); (1, 5, 9, 13); (2, 6, 10, 14); (3, 7, 11, 15);
   (0, 5, 10, 15); (1, 6, 11, 12); (2, 7, 8, 13); (3, 4, 9, 14)]%nat.
Definition blake2b_round (m : list Z) (v : list Z) (r : nat) : list Z :=
  fold_left (fun v '(i, (a, b, c, d)) =>
      blake2b_g v a b c d (nth (sigma r (2 * i)) m 0) (nth (sigma r (2 * i + 1)) m 0))
    (combine (seq 0 8) blake2b_lanes) v.
(* t: bytes so far; f: all ones for the last block *)
Definition blake2b_block (h : list Z) (t f : Z) (block : bytes) : list Z :=
  let m := map from_le (cut 8 16 block) in
  let v := h ++ firstn 4 blake2b_iv ++
    [Z.lxor (nth 4 blake2b_iv 0) (t mod 2 ^ 64); Z.lxor (nth 5 blake2b_iv 0) (t / 2 ^ 64);
     Z.lxor (nth 6 blake2b_iv 0) f; nth 7 blake2b_iv 0] in
  let v := fold_left (blake2b_round m) (seq 0 12) v in
  map (fun i => Z.lxor (nth i h 0) (Z.lxor (nth i v 0) (nth (8 + i) v 0))) (seq 0 8).
Fixpoint blake2b_blocks (h : list Z) (t : Z) (m : bytes) (blocks : list bytes) : list Z :=
  match blocks with
  | [] => h
  | [b] => blake2b_block h (zlen m) (2 ^ 64 - 1) b
  | b :: bs => blake2b_blocks (blake2b_block h (t + 128) 0 b) (t + 128) m bs
  end.
(* no key, no salt, sequential *)
Definition real_blake2b (person : bytes) (size : Z) (m : bytes) : bytes :=
  let p := person ++ repeat 0 (16 - length person) in
  let param := [0x01010000 + size; 0; 0; 0; 0; 0; from_le (firstn 8 p); from_le (skipn 8 p)] in
  let h := map (fun q => Z.lxor (fst q) (snd q)) (combine blake2b_iv param) in
  let padded := m ++ repeat 0 (Z.to_nat (if zlen m =? 0 then 128 else (- zlen m) mod 128)) in
  firstn (Z.to_nat size) (concat (map (to_le 8) (blake2b_blocks h 0 m (cut 128 (Nat.div (length padded) 128) padded)))).

(* hashlib, and the BLAKE-256 that blake256.py computes (blake_hash_exact) *)
Definition real : hashes :=
  {| h_sha256 := real_sha256; h_rmd160 := real_rmd160;
     h_blake256 := blake_digest BLAKE256 no_salt; h_blake2b := real_blake2b |}.
