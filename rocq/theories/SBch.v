(* The checksums of bech32 (BIP173) and cashaddr, specified as polynomial
   arithmetic over the field with 32 elements: no bit tricks. *)
From Coq Require Import List ZArith.
Import ListNotations.
Open Scope Z_scope.

(* GF(32) = GF(2)[x] / (x^5 + x^3 + 1); an element is the number of its bits *)
Definition gf (a : Z) : Prop := 0 <= a < 32.
Definition gf_add (a b : Z) : Z := Z.lxor a b.
(* times x *)
Definition gf_x (a : Z) : Z := if 2 * a <? 32 then 2 * a else Z.lxor (2 * a) 41.
(* a * b = sum over the bits i of a of  x^i * b *)
Definition gf_mul (a b : Z) : Z :=
  fold_right gf_add 0
    (map (fun i => if Z.testbit a (Z.of_nat i) then Nat.iter i gf_x b else 0) (seq 0 5)).

(* A polynomial of degree < n over GF(32): its n coefficients, highest first. *)
Definition poly_add (a b : list Z) : list Z :=
  map (fun p => gf_add (fst p) (snd p)) (combine a b).

(* g is a monic polynomial of degree n without its leading coefficient.
   (r * X + v) mod g, for r of degree < n *)
Definition poly_push (g : list Z) (r : list Z) (v : Z) : list Z :=
  match r with
  | [] => []
  | q :: r' => poly_add (r' ++ [v]) (map (gf_mul q) g)
  end.

(* the polynomial with coefficients 1, v1, v2, ..., vk, reduced mod g *)
Definition poly_one (g : list Z) : list Z := repeat 0 (length g - 1) ++ [1].
Definition poly_residue (g : list Z) (vs : list Z) : list Z :=
  fold_left (poly_push g) vs (poly_one g).

(* BIP173: X^6 + 29 X^5 + 22 X^4 + 20 X^3 + 21 X^2 + 29 X + 18 *)
Definition bech32_g : list Z := [29; 22; 20; 21; 29; 18].
(* cashaddr: X^8 + 19 X^7 + 3 X^6 + 25 X^5 + 11 X^4 + 25 X^3 + 3 X^2 + 19 X + 1 *)
Definition cashaddr_g : list Z := [19; 3; 25; 11; 25; 3; 19; 1].

(* a code word: the residue is 1 *)
Definition codeword (g : list Z) (vs : list Z) : Prop := poly_residue g vs = poly_one g.
