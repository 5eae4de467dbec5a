(* Bech32 and segwit addresses as BIP173 defines them *)
From Coq Require Import String.
From Verif Require Import Py SNum SBase58 SBits SBch.
Open Scope list_scope.
Open Scope Z_scope.

Definition b32_alphabet : str := lit "qpzry9x8gf2tvdw0s3jn54khce6mua7l".
Definition b32_char (d : Z) : Z := nth (Z.to_nat d) b32_alphabet 0.

(* the human readable part as field elements: the high bits of each character,
   a zero, the low five bits of each character *)
Definition hrp_values (hrp : str) : list Z :=
  map (fun c => c / 32) hrp ++ [0] ++ map (fun c => c mod 32) hrp.

(* s is the bech32 text of data: the prefix, '1', the data and six check
   characters that make the whole a code word *)
Definition bech32_text (hrp : str) (data : list Z) (s : str) : Prop :=
  exists check, Forall gf (data ++ check) /\ length check = 6%nat /\
    codeword bech32_g (hrp_values hrp ++ data ++ check) /\
    s = hrp ++ lit "1" ++ map b32_char (data ++ check).

(* the witness programs that BIP173 allows *)
Definition witness_program (version : Z) (prog : bytes) : Prop :=
  0 <= version <= 16 /\ all_bytes prog /\ 2 <= len prog <= 40 /\
  (version = 0 -> len prog = 20 \/ len prog = 32).

(* s is the (lower case) address of the witness program *)
Definition segwit_address (hrp : str) (version : Z) (prog : bytes) (s : str) : Prop :=
  exists groups5, regroup_pad 8 5 prog groups5 /\
    bech32_text hrp (version :: groups5) s /\ len s <= 90.

(* the library's form of a witness program: version, length, program *)
Definition witness_bytes (version : Z) (prog : bytes) : bytes := version :: len prog :: prog.

(* BIP173: mixed case is invalid *)
Definition one_case (s : str) : Prop := lower s = s \/ upper s = s.

(* number of places where two texts differ *)
Fixpoint hamming (a b : list Z) : nat :=
  match a, b with
  | x :: a, y :: b => ((if Z.eq_dec x y then 0 else 1) + hamming a b)%nat
  | _, _ => (length a + length b)%nat
  end.
