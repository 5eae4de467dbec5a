(* Cashaddr texts as the specification defines them *)
From Coq Require Import String.
From Verif Require Import Py SNum SBase58 SBits SBch SBech32.
Open Scope list_scope.
Open Scope Z_scope.

(* the prefix as field elements: the low five bits of each character, a zero *)
Definition cashaddr_prefix_values (prefix : str) : list Z := map (fun c => c mod 32) prefix ++ [0].

(* s is the cashaddr text of the 5-bit values, of which the last eight are check
   symbols, under the prefix *)
Definition cashaddr_text (prefix : str) (values : list Z) (s : str) : Prop :=
  Forall gf values /\ codeword cashaddr_g (cashaddr_prefix_values prefix ++ values) /\
  s = prefix ++ lit ":" ++ map b32_char values.

(* the address of a byte string: regrouped with zero padding, and eight check
   symbols *)
Definition cashaddr_of (prefix : str) (b : bytes) (s : str) : Prop :=
  exists data check, regroup_pad 8 5 b data /\ length check = 8%nat /\
    cashaddr_text prefix (data ++ check) s.

(* b is the first 8 * len b bits of the 5-bit groups *)
Definition leading_bytes (groups5 : list Z) (b : bytes) : Prop :=
  all_bytes b /\ 8 * len b <= 5 * len groups5 /\
  be_num 256 b = be_num 32 groups5 / 2 ^ (5 * len groups5 - 8 * len b).
