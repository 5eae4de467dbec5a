(* Property C100: how many texts stand for one payload *)
From Coq Require Import String.
From Verif Require Import Py MNet MUtils MBase58 MBech32 MCashaddr SNum SBits SBch SBech32 SCashaddr SNet SHash LBase LBase58 LSpell.
Open Scope list_scope.
Open Scope Z_scope.

(* C100: Base58Check: one *)
Theorem base58_spelled_once : forall H net s s' b, hashes_ok H ->
  decode_with_checksum H net s = Ok b -> decode_with_checksum H net s' = Ok b -> s = s'.
Proof. exact base58_spelling_lemma. Qed.
Print Assumptions base58_spelled_once.
Example base58_spelled_once_ex : hashes_ok toy /\ decode_with_checksum toy BitcoinMain (lit "3W8LdR11") = Ok [5; 6].
Proof. split; [exact toy_ok|vm_compute; reflexivity]. Qed.

(* C100: bech32: two, all small and all capital letters *)
Theorem bech32_spelled_twice : forall name net s b,
  get_network name = Ok net -> bech32_net_decode net s = Ok b ->
  lower s <> upper s /\ forall s', bech32_net_decode net s' = Ok b <-> s' = lower s \/ s' = upper s.
Proof. exact bech32_spellings_lemma. Qed.
Print Assumptions bech32_spelled_twice.
Example bech32_spelled_twice_ex :
  let b := [16; 2; 0x75; 0x1e] in
  bech32_net_decode BitcoinMain (lit "BC1SW50QA3JX3S") = Ok b /\ bech32_net_decode BitcoinMain (lit "bc1sw50qa3jx3s") = Ok b.
Proof. split; vm_compute; reflexivity. Qed.

(* the number of bit strings of 1 to 8 bits that fill n bytes up to a multiple of
   five bits *)
Definition fillings (n : Z) : Z :=
  fold_right Z.add 0 (map (fun f => if (8 * n + f) mod 5 =? 0 then 2 ^ f else 0) [1; 2; 3; 4; 5; 6; 7; 8]).

(* C100: cashaddr, under the prefix or any text that starts with it: as many as
   there are fillings *)
Theorem cashaddr_spellings : forall name net p suffix b,
  get_network name = Ok net -> CASHADDR_PREFIX net = Some p -> ~ In 58 suffix -> all_bytes b -> b <> [] ->
  exists ts, NoDup ts /\ (forall t, In t ts <-> cashaddr_decode net ((p ++ suffix) ++ lit ":" ++ t) = Ok b) /\
    Z.of_nat (length ts) = fillings (len b).
Proof. exact spellings_lemma. Qed.
Print Assumptions cashaddr_spellings.
(* 132 for the 21 bytes of a Bitcoin Cash address; three of them *)
Example cashaddr_spellings_ex :
  fillings 21 = 132 /\
  exists b, len b = 21 /\
  cashaddr_decode BitcoinCashMain (lit "bitcoincash:qr3wdvuuejklcwwpcd5qrrn9angec4lxv5zzus47up") = Ok b /\
  cashaddr_decode BitcoinCashMain (lit "bitcoincash:qr3wdvuuejklcwwpcd5qrrn9angec4lxv5zzus47uqp") = Ok b /\
  cashaddr_decode BitcoinCashMain (lit "bitcoincash:qr3wdvuuejklcwwpcd5qrrn9angec4lxvkdy8xwcnr") = Ok b.
Proof.
  split; [vm_compute; reflexivity|].
  exists [0; 226; 230; 179; 156; 204; 173; 252; 57; 193; 195; 104; 1; 142; 101; 236; 209; 156; 87; 230; 101].
  repeat split; vm_compute; reflexivity.
Qed.
