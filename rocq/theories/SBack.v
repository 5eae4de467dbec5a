(* The text that a network itself uses for a payment *)
From Verif Require Import Py MNet MUtils SNum SHash SNet SBase58 SBech32 SCashaddr SAddr SParams.
Open Scope Z_scope.

(* with cashaddr, on a network that has it: the CashAddr text; otherwise the address
   of the network's table *)
Definition own_text (H : hashes) (name : str) (cashaddr : bool) (k : payment) (h : bytes) (s : str) : Prop :=
  (exists p, cashaddr = true /\ cash_network name p /\ cashaddr_of p (cash_kind k :: h) s) \/
  ((cashaddr = false \/ forall p, ~ cash_network name p) /\ network_address H name k h s).
