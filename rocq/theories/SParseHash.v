(* The hash behind the version bytes of an address, and the bech32 addresses that
   are taken for payments of another kind *)
From Coq Require Import String.
From Verif Require Import Py MNet SNum SAddr.
Open Scope list_scope.
Open Scope Z_scope.

(* what follows the given opening, if the text opens with it *)
Fixpoint strip (p l : bytes) : option bytes :=
  match p, l with
  | [], _ => Some l
  | x :: p', y :: l' => if x =? y then strip p' l' else None
  | _ :: _, [] => None
  end.

(* the rest of the payload behind the legacy version bytes of the network *)
Definition behind_legacy (net : network) (raw : bytes) : res bytes :=
  match strip (P2SH_PREFIX net) raw, strip (P2PKH_PREFIX net) raw with
  | Some h, _ => Ok h
  | None, Some h => Ok h
  | None, None => Err ValueError
  end.

(* the same, where the cashaddr versions (8 for scripts, 0 for keys) go first *)
Definition behind_cash (net : network) (raw : bytes) : res bytes :=
  match raw with
  | 8 :: h => Ok h
  | 0 :: h => Ok h
  | _ => behind_legacy net raw
  end.

(* the version byte that cashaddr has for this kind of payment *)
Definition cash_only (net : network) (k : payment) : option bytes :=
  match k with
  | P2PKH => CASHADDR_P2PKH net
  | P2SH => CASHADDR_P2SH net
  | _ => None
  end.
Definition legacy_version (net : network) (k : payment) : bytes :=
  match k with P2SH => P2SH_PREFIX net | _ => P2PKH_PREFIX net end.

(* the witness versions that are also the version byte of a legacy address *)
Definition taken_for (name : str) (v : Z) : option payment :=
  if existsb (leqb name) [lit "bitcoin_main"; lit "vertcoin_main"]
  then if v =? 5 then Some P2SH else None
  else if leqb name (lit "feathercoin_main")
  then if v =? 14 then Some P2PKH else None
  else None.
