(* Specification for truncated serializations *)
From Verif Require Import Py SNum STx.
Open Scope Z_scope.

(* p is what is left of w when at least one byte at the end is missing *)
Definition cut (p w : bytes) : Prop := exists q, q <> [] /\ w = p ++ q.

(* every stack of the witness has fewer than 65536 items, each of fewer than 65536
   bytes: their CompactSizes have at most three bytes *)
Definition short_witness (t : transaction) : Prop :=
  match t_witness t with
  | Some ws => Forall (fun st => count st < 2 ^ 16 /\ Forall (fun s => len s < 2 ^ 16) st) ws
  | None => True
  end.

(* the length of a transaction with marker and flag, but without witnesses *)
Definition length_without_witnesses (t : transaction) : Z := len (wire_tx (stripped t)) + len marker_and_flag.

(* every stack of the witness has fewer than 2^32 items, each of fewer than 2^32
   bytes: their CompactSizes have at most five bytes *)
Definition fitting_witness (t : transaction) : Prop :=
  match t_witness t with
  | Some ws => Forall (fun st => count st < 2 ^ 32 /\ Forall (fun s => len s < 2 ^ 32) st) ws
  | None => True
  end.

(* p ends inside the last witness item of t, which has 65536 bytes or more, and holds
   only its first bytes l, fewer than 253; ws are the other witnesses, st is the rest
   of the last one *)
Definition cut_in_long_item (t : transaction) (p : bytes) (ws : list (list bytes)) (st : list bytes) (l : bytes) : Prop :=
  exists s, t_witness t = Some (ws ++ [st ++ [l ++ s]]) /\ 2 ^ 16 <= len (l ++ s) /\ len l < 253 /\
    len p = len (wire_tx t) - len (t_lock t) - len s.
