(* Which networks treat transactions alike *)
From Coq Require Import String.
From Verif Require Import Py SNet SZcash.
Open Scope list_scope.
Open Scope Z_scope.

(* both names are in the list, or neither is *)
Definition both (l : list str) (a b : str) : Prop := In a l <-> In b l.
(* the same hash function and opcodes: Decred has others *)
Definition same_hash : str -> str -> Prop := both decred_names.
(* the same rule for lengths: upgraded Zcash refuses lengths that are written too long *)
Definition same_lengths : str -> str -> Prop := both upgraded_zcash.
(* the same fork id, or none *)
Definition same_fork (a b : str) : Prop := forall id, In (a, id) fork_ids <-> In (b, id) fork_ids.
(* the same era of Zcash, or not Zcash *)
Definition same_era (a b : str) : Prop := both sprout_names a b /\ both overwinter_names a b /\ both sapling_names a b.
