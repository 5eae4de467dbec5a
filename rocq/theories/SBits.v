(* Regrouping of bits, specified by number: a list of w-bit groups, most
   significant first, is the number be_num (2^w). *)
From Verif Require Import Py SBase58.
Open Scope list_scope.
Open Scope Z_scope.

(* every element fits in w bits *)
Definition groups (w : Z) (l : list Z) : Prop := Forall (fun x => 0 <= x < 2 ^ w) l.

(* l' is l cut into groups of [to] bits instead of [from], with fewer than [to]
   zero bits added at the end *)
Definition regroup_pad (from to : Z) (l l' : list Z) : Prop :=
  groups to l' /\
  exists p, 0 <= p < to /\ to * zlen l' = from * zlen l + p /\
            be_num (2 ^ to) l' = be_num (2 ^ from) l * 2 ^ p.
