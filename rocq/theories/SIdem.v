(* Which transactions the parser can read back from their own bytes *)
From Coq Require Import String.
From Verif Require Import Py SNum SNet STx.
Open Scope list_scope.
Open Scope Z_scope.

(* no script sig and no witness item in it has one of the three lengths, 253 to 255, that
   an upgraded Zcash network refuses; on other networks this holds of every transaction *)
Definition readable_scripts (net_name : str) (ins : list input) : Prop :=
  Forall (fun i => readable_size net_name (len (in_script i))) ins.
Definition readable_tx (net_name : str) (t : transaction) : Prop :=
  readable_scripts net_name (t_ins t) /\
  match t_witness t with Some ws => Forall (Forall (fun s => readable_size net_name (len s))) ws | None => True end.
