(* Specification of C91: which Zcash transactions are read as themselves *)
From Verif Require Import Py SNum SNet STx SZcash SExact MTx.
Open Scope list_scope.
Open Scope Z_scope.

(* inputs and outputs that are read as themselves: both counts can be read, every
   input is read as itself (C90), and no output script has more than 251 bytes *)
Definition exact_parts (net_name : str) (ins : list txin) (outs : list txout) : Prop :=
  readable_size net_name (count ins) /\ readable_size net_name (count outs) /\
  Forall (fun i => exact_in net_name (the_input i)) ins /\ Forall (fun o => len (to_output_script o) < 252) outs.
