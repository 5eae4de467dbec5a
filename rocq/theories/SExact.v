(* Specification of C90: what becomes of a scriptSig when it is parsed, and which
   transactions are read as themselves *)
From Verif Require Import Py SNum SNet SScript STx SStandard.
Open Scope list_scope.
Open Scope Z_scope.

(* The parser takes the last word that it shows of a scriptSig for a redeem script.
   If that word is the data of a push, the data can be read as a script, and no push
   has more than 1000 bytes, then all is written again, each push in its smallest
   form: [a] is what comes before the last push, [b] is the last push *)
Definition split_as (net_name : str) (s a b : bytes) : Prop :=
  exists es before f d, reads_as net_name s es /\ shown es = before ++ [Push f d] /\
    Forall (fun e => match e with Op _ _ => True | Push _ x => len x <= 1000 end) (shown es) /\
    ~ refused_script net_name d /\
    a = concat (map wire (flat_map normal before)) /\ b = push (smallest d) d.

(* scriptSigs that are read as themselves: those that are not split, and those
   whose pushes already have their smallest form *)
Definition survives (net_name : str) (s : bytes) : Prop :=
  canonical_script net_name s \/ ~ exists a b, split_as net_name s a b.

(* the two parts of the scriptSig of an input *)
Definition parts_of (net_name : str) (i : input) (a b : bytes) : Prop :=
  (~ coinbase_input i /\ split_as net_name (in_script i) a b) \/
  ((coinbase_input i \/ ~ exists a' b', split_as net_name (in_script i) a' b') /\ a = in_script i /\ b = []).

(* inputs and transactions that are read as themselves *)
Definition exact_in (net_name : str) (i : input) : Prop :=
  readable_size net_name (len (in_script i)) /\ len (in_script i) <= 1650 /\
  (coinbase_input i \/ survives net_name (in_script i)).
Definition exact_tx (net_name : str) (t : transaction) : Prop :=
  readable_size net_name (count (t_ins t)) /\ readable_size net_name (count (t_outs t)) /\
  Forall (exact_in net_name) (t_ins t) /\ Forall (fun o => len (out_script o) < 252) (t_outs t) /\
  match t_witness t with Some ws => Forall (parsable_stack net_name) ws | None => True end.
