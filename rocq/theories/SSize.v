(* The sizes of transactions in bytes *)
From Verif Require Import Py SNum SNet STx SDecred SZcash MNet MUtils MShared MTx MZcash.
Open Scope Z_scope.

(* a CompactSize *)
Definition count_size (n : Z) : Z := if n <? 253 then 1 else if n <? 2 ^ 16 then 3 else if n <? 2 ^ 32 then 5 else 9.
(* a byte string with its length *)
Definition string_size (n : Z) : Z := count_size n + n.
Definition sum {A} (f : A -> Z) (l : list A) : Z := fold_right (fun x n => f x + n) 0 l.
(* a list with its length *)
Definition vector_size {A} (f : A -> Z) (l : list A) : Z := count_size (count l) + sum f l.

Definition input_size (i : input) : Z := 40 + string_size (len (in_script i)).
Definition output_size (o : output) : Z := 8 + string_size (len (out_script o)).
Definition stack_size (st : list bytes) : Z := vector_size (fun s => string_size (len s)) st.

(* version, inputs, outputs, lock time *)
Definition base_size (t : transaction) : Z := 8 + vector_size input_size (t_ins t) + vector_size output_size (t_outs t).
(* marker, flag and witnesses on top *)
Definition total_size (t : transaction) : Z :=
  base_size t + match t_witness t with Some ws => 2 + sum stack_size ws | None => 0 end.

Definition decred_size (t : dtransaction) : Z :=
  12 + vector_size (fun _ => 41) (d_ins t) + vector_size (fun o => 10 + string_size (len (do_script o))) (d_outs t) +
  vector_size (fun s => 16 + string_size (len (ds_script s))) (d_spends t).

Definition transparent_size (ins : list txin) (outs : list txout) : Z :=
  vector_size input_size (map the_input ins) + vector_size output_size (map the_output outs).
(* key and signature come with JoinSplits *)
Definition joinsplits_size {A} (one : Z) (js : list A) : Z :=
  vector_size (fun _ => one) js + match js with [] => 0 | _ => 96 end.
Definition overwinter_size (t : overwinter_tx) : Z :=
  16 + transparent_size (ow_tx_ins t) (ow_tx_outs t) + joinsplits_size 1802 (ow_tx_joinsplits t).
(* the binding signature comes with shielded parts *)
Definition sapling_size (t : sapling_tx) : Z :=
  24 + transparent_size (sa_tx_ins t) (sa_tx_outs t) +
  vector_size (fun _ => 384) (sa_tx_shielded_spends t) + vector_size (fun _ => 948) (sa_tx_shielded_outputs t) +
  joinsplits_size 1698 (sa_tx_joinsplits t) +
  match sa_tx_shielded_spends t, sa_tx_shielded_outputs t with [], [] => 0 | _, _ => 64 end.
(* version 2: the key is always there, the signature may be empty *)
Definition sprout_size (t : sprout_tx) : Z :=
  8 + transparent_size (sp_tx_ins t) (sp_tx_outs t) +
  if le_value (sp_version t) =? 1 then 0
  else vector_size (fun _ => 1802) (opts (sp_tx_joinsplits t)) + 32 + len (opt (sp_joinsplit_sig t)).
