(* Money in and out of a transaction *)
From Verif Require Import Py SNum MTx MZcash MDecred.
Open Scope list_scope.
Open Scope Z_scope.

Definition total (l : list Z) : Z := fold_right Z.add 0 l.
(* what the outputs pay: unsigned little-endian amounts *)
Definition paid (outs : list txout) : Z := total (map (fun o => le_value (to_value o)) outs).
(* a JoinSplit takes vpub_old from the transparent pool and gives vpub_new to it *)
Definition joinsplit_takes {P} (l : list (joinsplit P)) : Z := total (map (fun j => le_value (js_vpub_old j)) l).
Definition joinsplit_gives {P} (l : list (joinsplit P)) : Z := total (map (fun j => le_value (js_vpub_new j)) l).
(* the Sapling pool gives a positive balance and takes a negative one *)
Definition pool_gives (balance : bytes) : Z := Z.max 0 (twos_value balance).
Definition pool_takes (balance : bytes) : Z := Z.max 0 (- twos_value balance).
