(* Facts about coins that the specifications use, by network name. *)
From Coq Require Import String.
From Verif Require Import Py.
Open Scope list_scope.
Open Scope Z_scope.

(* Zcash after the Overwinter upgrade *)
Definition upgraded_zcash : list str :=
  map lit ["zcash_overwinter_main"; "zcash_overwinter_test"; "zcash_overwinter_reg";
           "zcash_sapling_main"; "zcash_sapling_test"; "zcash_sapling_reg"]%string.

Definition decred_names : list str :=
  map lit ["decred_main"; "decred_test"; "decred_simnet"]%string.

(* coins whose signatures carry a fork id *)
Definition fork_ids : list (str * Z) :=
  map (fun p => (lit (fst p), snd p))
      [("bitcoin_cash_main", 0); ("bitcoin_cash_test", 0); ("bitcoin_cash_reg", 0);
       ("bitcoin_gold_main", 79); ("bitcoin_gold_test", 79); ("bitcoin_gold_reg", 79);
       ("bitcoin_private_main", 42); ("bitcoin_private_test", 42); ("bitcoin_private_reg", 42)]%string.
Definition no_fork_id (name : str) : Prop := forall id, ~ In (name, id) fork_ids.
