(* C36: selecting networks.  [supported_names], [calls] and [settles] are in SSelect.v *)
From Coq Require Import String.
From Verif Require Import Py LBase MNet SNet SSelect LNet LSelect.
Open Scope list_scope.
Open Scope Z_scope.

(* 72 names are supported, and no others *)
Theorem networks_supported : forall name,
  (In name supported_names -> exists net, get_network name = Ok net /\ get_current_network_name net = name) /\
  (~ In name supported_names -> get_network name = Err ValueError).
Proof.
  intros name. split; [|exact (get_network_unsupported name)].
  intros I. apply get_network_names in I. destruct I as [net E]. exists net. split; [exact E|exact (name_agrees name net E)].
Qed.
Print Assumptions networks_supported.
Example networks_supported_ex : length supported_names = 72%nat /\ In (lit "zcash_sapling_main") supported_names /\
  get_network (lit "bitcoin") = Err ValueError.
Proof. split; [reflexivity|]. split; [apply str_mem_In|]; vm_compute; reflexivity. Qed.

(* one call, whatever the current network *)
Theorem select_network_ok : forall name current, In name supported_names ->
  snd (select_network name current) = Ok tt /\ get_current_network_name (fst (select_network name current)) = name.
Proof. exact select_ok. Qed.
Print Assumptions select_network_ok.
Theorem select_network_unknown : forall name current, ~ In name supported_names ->
  select_network name current = (current, Err ValueError).
Proof. exact select_bad. Qed.
Print Assumptions select_network_unknown.

(* any sequence of calls, with any names, from the initial state: the last
   supported name is current, bitcoin_main if there is none; the other calls raise
   ValueError *)
Theorem selection_history : forall names, exists name, settles (lit "bitcoin_main") names name /\
  get_current_network_name (fst (calls names initial_network)) = name /\
  Forall2 (fun n o => In n supported_names /\ o = Ok tt \/ ~ In n supported_names /\ o = Err ValueError)
    names (snd (calls names initial_network)).
Proof.
  intros names. destruct (settles_total (lit "bitcoin_main") names) as [name S]. exists name. split; [exact S|].
  split; [exact (calls_settle names (lit "bitcoin_main") initial_network name eq_refl S)|exact (calls_outcomes names initial_network)].
Qed.
Print Assumptions selection_history.
Example selection_history_ex :
  calls (map lit ["litecoin_main"; "nonsense"; "dash_test"; ""]%string) initial_network = (DashTest, [Ok tt; Err ValueError; Ok tt; Err ValueError]).
Proof. reflexivity. Qed.

(* the same name always selects the same network, and different names different ones *)
Theorem network_names_distinct : forall n1 n2 net, get_network n1 = Ok net -> get_network n2 = Ok net -> n1 = n2.
Proof. intros n1 n2 net E1 E2. rewrite <- (name_agrees n1 net E1). exact (name_agrees n2 net E2). Qed.
Print Assumptions network_names_distinct.
