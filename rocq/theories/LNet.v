(* Lemmas about MNet.v: facts about all supported networks, by computation *)
From Coq Require Import String.
From Verif Require Import Py LBase MNet MUtils MShared SNet.
Open Scope list_scope.
Open Scope Z_scope.

Lemma assoc_str_In {A} k (l : list (str * A)) v : assoc_str k l = Some v -> In (k, v) l.
Proof.
  induction l as [|[k' v'] l IH]; cbn [assoc_str]; [discriminate|].
  destruct (assoc_str k l) as [w|]; intros E.
  - right. apply IH. exact E.
  - destruct (leqb_spec k k') as [->|N].
    + left. congruence.
    + discriminate.
Qed.

Lemma get_network_In name net : get_network name = Ok net -> In (name, net) SUPPORTED.
Proof.
  unfold get_network. destruct (assoc_str name SUPPORTED) as [n|] eqn:E; [|discriminate].
  intros Eq; apply Ok_inj in Eq; subst. apply assoc_str_In, E.
Qed.

(* a property that holds of each entry of the table holds of each network that
   can be selected *)
Lemma supported_forall (P : str -> network -> bool) :
  forallb (fun p => P (fst p) (snd p)) SUPPORTED = true ->
  forall name net, get_network name = Ok net -> P name net = true.
Proof.
  intros F name net E. apply get_network_In in E.
  rewrite forallb_forall in F. apply (F (name, net)), E.
Qed.

Definition str_mem (s : str) (l : list str) : bool := existsb (leqb s) l.

Lemma str_mem_In s l : str_mem s l = true <-> In s l.
Proof.
  unfold str_mem. rewrite existsb_exists. split.
  - intros [x [Hx E]]. apply leqb_eq in E. subst. exact Hx.
  - intros Hs. exists s. rewrite leqb_refl. auto.
Qed.

Lemma compact_only_names name net :
  get_network name = Ok net -> compact_only net = true <-> In name upgraded_zcash.
Proof.
  intros E. rewrite <- str_mem_In.
  assert (Bool.eqb (compact_only net) (str_mem name upgraded_zcash) = true) as B.
  { revert name net E. apply (supported_forall (fun s n => Bool.eqb (compact_only n) (str_mem s upgraded_zcash))).
    vm_compute. reflexivity. }
  apply Bool.eqb_prop in B. rewrite B. tauto.
Qed.

Lemma name_agrees name net : get_network name = Ok net -> get_current_network_name net = name.
Proof.
  intros E. apply leqb_eq. revert name net E.
  apply (supported_forall (fun s n => leqb (get_current_network_name n) s)).
  vm_compute. reflexivity.
Qed.

Lemma decred_only_names name net :
  get_network name = Ok net ->
  contains (get_current_network_name net) (lit "decred") = true <-> In name decred_names.
Proof.
  intros E. rewrite <- str_mem_In.
  assert (Bool.eqb (contains (get_current_network_name net) (lit "decred")) (str_mem name decred_names) = true) as B.
  { revert name net E.
    apply (supported_forall (fun s n => Bool.eqb (contains (get_current_network_name n) (lit "decred")) (str_mem s decred_names))).
    vm_compute. reflexivity. }
  apply Bool.eqb_prop in B. rewrite B. tauto.
Qed.
