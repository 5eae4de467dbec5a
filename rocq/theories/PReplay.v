(* C96: which networks treat a transaction and a request for a signature alike.
   The relations between networks are in SReplay.v. *)
From Coq Require Import String.
From Verif Require Import Py LBase MNet MUtils MShared MScript MTx MDecred MZcash SNum SNet SHash SScript STx SSig SSelect SZcash SDecred SReplay
  LNet LTx LReplay PTx PSig PDecred PFormats.
Open Scope list_scope.
Open Scope Z_scope.

(** * Transactions *)

(* what is made of the parts, and its identifiers, depend on the hash function alone *)
Theorem tx_made_elsewhere : forall H name net name' net', get_network name = Ok net -> get_network name' = Ok net' -> same_hash name name' ->
  forall version flag ins outs wits lock, Tx H net version flag ins outs wits lock = Tx H net' version flag ins outs wits lock.
Proof. intros H name net name' net' En En' D. exact (Tx_same H name name' net net' En En' D). Qed.
Print Assumptions tx_made_elsewhere.
(* what is read from any bytes depends on the hash function and on the rule for lengths *)
Theorem tx_read_elsewhere : forall H name net name' net', get_network name = Ok net -> get_network name' = Ok net' ->
  same_hash name name' -> same_lengths name name' -> forall b, Tx_from_bytes H net b = Tx_from_bytes H net' b.
Proof. intros H name net name' net' En En' D L. exact (Tx_read_same H name name' net net' En En' D L). Qed.
Print Assumptions tx_read_elsewhere.
(* and on nothing less: a length that is written too long is refused by upgraded Zcash,
   and read by every other network *)
Definition long_length : bytes := [2; 0; 0; 0] ++ [253; 1; 0] ++ repeat 7 32 ++ [1; 0; 0; 0] ++ [0] ++ repeat 255 4 ++
  [1] ++ [5; 0; 0; 0; 0; 0; 0; 0] ++ [1; 81] ++ [0; 0; 0; 0].
Theorem tx_lengths_matter : forall H name net name' net', get_network name = Ok net -> get_network name' = Ok net' ->
  In name upgraded_zcash -> ~ In name' upgraded_zcash ->
  Tx_from_bytes H net long_length = Err ValueError /\ exists t, Tx_from_bytes H net' long_length = Ok t.
Proof.
  intros H name net name' net' En En' I N.
  assert (forall nm nt, get_network nm = Ok nt -> (if str_mem nm upgraded_zcash
    then match Tx_from_bytes H nt long_length with Err ValueError => true | _ => false end
    else holds (Tx_from_bytes H nt long_length) (fun _ => true)) = true) as A.
  { apply (supported_forall (fun nm nt => if str_mem nm upgraded_zcash
      then match Tx_from_bytes H nt long_length with Err ValueError => true | _ => false end
      else holds (Tx_from_bytes H nt long_length) (fun _ => true))). vm_compute. reflexivity. }
  split.
  - specialize (A name net En). rewrite (proj2 (str_mem_In _ _) I) in A. revert A. generalize (Tx_from_bytes H net long_length).
    intros [t|e]; [discriminate|]. destruct e; discriminate || reflexivity.
  - specialize (A name' net' En'). destruct (str_mem name' upgraded_zcash) eqn:E; [destruct N; apply str_mem_In, E|].
    apply holds_ok in A as (t & A & _). exists t. exact A.
Qed.
Print Assumptions tx_lengths_matter.

(** * Digests *)

(* the digest of every request, whether it is answered or refused, also depends on the fork id *)
Theorem tx_digest_elsewhere : forall H name net name' net', get_network name = Ok net -> get_network name' = Ok net' ->
  same_hash name name' -> same_lengths name name' -> same_fork name name' ->
  forall ty t n script value anyone, digest H ty net t n script value anyone = digest H ty net' t n script value anyone.
Proof. intros H name net name' net' En En' D L F ty t n script value anyone. exact (digest_same H name name' net net' En En' D L ty t n script value anyone F). Qed.
Print Assumptions tx_digest_elsewhere.

(* All networks but Decred's, those of upgraded Zcash and those with a fork id are one
   network to a signer: a signature for Bitcoin is a signature for each of them. *)
Theorem no_replay_refuted : forall H name net, get_network name = Ok net ->
  ~ In name decred_names -> ~ In name upgraded_zcash -> no_fork_id name ->
  (forall b, Tx_from_bytes H net b = Tx_from_bytes H BitcoinMain b) /\
  (forall ty t n script value anyone, digest H ty net t n script value anyone = digest H ty BitcoinMain t n script value anyone).
Proof.
  intros H name net En D U F.
  assert (get_network (lit "bitcoin_main") = Ok BitcoinMain) as B by (vm_compute; reflexivity).
  assert (same_hash name (lit "bitcoin_main")) as D'.
  { split; [tauto|]. intros X. apply str_mem_In in X. vm_compute in X. discriminate. }
  assert (same_lengths name (lit "bitcoin_main")) as L'.
  { split; [tauto|]. intros X. apply str_mem_In in X. vm_compute in X. discriminate. }
  assert (same_fork name (lit "bitcoin_main")) as F'.
  { intros id. split; intros X; [destruct (F _ X)|]. exfalso. apply (in_map fst) in X. apply str_mem_In in X. vm_compute in X. discriminate. }
  split.
  - exact (tx_read_elsewhere H name net _ _ En B D' L').
  - exact (tx_digest_elsewhere H name net _ _ En B D' L' F').
Qed.
Print Assumptions no_replay_refuted.
(* there are 54 of them among the 72 *)
Definition bitcoin_alike : list str :=
  filter (fun s => negb (str_mem s decred_names) && negb (str_mem s upgraded_zcash) && negb (str_mem s (map fst fork_ids))) supported_names.
Example no_replay_ex : length supported_names = 72%nat /\ length bitcoin_alike = 54%nat /\
  In (lit "litecoin_main") bitcoin_alike /\ In (lit "bitcoin_test") bitcoin_alike /\ In (lit "zcash_sprout_main") bitcoin_alike /\
  exists net d, get_network (lit "litecoin_main") = Ok net /\ sighash_all toy net ex_two 1 (string_wire [118]) None false = Ok d /\
    sighash_all toy BitcoinMain ex_two 1 (string_wire [118]) None false = Ok d.
Proof.
  split; [vm_compute; reflexivity|]. split; [vm_compute; reflexivity|].
  split; [apply str_mem_In; vm_compute; reflexivity|]. split; [apply str_mem_In; vm_compute; reflexivity|]. split; [apply str_mem_In; vm_compute; reflexivity|].
  eexists. eexists. split; [vm_compute; reflexivity|]. split; vm_compute; reflexivity.
Qed.
(* the networks of one fork share their digests, too *)
Example one_fork_ex : same_hash (lit "bitcoin_cash_main") (lit "bitcoin_cash_test") /\ same_lengths (lit "bitcoin_cash_main") (lit "bitcoin_cash_test") /\
  same_fork (lit "bitcoin_cash_main") (lit "bitcoin_cash_test") /\ ~ same_fork (lit "bitcoin_cash_main") (lit "bitcoin_gold_main").
Proof.
  assert (forall l a b, str_mem a l = str_mem b l -> both l a b) as B by (intros l a b E; unfold both; rewrite <- !str_mem_In, E; tauto).
  split; [apply B; reflexivity|]. split; [apply B; reflexivity|]. split.
  - intros id. split; intros X; cbn in X; repeat (destruct X as [X|X]; [injection X; intros; subst; clear X; cbn; tauto || discriminate|]); destruct X.
  - intros X. destruct (X 0) as [Y _]. specialize (Y (or_introl eq_refl)). cbn in Y.
    repeat (destruct Y as [Y|Y]; [discriminate Y|]). destruct Y.
Qed.

(** * Zcash and Decred *)

(* the networks of one era read the same bytes as the same transaction and sign the same message *)
Theorem zcash_elsewhere : forall H name net name' net', get_network name = Ok net -> get_network name' = Ok net' ->
  In name zcash_names -> same_era name name' ->
  (forall b, SproutTx_from_bytes H net b = SproutTx_from_bytes H net' b) /\
  (forall b, OverwinterTx_from_bytes H net b = OverwinterTx_from_bytes H net' b) /\
  (forall b, SaplingTx_from_bytes H net b = SaplingTx_from_bytes H net' b) /\
  (forall t n script anyone, sprout_sighash_all H net t n script anyone = sprout_sighash_all H net' t n script anyone) /\
  (forall t n script anyone, sprout_sighash_single H net t n script anyone = sprout_sighash_single H net' t n script anyone) /\
  (forall t ty value script n joinsplit anyone,
     overwinter_sighash H net t ty value script n joinsplit anyone = overwinter_sighash H net' t ty value script n joinsplit anyone) /\
  (forall t ty value n joinsplit script anyone,
     sapling_sighash H net t ty value n joinsplit script anyone = sapling_sighash H net' t ty value n joinsplit script anyone).
Proof.
  intros H name net name' net' En En' I E.
  split; [exact (Sprout_read_same H name name' net net' En En' I E)|].
  split; [exact (Overwinter_read_same H name name' net net' En En' I E)|].
  split; [exact (Sapling_read_same H name name' net net' En En' I E)|].
  split; [exact (sprout_all_same H name name' net net' En En' I E)|].
  split; [exact (sprout_single_same H name name' net net' En En' I E)|].
  split; [exact (overwinter_digest_same H name name' net net' En En' I E)|exact (sapling_digest_same H name name' net net' En En' I E)].
Qed.
Print Assumptions zcash_elsewhere.
Example zcash_elsewhere_ex : In (lit "zcash_sapling_main") zcash_names /\ same_era (lit "zcash_sapling_main") (lit "zcash_sapling_test") /\
  ~ same_era (lit "zcash_sapling_main") (lit "zcash_overwinter_main").
Proof.
  assert (forall l a b, str_mem a l = str_mem b l -> both l a b) as B by (intros l a b E; unfold both; rewrite <- !str_mem_In, E; tauto).
  split; [apply str_mem_In; reflexivity|]. split; [repeat split; apply B; reflexivity|].
  intros (_ & _ & X). destruct X as [X _]. assert (In (lit "zcash_overwinter_main") sapling_names) as Y by (apply X; left; reflexivity).
  apply str_mem_In in Y. discriminate Y.
Qed.
Theorem decred_elsewhere_same : forall H name net name' net', get_network name = Ok net -> get_network name' = Ok net' ->
  In name decred_names -> In name' decred_names ->
  (forall version ins outs lock expiry wits, DecredTx H net version ins outs lock expiry wits = DecredTx H net' version ins outs lock expiry wits) /\
  (forall ty t n script anyone, ddigest H ty net t n script anyone = ddigest H ty net' t n script anyone).
Proof.
  intros H name net name' net' En En' I I'. assert (same_hash name name') as D by (split; tauto).
  split; [exact (DecredTx_same H name name' net net' En En' D)|exact (ddigest_same H name name' net net' En En' D)].
Qed.
Print Assumptions decred_elsewhere_same.
Example decred_elsewhere_ex : exists net net' t d, get_network (lit "decred_main") = Ok net /\ get_network (lit "decred_test") = Ok net' /\
  dtx_obj toy net t /\ the_dtx t = ex_dtx /\ ddigest toy All net t 0 (Some [118]) false = Ok d /\ ddigest toy All net' t 0 (Some [118]) false = Ok d.
Proof.
  destruct (decred_exists toy (lit "decred_main") DecredMain ex_dtx) as [t [O E]]; [apply decred_main_ex|apply decred_main_ex|apply ex_dtx_ok|].
  destruct (get_network (lit "decred_test")) as [net'|] eqn:N; [|vm_compute in N; discriminate].
  assert (exists d, ddigest toy All DecredMain t 0 (Some [118]) false = Ok d) as [d X].
  { change 0 with (Z.of_nat 0). rewrite (decred_digest_exact toy (lit "decred_main") DecredMain t 0 (Some [118]) All false); [|apply decred_main_ex|apply decred_main_ex|exact O].
    rewrite E. eexists. cbv zeta. replace (length (d_spends ex_dtx) <=? 0)%nat with false by (vm_compute; reflexivity).
    replace (negb (fits (dsigning_copy 0 [118] ex_dtx))) with false by (vm_compute; reflexivity). reflexivity. }
  exists DecredMain, net', t, d. split; [apply decred_main_ex|]. split; [reflexivity|]. split; [exact O|]. split; [exact E|]. split; [exact X|].
  rewrite <- X. symmetry. refine (proj2 (decred_elsewhere_same toy (lit "decred_main") DecredMain (lit "decred_test") net' _ N _ _) All t 0 (Some [118]) false).
  - apply decred_main_ex.
  - apply decred_main_ex.
  - right; left; reflexivity.
Qed.
