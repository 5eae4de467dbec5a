(* C61: make_tx and the classes of the parts.  [foreign] and [numbers_fit] are in
   SMake.v; [le_bytes] in SNum.v; the lists of networks in SNet.v and SZcash.v. *)
From Coq Require Import String.
From Verif Require Import Py SNum SNet SHash SScript SAddr MNet MUtils MShared MScript MTx MZcash MDecred MBuilder
  STx SZcash SDecred SMake LMakeTx PTx PZcash.
Open Scope list_scope.
Open Scope Z_scope.

(* what make_tx returns is made of exactly the parts it was given, all of the
   classes of that kind of transaction, and it is the network's kind *)
Theorem make_tx_parts : forall H name net v ins outs lock expiry vb sp so ws js pk sg bs t, get_network name = Ok net ->
    make_tx H net v ins outs lock expiry vb sp so ws js pk sg bs = Ok t ->
    match t with
    | AnyTx t => ~ In name decred_names /\ ~ In name overwinter_names /\ ~ In name sapling_names /\ (In name sprout_names -> js = None) /\
        ins = map AnyIn (tx_tx_ins t) /\ outs = map AnyOut (tx_tx_outs t) /\ tx_version t = le_bytes 4 v /\ tx_lock_time t = le_bytes 4 lock /\
        match tx_tx_witnesses t with
        | None => ws = NoWits /\ tx_flag t = None
        | Some l => (ws = Wits l \/ (l = [] /\ ws = DecredWits [])) /\ tx_flag t = Some marker_and_flag
        end
    | AnyDecredTx t => In name decred_names /\
        ins = map AnyDecredIn (dtx_tx_ins t) /\ outs = map AnyDecredOut (dtx_tx_outs t) /\ dtx_version t = le_bytes 4 v /\ dtx_lock_time t = le_bytes 4 lock /\
        (exists e, expiry = Some e /\ dtx_expiry t = le_bytes 4 e) /\ exists w, ws = DecredWit w /\ dtx_tx_witnesses t = [w]
    | AnySproutTx _ => False
    | AnyOverwinterTx t => In name overwinter_names /\
        ins = map AnyIn (ow_tx_ins t) /\ outs = map AnyOut (ow_tx_outs t) /\ ow_lock_time t = le_bytes 4 lock /\
        (exists e, expiry = Some e /\ ow_expiry_height t = le_bytes 4 e) /\
        match js with Some j => j | None => [] end = map AnySproutJs (ow_tx_joinsplits t) /\
        (ow_tx_joinsplits t <> [] -> ow_joinsplit_pubkey t = pk /\ ow_joinsplit_sig t = sg)
    | AnySaplingTx t => In name sapling_names /\
        ins = map AnyIn (sa_tx_ins t) /\ outs = map AnyOut (sa_tx_outs t) /\ sa_lock_time t = le_bytes 4 lock /\
        (exists e, expiry = Some e /\ sa_expiry_height t = le_bytes 4 e) /\ sa_value_balance t = le_bytes 8 vb /\
        sp = Some (sa_tx_shielded_spends t) /\ so = Some (sa_tx_shielded_outputs t) /\ js = Some (map AnySaplingJs (sa_tx_joinsplits t)) /\
        (sa_tx_joinsplits t <> [] -> sa_joinsplit_pubkey t = pk /\ sa_joinsplit_sig t = sg)
    end.

Proof. intros H name net v ins outs lock expiry vb sp so ws js pk sg bs t En. exact (made_of H name net En v ins outs lock expiry vb sp so ws js pk sg bs t). Qed.
Print Assumptions make_tx_parts.

(* a part of a class the network does not have is refused *)
Theorem make_tx_foreign : forall H name net v ins outs lock expiry vb sp so ws js pk sg bs, get_network name = Ok net ->
  numbers_fit name v lock expiry vb -> foreign name ins outs ws js ->
  make_tx H net v ins outs lock expiry vb sp so ws js pk sg bs = Err ValueError.
Proof. intros H name net v ins outs lock expiry vb sp so ws js pk sg bs En. exact (foreign_value H name net En v ins outs lock expiry vb sp so ws js pk sg bs). Qed.
Print Assumptions make_tx_foreign.

(* a Bitcoin transaction, and the same one with a Decred output *)
Example make_tx_parts_ex : exists t, make_tx toy BitcoinMain 2 [AnyIn ex_input] [AnyOut ex_output] 258 None 0 None None NoWits None None None None = Ok (AnyTx t).
Proof. eexists. vm_compute. reflexivity. Qed.
Example make_tx_overwinter_ex : exists t, make_tx toy ZcashOverwinterMain 3 [AnyIn ex_input] [AnyOut ex_output] 258 (Some 7) 0 None None NoWits
  (Some [AnySproutJs ex_sprout_joinsplit]) (Some (repeat 8 32)) (Some (repeat 9 64)) None = Ok (AnyOverwinterTx t).
Proof. eexists. vm_compute. reflexivity. Qed.
Example make_tx_foreign_ex : exists o, DecredTxOut DecredMain (repeat 1 8) (Some (repeat 0 2)) [0x51] = Ok o /\
  get_network (lit "bitcoin_main") = Ok BitcoinMain /\ numbers_fit (lit "bitcoin_main") 2 258 None 0 /\
  foreign (lit "bitcoin_main") [AnyIn ex_input] [AnyOut ex_output; AnyDecredOut o] NoWits None /\
  foreign (lit "decred_main") [AnyIn ex_input] [AnyDecredOut o] NoWits None /\
  foreign (lit "zcash_sapling_main") [AnyIn ex_input] [] NoWits (Some [AnySproutJs ex_sprout_joinsplit]).
Proof.
  eexists. split; [vm_compute; reflexivity|]. split; [reflexivity|].
  assert (forall x l, LNet.str_mem x l = false -> ~ In x l) as N.
  { intros x l E I. apply LNet.str_mem_In in I. congruence. }
  split; [|split; [|split]].
  - split; [lia|]. split; [intros _ _; lia|]. split.
    + intros [X|[X|X]]; exfalso; revert X; apply N; reflexivity.
    + intros X; exfalso; revert X; apply N; reflexivity.
  - right. left. split; [apply N; reflexivity|]. right. apply Exists_cons_tl, Exists_cons_hd. exact I.
  - left. split; [apply LNet.str_mem_In; reflexivity|]. left. apply Exists_cons_hd. intros X. exact X.
  - right. right. right. left. split; [apply LNet.str_mem_In; reflexivity|]. apply Exists_cons_hd. intros X. exact X.
Qed.
