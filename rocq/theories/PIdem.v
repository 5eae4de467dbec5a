(* C87: parsing what was parsed *)
From Coq Require Import String.
From Verif Require Import Py LBase MNet MUtils MShared MScript MTx SHash SNum SNet STx SIdem LTx LTxParse LIdem LIdemErr PTx.
Open Scope list_scope.
Open Scope Z_scope.

Section Hashes.
Context (H : hashes).

(* Whatever the bytes, a transaction that the parser accepts is one that the constructor
   accepts, and its own bytes are no longer than those it came from *)
Theorem tx_parsed name net b t : get_network name = Ok net -> all_bytes b -> Tx_from_bytes H net b = Ok t ->
  tx_obj H net t /\ tx_bytes t = wire_tx (the_tx t) /\ transaction_ok (the_tx t) /\ len (tx_bytes t) <= len b.
Proof.
  intros En B E. destruct (Tx_size H name net b t En B E) as [O [L _]]. destruct (tx_wire H name net t En O) as [W K].
  split; [exact O|]. split; [exact W|]. split; [exact K|exact L].
Qed.

(* and its own bytes give the very same object, attribute by attribute; so do they
   with anything behind them, unless the flag is set and the witnesses are missing *)
Theorem tx_reparse name net b t : get_network name = Ok net -> ~ In name upgraded_zcash -> all_bytes b ->
  Tx_from_bytes H net b = Ok t ->
  Tx_from_bytes H net (tx_bytes t) = Ok t /\
  (bip144 (the_tx t) -> forall rest, Tx_from_bytes H net (tx_bytes t ++ rest) = Ok t).
Proof.
  intros En U B E.
  assert (readable_tx name (the_tx t)) as R.
  { unfold readable_tx, readable_scripts, readable_size. split; [apply Forall_forall; auto|]. destruct (t_witness (the_tx t)); [|exact I].
    apply Forall_forall. intros st _. apply Forall_forall. auto. }
  split; [rewrite <- (app_nil_r (tx_bytes t)); apply (Tx_again H name net b t [] En B E R); auto|].
  intros Bp rest. apply (Tx_again H name net b t rest En B E R). auto.
Qed.

(* on an upgraded Zcash network, if no script sig and no witness item in it has 253, 254 or 255 bytes *)
Theorem tx_reparse_readable name net b t : get_network name = Ok net -> all_bytes b ->
  Tx_from_bytes H net b = Ok t -> readable_tx name (the_tx t) ->
  Tx_from_bytes H net (tx_bytes t) = Ok t /\
  (bip144 (the_tx t) -> forall rest, Tx_from_bytes H net (tx_bytes t ++ rest) = Ok t).
Proof.
  intros En B E R. split; [rewrite <- (app_nil_r (tx_bytes t)); apply (Tx_again H name net b t [] En B E R); auto|].
  intros Bp rest. apply (Tx_again H name net b t rest En B E R). auto.
Qed.
(* and otherwise they are refused *)
Theorem tx_reparse_unreadable name net b t rest : get_network name = Ok net -> all_bytes b ->
  Tx_from_bytes H net b = Ok t -> ~ readable_tx name (the_tx t) -> Tx_from_bytes H net (tx_bytes t ++ rest) = Err ValueError.
Proof. intros En B E R. apply (Tx_refused H name net b t rest En B E R). Qed.
End Hashes.

(* The same for inputs: any bytes at all that are read as an input *)
Theorem txin_reparse name net b i rest : get_network name = Ok net -> all_bytes b -> TxIn_from_bytes net b = Ok i ->
  readable_size name (len (ti_script_sig i)) ->
  txin_obj i /\ len (ti_bytes i) <= len b /\ TxIn_from_bytes net (ti_bytes i ++ rest) = Ok i.
Proof.
  intros En B E R. destruct (TxIn_again name net b i En B E) as [O A]. split; [exact O|].
  split; [apply (TxIn_size name net b i En B E)|]. apply A, (readable_spec name net _ En R).
Qed.

(* a transaction with one input, whose script sig is s and whose sequence number ends
   in a 1, and one output, in front of which is the count n *)
Definition with_script_sig (s n : bytes) : bytes :=
  [1; 0; 0; 0; 1] ++ repeat 7 32 ++ [2; 0; 0; 0] ++ compactsize (len s) ++ s ++ [255; 255; 255; 1] ++
  n ++ [9; 0; 0; 0; 0; 0; 0; 0; 1; 81] ++ [0; 0; 0; 0].

(* A script sig that is rewritten: the push of a redeem script in a longer form than needed.
   The parser goes on where the rewritten input would end, one byte too early, so these bytes
   are not those of a transaction: the count of outputs is missing *)
Example reparse_example :
  exists net t, get_network (lit "bitcoin_main") = Ok net /\ ~ In (lit "bitcoin_main") upgraded_zcash /\
    all_bytes (with_script_sig [81; 76; 1; 82] []) /\ Tx_from_bytes toy net (with_script_sig [81; 76; 1; 82] []) = Ok t /\
    tx_bytes t = with_script_sig [81; 1; 82] [1] /\ Tx_from_bytes toy net (tx_bytes t) = Ok t.
Proof.
  eexists. eexists. split; [reflexivity|]. split; [intros X; vm_compute in X; decompose [or] X; try discriminate; assumption|].
  split; [repeat constructor; discriminate|]. split; [vm_compute; reflexivity|]. split; vm_compute; reflexivity.
Qed.

(* On an upgraded Zcash network the bytes of an accepted transaction can be refused: the
   script sig has 256 bytes, the parser makes that 255 *)
Theorem tx_reparse_refuted :
  exists name net b t, get_network name = Ok net /\ all_bytes b /\ Tx_from_bytes toy net b = Ok t /\
    Tx_from_bytes toy net (tx_bytes t) = Err ValueError.
Proof.
  exists (lit "zcash_sapling_main").
  assert (all_bytes (with_script_sig (repeat 81 253 ++ [76; 1; 82]) [])) as B.
  { apply Forall_forall. intros x I.
    assert (forallb (fun x => (0 <=? x) && (x <? 256)) (with_script_sig (repeat 81 253 ++ [76; 1; 82]) []) = true) as F by reflexivity.
    rewrite forallb_forall in F. specialize (F x I). lia. }
  eexists. exists (with_script_sig (repeat 81 253 ++ [76; 1; 82]) []). eexists. split; [reflexivity|]. split; [exact B|].
  split; [vm_compute; reflexivity|]. vm_compute. reflexivity.
Qed.

Print Assumptions tx_parsed.
Print Assumptions tx_reparse.
Print Assumptions tx_reparse_readable.
Print Assumptions tx_reparse_unreadable.
Print Assumptions txin_reparse.
Print Assumptions tx_reparse_refuted.
