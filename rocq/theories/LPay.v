(* Lemmas about paying to addresses and spending *)
From Coq Require Import String.
From Verif Require Import Py LBase MNet MUtils MAddr MShared MScript MTx MBuilder SNum SNet SHash SScript SAddr STx SSig SInterp SSign SPay
  LNet LUtils LTx LTxParse LTxWire LCopy LSig LSigBind LSigTop LAddr LBuilder LBuilderTx LInterp LSign.
Open Scope list_scope.
Open Scope Z_scope.
Ltac Zify.zify_post_hook ::= idtac.

Lemma le_value_le_bytes k n : 0 <= n < 256 ^ Z.of_nat k -> le_value (le_bytes k n) = n.
Proof. intros R. rewrite le_value_from_le, le_bytes_to_le, from_to_le. apply Z.mod_small. exact R. Qed.

Lemma choose {A B} (R : A -> B -> Prop) l : Forall (fun a => exists b, R a b) l -> exists l', Forall2 R l l'.
Proof. induction 1 as [|a l [b X] _ [l' IH]]; [exists []; constructor|exists (b :: l'); constructor; assumption]. Qed.
Lemma Forall2_nth {A B} (R : A -> B -> Prop) l l' : Forall2 R l l' -> length l = length l' /\ forall n b, nth_error l' n = Some b -> exists a, nth_error l n = Some a /\ R a b.
Proof.
  induction 1 as [|a b l l' X F [L IH]]; [split; [reflexivity|intros [|n] b E; discriminate E]|]. split; [cbn; congruence|].
  intros [|n] c E; cbn [nth_error] in *; [injection E as <-; eauto|apply IH, E].
Qed.

Lemma legacy_fields H net ins outs version lock expiry js pk sg t :
  simple_unsigned_legacy_tx H net (map AnyIn ins) (map AnyOut outs) version lock expiry js pk sg = Ok (AnyTx t) ->
  tx_tx_ins t = ins /\ tx_tx_outs t = outs /\ plain t /\ (Forall txin_obj ins -> Forall txout_obj outs -> tx_obj H net t).
Proof.
  intros E0. pose proof (legacy_is_plain _ _ _ _ _ _ _ _ _ _ _ E0) as P. revert E0. unfold simple_unsigned_legacy_tx, make_tx. rewrite plain_ins_Ok, plain_outs_Ok. intros E.
  repeat match type of E with
  | bind ?x _ = Ok _ => destruct x eqn:?; cbn [bind] in E; [|discriminate E]
  | (if ?c then _ else _) = Ok _ => destruct c
  end; try discriminate E.
  apply Ok_inj in E. injection E as <-.
  repeat match goal with X : Ok _ = Ok _ |- _ => apply Ok_inj in X; subst end.
  match goal with X : Tx _ _ _ _ _ _ _ _ = Ok _ |- _ => apply tx_fields in X; destruct X as (_ & F & I & O & Ws & _ & G) end.
  split; [exact I|]. split; [exact O|]. split; [exact P|]. auto.
Qed.
Lemma witness_fields H net ins outs version lock t :
  simple_unsigned_witness_tx H net (map AnyIn ins) (map AnyOut outs) version lock = Ok (AnyTx t) ->
  tx_tx_ins t = ins /\ tx_tx_outs t = outs /\ tx_flag t <> None /\ (Forall txin_obj ins -> Forall txout_obj outs -> tx_obj H net t).
Proof.
  intros E0. pose proof (witness_is_flagged _ _ _ _ _ _ _ E0) as P. revert E0. unfold simple_unsigned_witness_tx. rewrite empty_witnesses. cbn [bind]. unfold make_tx. rewrite plain_ins_Ok, plain_outs_Ok. intros E.
  repeat match type of E with
  | bind ?x _ = Ok _ => destruct x eqn:?; cbn [bind] in E; [|discriminate E]
  | (if ?c then _ else _) = Ok _ => destruct c
  end; try discriminate E.
  apply Ok_inj in E. injection E as <-.
  repeat match goal with X : Ok _ = Ok _ |- _ => apply Ok_inj in X; subst end.
  match goal with X : Tx _ _ _ _ _ _ _ _ = Ok _ |- _ => apply tx_fields in X; destruct X as (_ & F & I & O & Ws & _ & G) end.
  split; [exact I|]. split; [exact O|]. split; [exact P|]. intros A B. apply G; auto. apply Forall_forall. intros w Iw. apply repeat_spec in Iw. subst w. exact empty_witness_obj.
Qed.

Lemma claimed_refers H name net c i : hashes_ok H -> get_network name = Ok net -> ~ In name decred_names -> tx_obj H net (c_from c) ->
  claimed net c i ->
  txin_obj i /\ ti_stack_script i = [] /\ ti_redeem_script i = [] /\ in_script (the_input i) = [] /\
  in_txid (the_input i) = double_hash H name (wire_tx (stripped (the_tx (c_from c)))) /\ le_value (in_index (the_input i)) = c_at c.
Proof.
  intros K En ND O (op & q & E1 & E2). destruct (tx_ids H name net (c_from c) En O) as (_ & Ti & _). rewrite Ti, (hash256_spec H name net _ En) in E1.
  set (h := double_hash H name _) in *. assert (all_bytes h /\ zlen h = 32) as [Bh Lh].
  { unfold h. rewrite (double_sha H name ND). unfold sha256d. split; [apply all_bytes_is_bytes|]; apply K. }
  assert (0 <= c_at c < 2 ^ 32) as R.
  { destruct (Z_le_dec 0 (c_at c)); [destruct (Z_lt_dec (c_at c) (2 ^ 32)); [lia|]|];
    rewrite (outpoint_overflow net (rev h) (c_at c) None) in E1; try discriminate; try lia; try exact I; apply all_bytes_is_bytes, Forall_rev, Bh. }
  destruct (outpoint_plain name net En (rev h) (c_at c) None ND) as (o & Eo & Oo & A & B).
  { apply all_bytes_is_bytes, Forall_rev, Bh. } { unfold len, zlen in *. rewrite rev_length. exact Lh. } { exact R. }
  rewrite Eo in E1. apply Ok_inj in E1. injection E1 as <-.
  unfold simple_unsigned_input in E2. set (s := or_self q 0xFFFFFFFE) in *.
  assert (0 <= s < 2 ^ 32) as Rs.
  { destruct (Z_le_dec 0 s); [destruct (Z_lt_dec s (2 ^ 32)); [lia|]|]; rewrite (proj1 (input_overflow net (AnyOutpoint o) [] [] s ltac:(lia))) in E2; discriminate. }
  destruct (input_plain name net En o [] [] s ND Oo Rs) as (i' & E3 & Oi & S1 & S2 & E4); [cbn; lia|]. rewrite E3 in E2. apply Ok_inj in E2. injection E2 as <-.
  rewrite E4. cbn [in_script in_txid in_index]. rewrite A, B, rev_involutive. split; [exact Oi|]. split; [exact S1|]. split; [exact S2|]. split; [reflexivity|]. split; [reflexivity|].
  apply le_value_le_bytes. exact R.
Qed.
