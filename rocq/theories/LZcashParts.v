(* Lemmas about MZcash.v: what the constructors of shielded parts accept *)
From Coq Require Import String.
From Verif Require Import Py LBase MNet MUtils MShared MTx MZcash SNum SNet SHash SScript STx SSig SZcash LNet LUtils LZcash.
Open Scope list_scope.
Open Scope Z_scope.
Ltac Zify.zify_post_hook ::= idtac.

Ltac widths_cond := unfold widths_ok; norm_spec; rewrite ?andb_true_iff, ?Z.eqb_eq;
  split; [intros A; decompose [and] A; clear A; split; [assumption|]; repeat (constructor; [assumption|]); constructor
         |intros [A W]; repeat match goal with W : Forall _ (_ :: _) |- _ => inversion W; subst; clear W end; cbn [fst snd] in *; tauto].

Section Parts.
Context (name : str) (net : network) (En : get_network name = Ok net).

Lemma sprout_proof_ctor a b c d e f g h :
  let ok := In name zcash_names /\ widths_ok [(a, 33); (b, 33); (c, 65); (d, 33); (e, 33); (f, 33); (g, 33); (h, 33)] in
  (ok -> exists p, SproutZkproof net a b c d e f g h = Ok p /\ sprout_proof_obj net p /\ map fst (sprout_proof_fields p) = [a; b; c; d; e; f; g; h]) /\
  (~ ok -> SproutZkproof net a b c d e f g h = Err ValueError).
Proof.
  intros ok. rewrite SproutZkproof_spec.
  assert (net_has net (lit "zcash") && (zlen a =? 33) && (zlen b =? 33) && (zlen c =? 65) && (zlen d =? 33) && (zlen e =? 33) && (zlen f =? 33)
     && (zlen g =? 33) && (zlen h =? 33) = true <-> ok) as I.
  { unfold ok. rewrite <- (zcash_has name net En). widths_cond. }
  split.
  - intros A. apply I in A. rewrite A. eexists. split; [reflexivity|]. apply SproutZkproof_obj. rewrite SproutZkproof_spec, A. reflexivity.
  - intros N. rewrite <- I in N. apply not_true_is_false in N. rewrite N. reflexivity.
Qed.
Lemma sapling_proof_ctor a b c :
  let ok := In name zcash_names /\ widths_ok [(a, 48); (b, 96); (c, 48)] in
  (ok -> exists p, SaplingZkproof net a b c = Ok p /\ sapling_proof_obj net p /\ map fst (sapling_proof_fields p) = [a; b; c]) /\
  (~ ok -> SaplingZkproof net a b c = Err ValueError).
Proof.
  intros ok. rewrite SaplingZkproof_spec.
  assert (net_has net (lit "zcash") && (zlen a =? 48) && (zlen b =? 96) && (zlen c =? 48) = true <-> ok) as I.
  { unfold ok. rewrite <- (zcash_has name net En). widths_cond. }
  split.
  - intros A. apply I in A. rewrite A. eexists. split; [reflexivity|]. apply SaplingZkproof_obj. rewrite SaplingZkproof_spec, A. reflexivity.
  - intros N. rewrite <- I in N. apply not_true_is_false in N. rewrite N. reflexivity.
Qed.

Lemma js_cond o n a nf cm ek rs vm en :
  net_has net (lit "zcash") && vpubs o n && (zlen o =? 8) && (zlen n =? 8) && (zlen a =? 32) && (zlen nf =? 64) && (zlen cm =? 64)
     && (zlen ek =? 32) && (zlen rs =? 32) && (zlen vm =? 64) && (zlen en =? 1202) = true <-> joinsplit_rules name o n a nf cm ek rs vm en.
Proof.
  unfold joinsplit_rules. rewrite <- (zcash_has name net En). unfold vpubs, widths_ok. norm_spec. rewrite !andb_true_iff, orb_true_iff, !Z.eqb_eq.
  split; [intros A; decompose [and] A; clear A; split; [assumption|]; split; [assumption|]; repeat (constructor; [assumption|]); constructor
         |intros [A [B W]]; repeat match goal with W : Forall _ (_ :: _) |- _ => inversion W; subst; clear W end; cbn [fst snd] in *; tauto].
Qed.
Lemma sprout_joinsplit_ctor o n a nf cm ek rs vm (zk : sprout_zkproof) en : sprout_proof_obj net zk ->
  (joinsplit_rules name o n a nf cm ek rs vm en -> exists j, SproutJoinsplit net o n a nf cm ek rs vm zk en = Ok j /\ sprout_joinsplit_obj net j /\
     map fst (sprout_joinsplit_fields j) = [o; n; a; nf; cm; ek; rs; vm; sprout_proof_wire zk; en] /\ js_zkproof j = zk) /\
  (~ joinsplit_rules name o n a nf cm ek rs vm en -> SproutJoinsplit net o n a nf cm ek rs vm zk en = Err ValueError).
Proof.
  intros Op. rewrite <- js_cond. unfold sprout_joinsplit_obj, SproutJoinsplit. rewrite Joinsplit_spec. split.
  - intros A. rewrite A. eexists. split; [reflexivity|]. cbn [js_zkproof js_vpub_old js_vpub_new js_anchor js_nullifiers js_commitments js_ephemeral_key js_random_seed js_vmacs js_encoded_notes].
    rewrite Joinsplit_spec, A. auto.
  - intros N. apply not_true_is_false in N. rewrite N. reflexivity.
Qed.
Lemma sapling_joinsplit_ctor o n a nf cm ek rs vm (zk : sapling_zkproof) en : sapling_proof_obj net zk ->
  (joinsplit_rules name o n a nf cm ek rs vm en -> exists j, SaplingJoinsplit net o n a nf cm ek rs vm zk en = Ok j /\ sapling_joinsplit_obj net j /\
     map fst (sapling_joinsplit_fields j) = [o; n; a; nf; cm; ek; rs; vm; sapling_proof_wire zk; en] /\ js_zkproof j = zk) /\
  (~ joinsplit_rules name o n a nf cm ek rs vm en -> SaplingJoinsplit net o n a nf cm ek rs vm zk en = Err ValueError).
Proof.
  intros Op. rewrite <- js_cond. unfold sapling_joinsplit_obj, SaplingJoinsplit. rewrite Joinsplit_spec. split.
  - intros A. rewrite A. eexists. split; [reflexivity|]. cbn [js_zkproof js_vpub_old js_vpub_new js_anchor js_nullifiers js_commitments js_ephemeral_key js_random_seed js_vmacs js_encoded_notes].
    rewrite Joinsplit_spec, A. auto.
  - intros N. apply not_true_is_false in N. rewrite N. reflexivity.
Qed.
Lemma spend_ctor cv an nf rk zk sg : sapling_proof_obj net zk ->
  let ok := In name zcash_names /\ widths_ok [(cv, 32); (an, 32); (nf, 32); (rk, 32); (sg, 64)] in
  (ok -> exists s, SaplingShieldedSpend net cv an nf rk zk sg = Ok s /\ spend_obj net s /\
     map fst (spend_fields s) = [cv; an; nf; rk; sapling_proof_wire zk; sg] /\ ss_zkproof s = zk) /\
  (~ ok -> SaplingShieldedSpend net cv an nf rk zk sg = Err ValueError).
Proof.
  intros Op ok. unfold spend_obj. rewrite Spend_spec.
  assert (net_has net (lit "zcash") && (zlen cv =? 32) && (zlen an =? 32) && (zlen nf =? 32) && (zlen rk =? 32) && (zlen sg =? 64) = true <-> ok) as I.
  { unfold ok. rewrite <- (zcash_has name net En). widths_cond. }
  split.
  - intros A. apply I in A. rewrite A. eexists. split; [reflexivity|]. cbn [ss_zkproof ss_cv ss_anchor ss_nullifier ss_rk ss_spend_auth_sig]. rewrite Spend_spec, A. auto.
  - intros N. rewrite <- I in N. apply not_true_is_false in N. rewrite N. reflexivity.
Qed.
Lemma shielded_output_ctor cv cm ek ec oc zk : sapling_proof_obj net zk ->
  let ok := In name zcash_names /\ widths_ok [(cv, 32); (cm, 32); (ek, 32); (ec, 580); (oc, 80)] in
  (ok -> exists o, SaplingShieldedOutput net cv cm ek ec oc zk = Ok o /\ shielded_output_obj net o /\
     map fst (output_fields o) = [cv; cm; ek; ec; oc; sapling_proof_wire zk] /\ so_zkproof o = zk) /\
  (~ ok -> SaplingShieldedOutput net cv cm ek ec oc zk = Err ValueError).
Proof.
  intros Op ok. unfold shielded_output_obj. rewrite Output_spec.
  assert (net_has net (lit "zcash") && (zlen cv =? 32) && (zlen cm =? 32) && (zlen ek =? 32) && (zlen ec =? 580) && (zlen oc =? 80) = true <-> ok) as I.
  { unfold ok. rewrite <- (zcash_has name net En). widths_cond. }
  split.
  - intros A. apply I in A. rewrite A. eexists. split; [reflexivity|]. cbn [so_zkproof so_cv so_cmu so_ephemeral_key so_enc_ciphertext so_out_ciphertext]. rewrite Output_spec, A. auto.
  - intros N. rewrite <- I in N. apply not_true_is_false in N. rewrite N. reflexivity.
Qed.

(* encode and decode *)
Lemma sprout_proof_code p : sprout_proof_obj net p -> zk_bytes p = sprout_proof_wire p /\ len (zk_bytes p) = 296 /\ widths_ok (sprout_proof_fields p) /\
  forall rest, SproutZkproof_from_bytes net (zk_bytes p ++ rest) = Ok p.
Proof.
  intros O. pose proof O as O'. apply sprout_proof_obj_iff in O'. destruct O' as [_ [W E]]. split; [exact E|]. split; [rewrite E; apply (fields_len _ W)|].
  split; [exact W|]. intros rest. apply sprout_proof_parse, O.
Qed.
Lemma sapling_proof_code p : sapling_proof_obj net p -> szk_bytes p = sapling_proof_wire p /\ len (szk_bytes p) = 192 /\ widths_ok (sapling_proof_fields p) /\
  forall rest, SaplingZkproof_from_bytes net (szk_bytes p ++ rest) = Ok p.
Proof.
  intros O. pose proof O as O'. apply sapling_proof_obj_iff in O'. destruct O' as [_ [W E]]. split; [exact E|]. split; [rewrite E; apply (fields_len _ W)|].
  split; [exact W|]. intros rest. apply sapling_proof_parse, O.
Qed.
Lemma sprout_joinsplit_code j : sprout_joinsplit_obj net j -> js_bytes j = sprout_joinsplit_wire j /\ len (js_bytes j) = 1802 /\
  widths_ok (sprout_joinsplit_fields j) /\ one_way j /\ forall rest, SproutJoinsplit_from_bytes net (js_bytes j ++ rest) = Ok j.
Proof.
  intros O. pose proof O as O'. apply sprout_joinsplit_obj_iff in O'. destruct O' as [_ [V [W E]]]. split; [exact E|]. split; [rewrite E; apply (fields_len _ W)|].
  split; [exact W|]. split; [exact V|]. intros rest. apply sprout_joinsplit_parse, O.
Qed.
Lemma sapling_joinsplit_code j : sapling_joinsplit_obj net j -> js_bytes j = sapling_joinsplit_wire j /\ len (js_bytes j) = 1698 /\
  widths_ok (sapling_joinsplit_fields j) /\ one_way j /\ forall rest, SaplingJoinsplit_from_bytes net (js_bytes j ++ rest) = Ok j.
Proof.
  intros O. pose proof O as O'. apply sapling_joinsplit_obj_iff in O'. destruct O' as [_ [V [W E]]]. split; [exact E|]. split; [rewrite E; apply (fields_len _ W)|].
  split; [exact W|]. split; [exact V|]. intros rest. apply sapling_joinsplit_parse, O.
Qed.
Lemma spend_code s : spend_obj net s -> ss_bytes s = spend_wire s /\ len (ss_bytes s) = 384 /\ widths_ok (spend_fields s) /\
  forall rest, SaplingShieldedSpend_from_bytes net (ss_bytes s ++ rest) = Ok s.
Proof.
  intros O. pose proof O as O'. apply spend_obj_iff in O'. destruct O' as [_ [W E]]. split; [exact E|]. split; [rewrite E; apply (fields_len _ W)|].
  split; [exact W|]. intros rest. apply spend_parse, O.
Qed.
Lemma shielded_output_code o : shielded_output_obj net o -> so_bytes o = shielded_output_wire o /\ len (so_bytes o) = 948 /\ widths_ok (output_fields o) /\
  forall rest, SaplingShieldedOutput_from_bytes net (so_bytes o ++ rest) = Ok o.
Proof.
  intros O. pose proof O as O'. apply shielded_output_obj_iff in O'. destruct O' as [_ [W E]]. split; [exact E|]. split; [rewrite E; apply (fields_len _ W)|].
  split; [exact W|]. intros rest. apply shielded_output_parse, O.
Qed.
End Parts.
