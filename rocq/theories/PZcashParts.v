(* C45: proofs, JoinSplits, shielded spends and outputs of Zcash.  [fields_wire],
   [widths_ok] and the field tables are in SZcash.v. *)
From Coq Require Import String.
From Verif Require Import Py MNet MUtils MShared MTx MZcash SNum SNet SHash SScript STx SSig SZcash LNet LZcash LZcashParts.
Open Scope list_scope.
Open Scope Z_scope.

(* constructors accept exactly the fields of the right widths, and JoinSplits that
   move value one way; otherwise ValueError.  The fields are kept *)
Theorem sprout_proof_accepts : forall name net a b c d e f g h, get_network name = Ok net ->
  let ok := In name zcash_names /\ widths_ok [(a, 33); (b, 33); (c, 65); (d, 33); (e, 33); (f, 33); (g, 33); (h, 33)] in
  (ok -> exists p, SproutZkproof net a b c d e f g h = Ok p /\ sprout_proof_obj net p /\
                   map fst (sprout_proof_fields p) = [a; b; c; d; e; f; g; h]) /\
  (~ ok -> SproutZkproof net a b c d e f g h = Err ValueError).
Proof. intros name net a b c d e f g h En. exact (sprout_proof_ctor name net En a b c d e f g h). Qed.
Print Assumptions sprout_proof_accepts.
Theorem sapling_proof_accepts : forall name net a b c, get_network name = Ok net ->
  let ok := In name zcash_names /\ widths_ok [(a, 48); (b, 96); (c, 48)] in
  (ok -> exists p, SaplingZkproof net a b c = Ok p /\ sapling_proof_obj net p /\ map fst (sapling_proof_fields p) = [a; b; c]) /\
  (~ ok -> SaplingZkproof net a b c = Err ValueError).
Proof. intros name net a b c En. exact (sapling_proof_ctor name net En a b c). Qed.
Print Assumptions sapling_proof_accepts.
Example proof_accepts_ex : In (lit "zcash_sapling_main") zcash_names /\ widths_ok [(repeat 1 48, 48); (repeat 2 96, 96); (repeat 3 48, 48)].
Proof. split; [vm_compute; tauto|repeat constructor]. Qed.

Theorem sprout_joinsplit_accepts : forall name net o n a nf cm ek rs vm zk en, get_network name = Ok net -> sprout_proof_obj net zk ->
  (joinsplit_rules name o n a nf cm ek rs vm en ->
   exists j, SproutJoinsplit net o n a nf cm ek rs vm zk en = Ok j /\ sprout_joinsplit_obj net j /\
     map fst (sprout_joinsplit_fields j) = [o; n; a; nf; cm; ek; rs; vm; sprout_proof_wire zk; en] /\ js_zkproof j = zk) /\
  (~ joinsplit_rules name o n a nf cm ek rs vm en -> SproutJoinsplit net o n a nf cm ek rs vm zk en = Err ValueError).
Proof. intros name net o n a nf cm ek rs vm zk en En. exact (sprout_joinsplit_ctor name net En o n a nf cm ek rs vm zk en). Qed.
Print Assumptions sprout_joinsplit_accepts.
Theorem sapling_joinsplit_accepts : forall name net o n a nf cm ek rs vm zk en, get_network name = Ok net -> sapling_proof_obj net zk ->
  (joinsplit_rules name o n a nf cm ek rs vm en ->
   exists j, SaplingJoinsplit net o n a nf cm ek rs vm zk en = Ok j /\ sapling_joinsplit_obj net j /\
     map fst (sapling_joinsplit_fields j) = [o; n; a; nf; cm; ek; rs; vm; sapling_proof_wire zk; en] /\ js_zkproof j = zk) /\
  (~ joinsplit_rules name o n a nf cm ek rs vm en -> SaplingJoinsplit net o n a nf cm ek rs vm zk en = Err ValueError).
Proof. intros name net o n a nf cm ek rs vm zk en En. exact (sapling_joinsplit_ctor name net En o n a nf cm ek rs vm zk en). Qed.
Print Assumptions sapling_joinsplit_accepts.
Theorem spend_accepts : forall name net cv an nf rk zk sg, get_network name = Ok net -> sapling_proof_obj net zk ->
  let ok := In name zcash_names /\ widths_ok [(cv, 32); (an, 32); (nf, 32); (rk, 32); (sg, 64)] in
  (ok -> exists s, SaplingShieldedSpend net cv an nf rk zk sg = Ok s /\ spend_obj net s /\
     map fst (spend_fields s) = [cv; an; nf; rk; sapling_proof_wire zk; sg] /\ ss_zkproof s = zk) /\
  (~ ok -> SaplingShieldedSpend net cv an nf rk zk sg = Err ValueError).
Proof. intros name net cv an nf rk zk sg En. exact (spend_ctor name net En cv an nf rk zk sg). Qed.
Print Assumptions spend_accepts.
Theorem shielded_output_accepts : forall name net cv cm ek ec oc zk, get_network name = Ok net -> sapling_proof_obj net zk ->
  let ok := In name zcash_names /\ widths_ok [(cv, 32); (cm, 32); (ek, 32); (ec, 580); (oc, 80)] in
  (ok -> exists o, SaplingShieldedOutput net cv cm ek ec oc zk = Ok o /\ shielded_output_obj net o /\
     map fst (output_fields o) = [cv; cm; ek; ec; oc; sapling_proof_wire zk] /\ so_zkproof o = zk) /\
  (~ ok -> SaplingShieldedOutput net cv cm ek ec oc zk = Err ValueError).
Proof. intros name net cv cm ek ec oc zk En. exact (shielded_output_ctor name net En cv cm ek ec oc zk). Qed.
Print Assumptions shielded_output_accepts.
(* one that is accepted, and one that moves value both ways *)
Example joinsplit_accepts_ex : exists p j,
  SproutZkproof ZcashOverwinterMain (repeat 1 33) (repeat 2 33) (repeat 3 65) (repeat 4 33) (repeat 5 33) (repeat 6 33) (repeat 7 33) (repeat 8 33) = Ok p /\
  SproutJoinsplit ZcashOverwinterMain (repeat 0 8) (repeat 1 8) (repeat 9 32) (repeat 10 64) (repeat 11 64) (repeat 12 32) (repeat 13 32) (repeat 14 64) p (repeat 15 1202) = Ok j /\
  SproutJoinsplit ZcashOverwinterMain (repeat 2 8) (repeat 1 8) (repeat 9 32) (repeat 10 64) (repeat 11 64) (repeat 12 32) (repeat 13 32) (repeat 14 64) p (repeat 15 1202) = Err ValueError.
Proof. eexists. eexists. repeat split; vm_compute; reflexivity. Qed.

(* encoding: the fields in order, always the same width; decoding gives the object
   back whatever follows *)
Theorem sprout_proof_roundtrip : forall net p, sprout_proof_obj net p ->
  zk_bytes p = sprout_proof_wire p /\ len (zk_bytes p) = 296 /\ widths_ok (sprout_proof_fields p) /\ 
  forall rest, SproutZkproof_from_bytes net (zk_bytes p ++ rest) = Ok p.
Proof. exact sprout_proof_code. Qed.
Print Assumptions sprout_proof_roundtrip.
Theorem sapling_proof_roundtrip : forall net p, sapling_proof_obj net p ->
  szk_bytes p = sapling_proof_wire p /\ len (szk_bytes p) = 192 /\ widths_ok (sapling_proof_fields p) /\ 
  forall rest, SaplingZkproof_from_bytes net (szk_bytes p ++ rest) = Ok p.
Proof. exact sapling_proof_code. Qed.
Print Assumptions sapling_proof_roundtrip.
Theorem sprout_joinsplit_roundtrip : forall net j, sprout_joinsplit_obj net j ->
  js_bytes j = sprout_joinsplit_wire j /\ len (js_bytes j) = 1802 /\ widths_ok (sprout_joinsplit_fields j) /\ one_way j /\ 
  forall rest, SproutJoinsplit_from_bytes net (js_bytes j ++ rest) = Ok j.
Proof. exact sprout_joinsplit_code. Qed.
Print Assumptions sprout_joinsplit_roundtrip.
Theorem sapling_joinsplit_roundtrip : forall net j, sapling_joinsplit_obj net j ->
  js_bytes j = sapling_joinsplit_wire j /\ len (js_bytes j) = 1698 /\ widths_ok (sapling_joinsplit_fields j) /\ one_way j /\ 
  forall rest, SaplingJoinsplit_from_bytes net (js_bytes j ++ rest) = Ok j.
Proof. exact sapling_joinsplit_code. Qed.
Print Assumptions sapling_joinsplit_roundtrip.
Theorem spend_roundtrip : forall net s, spend_obj net s ->
  ss_bytes s = spend_wire s /\ len (ss_bytes s) = 384 /\ widths_ok (spend_fields s) /\ 
  forall rest, SaplingShieldedSpend_from_bytes net (ss_bytes s ++ rest) = Ok s.
Proof. exact spend_code. Qed.
Print Assumptions spend_roundtrip.
Theorem shielded_output_roundtrip : forall net o, shielded_output_obj net o ->
  so_bytes o = shielded_output_wire o /\ len (so_bytes o) = 948 /\ widths_ok (output_fields o) /\ 
  forall rest, SaplingShieldedOutput_from_bytes net (so_bytes o ++ rest) = Ok o.
Proof. exact shielded_output_code. Qed.
Print Assumptions shielded_output_roundtrip.

(* decoding accepts only encodings *)
Theorem sprout_proof_decodes : forall net b p, SproutZkproof_from_bytes net b = Ok p ->
  sprout_proof_obj net p /\ exists rest, b = zk_bytes p ++ rest.
Proof. exact sprout_proof_parse_inv. Qed.
Print Assumptions sprout_proof_decodes.
Theorem sapling_proof_decodes : forall net b p, SaplingZkproof_from_bytes net b = Ok p ->
  sapling_proof_obj net p /\ exists rest, b = szk_bytes p ++ rest.
Proof. exact sapling_proof_parse_inv. Qed.
Print Assumptions sapling_proof_decodes.
Theorem sprout_joinsplit_decodes : forall net b j, SproutJoinsplit_from_bytes net b = Ok j ->
  sprout_joinsplit_obj net j /\ exists rest, b = js_bytes j ++ rest.
Proof. exact sprout_joinsplit_parse_inv. Qed.
Print Assumptions sprout_joinsplit_decodes.
Theorem sapling_joinsplit_decodes : forall net b j, SaplingJoinsplit_from_bytes net b = Ok j ->
  sapling_joinsplit_obj net j /\ exists rest, b = js_bytes j ++ rest.
Proof. exact sapling_joinsplit_parse_inv. Qed.
Print Assumptions sapling_joinsplit_decodes.
Theorem spend_decodes : forall net b s, SaplingShieldedSpend_from_bytes net b = Ok s ->
  spend_obj net s /\ exists rest, b = ss_bytes s ++ rest.
Proof. exact spend_parse_inv. Qed.
Print Assumptions spend_decodes.
Theorem shielded_output_decodes : forall net b o, SaplingShieldedOutput_from_bytes net b = Ok o ->
  shielded_output_obj net o /\ exists rest, b = so_bytes o ++ rest.
Proof. exact shielded_output_parse_inv. Qed.
Print Assumptions shielded_output_decodes.
(* and refuses the others with ValueError *)
Theorem shielded_parts_errors : forall net s e,
  (SproutZkproof_from_bytes net s = Err e -> e = ValueError) /\
  (SaplingZkproof_from_bytes net s = Err e -> e = ValueError) /\
  (SproutJoinsplit_from_bytes net s = Err e -> e = ValueError) /\
  (SaplingJoinsplit_from_bytes net s = Err e -> e = ValueError) /\
  (SaplingShieldedSpend_from_bytes net s = Err e -> e = ValueError) /\
  (SaplingShieldedOutput_from_bytes net s = Err e -> e = ValueError).
Proof. exact part_errors. Qed.
Print Assumptions shielded_parts_errors.
Example shielded_parts_ex : exists p s, SaplingZkproof ZcashSaplingMain (repeat 1 48) (repeat 2 96) (repeat 3 48) = Ok p /\
  SaplingShieldedSpend ZcashSaplingMain (repeat 4 32) (repeat 5 32) (repeat 6 32) (repeat 7 32) p (repeat 8 64) = Ok s /\
  SaplingShieldedSpend_from_bytes ZcashSaplingMain (ss_bytes s ++ [1; 2; 3]) = Ok s /\
  SaplingShieldedSpend_from_bytes ZcashSaplingMain (repeat 0 383) = Err ValueError.
Proof. eexists. eexists. repeat split; vm_compute; reflexivity. Qed.
