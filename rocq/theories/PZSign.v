(* C68: a Zcash transaction signed with the library's digests is accepted by the network.
   The network's verdict on transparent inputs is in SZSign.v. *)
From Coq Require Import String.
From Verif Require Import Py SNum SNet SHash SScript SAddr SInterp STx SSig SCopy SZcash SSign SZSign MNet MUtils MScript MTx MZcash MBuilder
  LBase LBase58 LNet LTx LScript LAddr LBuilder LSig LSigTop LInterp LExamples LZcashTx LSapling LSprout LZcashTop LSign LZSign PScript PTx PSig PBuilder PCopy PInterp PZcash PZip PSign.
Open Scope list_scope.
Open Scope Z_scope.
Ltac Zify.zify_post_hook ::= idtac.

(** * Digests *)

(* the digest computed from t is the one that the network checks, in t and in every
   transaction that differs from it in script sigs only.  C68, full statement: for every
   hash type.  Missing: NONE without ANYONECANPAY, whose digest is wrong (C42, C43), and
   for Sprout everything but ALL, which is refused *)
Theorem overwinter_digest_is_checked_partial : forall W H net t t' n i value code ty anyone d,
  overwinter_obj H net t -> overwinter_resigned t t' -> nth_error (ow_tx_ins t') n = Some i -> (ty = ZNone -> anyone = true) ->
  overwinter_digester H net t (Z.of_nat n) (string_wire code) value ty anyone = Ok d ->
  overwinter_network_digest W H t' n (the_input i) value code (ztype_byte ty anyone) = Some d.
Proof.
  intros W H net t t' n i v c ty a d O (F & E1 & E2 & E3 & E4 & E5) E Nn D. unfold overwinter_network_digest. rewrite zhash_type_byte. f_equal.
  destruct (resigned_nth _ _ n i F E) as (j & Ej & Sj).
  assert (ty = ZSingle -> (n < length (ow_tx_outs t))%nat) as Sn.
  { intros ->. destruct (Nat.lt_ge_cases n (length (ow_tx_outs t))) as [|Ge]; [assumption|]. exfalso.
    unfold overwinter_digester in D. cbn [ztype_number] in D. rewrite (proj1 (zip_single_refuted H net n (Some (string_wire c)) (Some v) a false) t O Ge) in D. cbn [andb] in D. discriminate. }
  unfold overwinter_digester in D. rewrite (overwinter_sighash_partial H net t ty a n j c v O Ej Sn) in D by (destruct ty; [left; discriminate|right; auto|left; discriminate]).
  apply Ok_inj in D. subst d. rewrite (zip_signed_same _ _ _ Sj). unfold zip143, zip143_message, zip143_with.
  rewrite (zip_prevouts_same H a _ _ F), (zip_sequence_same H ty a _ _ F), E1, E2, E3, E4, E5. reflexivity.
Qed.
Print Assumptions overwinter_digest_is_checked_partial.
Theorem sapling_digest_is_checked_partial : forall W H net t t' n i value code ty anyone d,
  sapling_obj H net t -> sapling_resigned t t' -> nth_error (sa_tx_ins t') n = Some i -> (ty = ZNone -> anyone = true) ->
  sapling_digester H net t (Z.of_nat n) (string_wire code) value ty anyone = Ok d ->
  sapling_network_digest W H t' n (the_input i) value code (ztype_byte ty anyone) = Some d.
Proof.
  intros W H net t t' n i v c ty a d O (F & E1 & E2 & E3 & E4 & E5 & E6 & E7 & E8) E Nn D. unfold sapling_network_digest. rewrite zhash_type_byte. f_equal.
  destruct (resigned_nth _ _ n i F E) as (j & Ej & Sj).
  assert (ty = ZSingle -> (n < length (sa_tx_outs t))%nat) as Sn.
  { intros ->. destruct (Nat.lt_ge_cases n (length (sa_tx_outs t))) as [|Ge]; [assumption|]. exfalso.
    unfold sapling_digester in D. cbn [ztype_number] in D. rewrite (proj2 (zip_single_refuted H net n (Some (string_wire c)) (Some v) a false) t O Ge) in D. cbn [andb] in D. discriminate. }
  unfold sapling_digester in D. rewrite (sapling_sighash_partial H net t ty a n j c v O Ej Sn) in D by (destruct ty; [left; discriminate|right; auto|left; discriminate]).
  apply Ok_inj in D. subst d. rewrite (zip_signed_same _ _ _ Sj). unfold zip243, zip243_message, zip243_with.
  rewrite (zip_prevouts_same H a _ _ F), (zip_sequence_same H ty a _ _ F), E1, E2, E3, E4, E5, E6, E7, E8. reflexivity.
Qed.
Print Assumptions sapling_digest_is_checked_partial.
Theorem sprout_digest_is_checked_partial : forall W H name net t t' n i value code ty anyone d,
  get_network name = Ok net -> sprout_obj H net t -> sprout_resigned t t' -> nth_error (sp_tx_ins t') n = Some i ->
  readable_size name (len code) -> len code < 2 ^ 64 ->
  sprout_digester H net t (Z.of_nat n) (string_wire code) value ty anyone = Ok d ->
  ty = ZAll /\ anyone = false /\ sprout_network_digest W H t' n (the_input i) value code (ztype_byte ty anyone) = Some d.
Proof.
  intros W H name net t t' n i v c ty a d En O (F & E1 & E2 & E3 & E4 & E5) E Rs Lc D.
  destruct (resigned_nth _ _ n i F E) as (j & Ej & Sj). unfold sprout_digester in D. destruct ty; [|discriminate|].
  - rewrite (sprout_sighash H name net t n j c a En O Ej Rs Lc) in D. destruct a; [rewrite andb_false_r in D; discriminate|].
    split; [reflexivity|]. split; [reflexivity|]. destruct (_ && _) in D; [|discriminate]. apply Ok_inj in D. subst d. cbn [sprout_network_digest ztype_byte ztype_number]. unfold sprout_network_digest. cbn [zhash_type Z.add].
    change (zhash_type 1) with (Some (ZAll, false)). cbv beta iota. f_equal. unfold sprout_signed.
    rewrite E1, E2, E3, E4, E5, (with_script_same [] _ _ (F2_firstn _ n _ _ F)), (with_script_same [] _ _ (F2_skipn _ (S n) _ _ F)), (with_script_same c _ _ (F2_firstn _ 1 _ _ (F2_skipn _ n _ _ F))). reflexivity.
  - destruct (sprout_sighash_errors H net t O) as (_ & X & _). rewrite X in D. discriminate.
Qed.
Print Assumptions sprout_digest_is_checked_partial.

(** * P2PKH inputs *)

(* the signed input is accepted exactly with the right key and a valid signature *)
Theorem overwinter_p2pkh_signed_partial : forall W H name net t t' n i value pubkey script signature key ty anyone d text,
  hashes_ok H -> get_network name = Ok net -> In name overwinter_names -> overwinter_obj H net t -> overwinter_resigned t t' ->
  nth_error (ow_tx_ins t') n = Some i -> make_p2pkh_output_script H net pubkey = Ok script -> (ty = ZNone -> anyone = true) ->
  overwinter_digester H net t (Z.of_nat n) (string_wire script) value ty anyone = Ok d ->
  all_bytes signature -> len signature <= 519 -> len signature <> 19 -> all_bytes key -> 1 <= len key <= 520 ->
  words [hex (signature ++ [ztype_byte ty anyone]); hex key] text -> serialize net text = Ok (in_script (the_input i)) ->
  (overwinter_accepted W H name t' n value script = true <-> key_hash H name key = key_hash H name pubkey /\ ecdsa W key d signature = Some true).
Proof.
  intros W H name net t t' n i v pk script sg key ty a d text K En Z O R E Es Nn D B1 L1 L19 B2 L2 Wd Se.
  unfold overwinter_accepted, zcash_accepted. cbn [transparent_part t_ins]. rewrite nth_error_map, E. cbn [option_map].
  apply (zcash_p2pkh W H name net _ _ _ pk script sg key (ztype_byte ty a) d text K En); auto; [apply overwinter_zcash, Z| |apply ztype_byte_range].
  exact (overwinter_digest_is_checked_partial W H net t t' n i v script ty a d O R E Nn D).
Qed.
Print Assumptions overwinter_p2pkh_signed_partial.
Theorem sapling_p2pkh_signed_partial : forall W H name net t t' n i value pubkey script signature key ty anyone d text,
  hashes_ok H -> get_network name = Ok net -> In name sapling_names -> sapling_obj H net t -> sapling_resigned t t' ->
  nth_error (sa_tx_ins t') n = Some i -> make_p2pkh_output_script H net pubkey = Ok script -> (ty = ZNone -> anyone = true) ->
  sapling_digester H net t (Z.of_nat n) (string_wire script) value ty anyone = Ok d ->
  all_bytes signature -> len signature <= 519 -> len signature <> 19 -> all_bytes key -> 1 <= len key <= 520 ->
  words [hex (signature ++ [ztype_byte ty anyone]); hex key] text -> serialize net text = Ok (in_script (the_input i)) ->
  (sapling_accepted W H name t' n value script = true <-> key_hash H name key = key_hash H name pubkey /\ ecdsa W key d signature = Some true).
Proof.
  intros W H name net t t' n i v pk script sg key ty a d text K En Z O R E Es Nn D B1 L1 L19 B2 L2 Wd Se.
  unfold sapling_accepted, zcash_accepted. cbn [transparent_part t_ins]. rewrite nth_error_map, E. cbn [option_map].
  apply (zcash_p2pkh W H name net _ _ _ pk script sg key (ztype_byte ty a) d text K En); auto; [apply sapling_zcash, Z| |apply ztype_byte_range].
  exact (sapling_digest_is_checked_partial W H net t t' n i v script ty a d O R E Nn D).
Qed.
Print Assumptions sapling_p2pkh_signed_partial.
Theorem sprout_p2pkh_signed_partial : forall W H name net t t' n i value pubkey script signature key ty anyone d text,
  hashes_ok H -> get_network name = Ok net -> In name sprout_names -> sprout_obj H net t -> sprout_resigned t t' ->
  nth_error (sp_tx_ins t') n = Some i -> make_p2pkh_output_script H net pubkey = Ok script ->
  sprout_digester H net t (Z.of_nat n) (string_wire script) value ty anyone = Ok d ->
  all_bytes signature -> len signature <= 519 -> len signature <> 19 -> all_bytes key -> 1 <= len key <= 520 ->
  words [hex (signature ++ [ztype_byte ty anyone]); hex key] text -> serialize net text = Ok (in_script (the_input i)) ->
  (sprout_accepted W H name t' n value script = true <-> key_hash H name key = key_hash H name pubkey /\ ecdsa W key d signature = Some true).
Proof.
  intros W H name net t t' n i v pk script sg key ty a d text K En Z O R E Es D B1 L1 L19 B2 L2 Wd Se.
  unfold sprout_accepted, zcash_accepted. cbn [transparent_part t_ins]. rewrite nth_error_map, E. cbn [option_map].
  apply (zcash_p2pkh W H name net _ _ _ pk script sg key (ztype_byte ty a) d text K En); auto; [apply sprout_zcash, Z| |apply ztype_byte_range].
  pose proof (p2pkh_len H name net pk script K En Es) as L25.
  apply (sprout_digest_is_checked_partial W H name net t t' n i v script ty a d En O R E); [rewrite L25; right; lia|rewrite L25; lia|exact D].
Qed.
Print Assumptions sprout_p2pkh_signed_partial.

(** * Whole transactions *)

(* all inputs spend P2PKH outputs; their script sigs are copied in.  copy returns unless
   the result is too long *)
Theorem overwinter_transaction_accepted : forall W H name net t spent ins,
  hashes_ok H -> get_network name = Ok net -> In name overwinter_names -> overwinter_obj H net t ->
  length spent = length (ow_tx_ins t) -> length ins = length (ow_tx_ins t) ->
  (forall n i o i', nth_error (ow_tx_ins t) n = Some i -> nth_error spent n = Some o -> nth_error ins n = Some i' ->
     zcash_signed_input W H net (overwinter_digester H net t) n i o i') ->
  let r := OverwinterTx_copy H net t (Some ins) None None None None None None in
  (forall t', r = Ok t' -> overwinter_obj H net t' /\ overwinter_resigned t t' /\ accepts_all (overwinter_accepted W H name t') spent) /\
  (len (overwinter_layout ins (ow_tx_outs t) (ow_lock_time t) (ow_expiry_height t) (ow_tx_joinsplits t) (ow_joinsplit_pubkey t) (ow_joinsplit_sig t)) <= 100000 ->
   exists t', r = Ok t').
Proof.
  intros W H name net t spent ins K En Z O Ls Li F r. pose proof (proj1 O) as Fi.
  destruct (signed_inputs W H net (overwinter_digester H net t) _ _ _ Fi Ls Li F) as (Fi' & F2 & _).
  destruct (copy_overwinter H net t (Some ins) None None None None None None O) as (_ & Er & X). cbn [updated updated_opt if_given] in Er, X.
  split.
  - intros t' C. destruct (X t' C) as (X1 & X2 & X3 & X4 & X5 & X6 & _ & Xo). pose proof (Xo Fi' I I) as O'.
    assert (overwinter_resigned t t') as R.
    { unfold overwinter_resigned. rewrite X1, X2, X3, X4, X5, X6. repeat (split; [assumption || reflexivity|]). exact (proj1 (overwinter_needed H net t O)). }
    split; [exact O'|]. split; [exact R|]. unfold overwinter_accepted. rewrite X1.
    apply (inputs_accepted W H name net (overwinter_digester H net t) _ _ spent ins _ _ K En (overwinter_zcash name Z) Fi Ls Li F).
    intros n i' v c ty a d E _ D Nn. rewrite <- X1 in E. exact (overwinter_digest_is_checked_partial W H net t t' n i' v c ty a d O R E Nn D).
  - intros L. fold r in Er. rewrite Er. destruct (overwinter_needed H net t O) as [N1 N2]. apply overwinter_obj_iff in O. destruct O as (_ & Fo & Fj & A & _).
    apply (ow_rules_iff name net En _ _ _ _ _ _ _ Fi Fo Fj) in A. destruct A as (A1 & A2 & A3 & A4 & A5 & A6 & A7 & _).
    destruct (proj1 (overwinter_ctor H name net En ins (ow_tx_outs t) (ow_lock_time t) (ow_expiry_height t) (ow_tx_joinsplits t) (ow_joinsplit_pubkey t) (ow_joinsplit_sig t) Fi' Fo Fj)) as (t' & Et & _); [|eauto].
    repeat (split; [assumption|]). split; [|rewrite <- N1, <- N2; exact L]. destruct A7 as [A7|A7]; [left|right; exact A7]. intros ->. apply A7. destruct (ow_tx_ins t); [reflexivity|discriminate Li].
Qed.
Print Assumptions overwinter_transaction_accepted.
Theorem sapling_transaction_accepted : forall W H name net t spent ins,
  hashes_ok H -> get_network name = Ok net -> In name sapling_names -> sapling_obj H net t ->
  length spent = length (sa_tx_ins t) -> length ins = length (sa_tx_ins t) ->
  (forall n i o i', nth_error (sa_tx_ins t) n = Some i -> nth_error spent n = Some o -> nth_error ins n = Some i' ->
     zcash_signed_input W H net (sapling_digester H net t) n i o i') ->
  let r := SaplingTx_copy H net t (Some ins) None None None None None None None None None None in
  (forall t', r = Ok t' -> sapling_obj H net t' /\ sapling_resigned t t' /\ accepts_all (sapling_accepted W H name t') spent) /\
  (len (sapling_layout ins (sa_tx_outs t) (sa_lock_time t) (sa_expiry_height t) (sa_value_balance t) (sa_tx_shielded_spends t) (sa_tx_shielded_outputs t)
          (sa_tx_joinsplits t) (sa_joinsplit_pubkey t) (sa_joinsplit_sig t) (sa_binding_sig t)) <= 100000 ->
   exists t', r = Ok t').
Proof.
  intros W H name net t spent ins K En Z O Ls Li F r. pose proof (proj1 O) as Fi.
  destruct (signed_inputs W H net (sapling_digester H net t) _ _ _ Fi Ls Li F) as (Fi' & F2 & _).
  destruct (copy_sapling H net t (Some ins) None None None None None None None None None None O) as (_ & Er & X). cbn [updated updated_opt if_given] in Er, X.
  split.
  - intros t' C. destruct (X t' C) as (X1 & X2 & X3 & X4 & X5 & X6 & X7 & X8 & X9 & _ & _ & Xo). pose proof (Xo Fi' I I I I) as O'.
    assert (sapling_resigned t t') as R.
    { unfold sapling_resigned. rewrite X1, X2, X3, X4, X5, X6, X7, X8, X9. repeat (split; [assumption || reflexivity|]). exact (proj1 (sapling_needed H net t O)). }
    split; [exact O'|]. split; [exact R|]. unfold sapling_accepted. rewrite X1.
    apply (inputs_accepted W H name net (sapling_digester H net t) _ _ spent ins _ _ K En (sapling_zcash name Z) Fi Ls Li F).
    intros n i' v c ty a d E _ D Nn. rewrite <- X1 in E. exact (sapling_digest_is_checked_partial W H net t t' n i' v c ty a d O R E Nn D).
  - intros L. fold r in Er. rewrite Er. destruct (sapling_needed H net t O) as (N1 & N2 & N3). apply sapling_obj_iff in O. destruct O as (_ & Fo & Fs & Fp & Fj & A & _).
    apply (sa_rules_iff name net En _ _ _ _ _ _ _ _ _ _ _ Fi Fo Fs Fp Fj) in A. destruct A as (A1 & A2 & A3 & A4 & A5 & A6 & A7 & A8 & A9 & A10 & A11 & _).
    destruct (proj1 (sapling_ctor H name net En ins (sa_tx_outs t) (sa_lock_time t) (sa_expiry_height t) (sa_value_balance t) (sa_tx_shielded_spends t) (sa_tx_shielded_outputs t) (sa_tx_joinsplits t) (sa_joinsplit_pubkey t) (sa_joinsplit_sig t) (sa_binding_sig t) Fi' Fo Fs Fp Fj)) as (t' & Et & _); [|eauto].
    repeat (split; [assumption|]). split; [|rewrite <- N1, <- N2, <- N3; exact L]. destruct A11 as [A7'|A7']; [left|right; exact A7']. intros ->. apply A7'. destruct (sa_tx_ins t); [reflexivity|discriminate Li].
Qed.
Print Assumptions sapling_transaction_accepted.
Theorem sprout_transaction_accepted : forall W H name net t spent ins,
  hashes_ok H -> get_network name = Ok net -> In name sprout_names -> sprout_obj H net t ->
  length spent = length (sp_tx_ins t) -> length ins = length (sp_tx_ins t) ->
  (forall n i o i', nth_error (sp_tx_ins t) n = Some i -> nth_error spent n = Some o -> nth_error ins n = Some i' ->
     zcash_signed_input W H net (sprout_digester H net t) n i o i') ->
  let r := SproutTx_copy H net t None (Some ins) None None None None None in
  (forall t', r = Ok t' -> sprout_obj H net t' /\ sprout_resigned t t' /\ accepts_all (sprout_accepted W H name t') spent) /\
  (len (sprout_layout (sp_version t) ins (sp_tx_outs t) (sp_lock_time t) (opts (sp_tx_joinsplits t)) (sp_joinsplit_pubkey t) (sp_joinsplit_sig t)) <= 100000 ->
   exists t', r = Ok t').
Proof.
  intros W H name net t spent ins K En Z O Ls Li F r. pose proof (proj1 (proj2 O)) as Fi.
  destruct (signed_inputs W H net (sprout_digester H net t) _ _ _ Fi Ls Li F) as (Fi' & F2 & _).
  destruct (copy_sprout H net t None (Some ins) None None None None None O I) as (_ & Er & X). cbn [updated updated_opt if_given] in Er, X.
  split.
  - intros t' C. destruct (X t' C) as (X1 & X2 & X3 & X4 & X5 & X6 & Xo). pose proof (Xo Fi' I I) as O'.
    assert (sprout_resigned t t') as R.
    { unfold sprout_resigned. rewrite X2, X3, X4, X5. repeat (split; [assumption || (symmetry; assumption) || reflexivity|]). destruct X6 as [(V & P & _)|(V & P & _)]; [|symmetry; exact P].
      rewrite P. rewrite X1 in V. destruct (sprout_version H net t O) as [(_ & _ & Q & _)|(V' & _)]; [exact Q|]. rewrite V in V'. discriminate. }
    split; [exact O'|]. split; [exact R|]. unfold sprout_accepted. rewrite X2.
    apply (inputs_accepted W H name net (sprout_digester H net t) _ _ spent ins _ _ K En (sprout_zcash name Z) Fi Ls Li F).
    intros n i' v c ty a d E L25 D Nn. rewrite <- X2 in E.
    apply (sprout_digest_is_checked_partial W H name net t t' n i' v c ty a d En O R E); [rewrite L25; right; lia|rewrite L25; lia|exact D].
  - intros L. rewrite (Er : r = _). apply sprout_obj_iff in O. destruct O as (js & Bv & _ & Fo & J & Fj & A & _). rewrite J in *. cbn [opts] in L.
    apply (sp_rules_iff name net En _ _ _ _ _ _ _ Fi Fo Fj) in A. destruct A as (A1 & A2 & A3 & _).
    destruct (proj1 (sprout_ctor H name net En (sp_version t) ins (sp_tx_outs t) (sp_lock_time t) js (sp_joinsplit_pubkey t) (sp_joinsplit_sig t) Bv Fi' Fo Fj)) as (t' & Et & _); [|eauto].
    split; [exact A1|]. split; [exact A2|]. split; [|exact L]. destruct A3 as [(V & -> & N)|A3]; [left|right; exact A3]. split; [exact V|]. split; [reflexivity|]. intros ->. apply N. destruct (sp_tx_ins t); [reflexivity|discriminate Li].
Qed.
Print Assumptions sprout_transaction_accepted.

(** * ANYONECANPAY *)

(* sighash_all and sighash_single take the flag and drop it.  A signature of their digest,
   with the flag in its last byte, is valid only if two digests of ZIP 143 coincide *)
Theorem overwinter_anyone_signed_refuted : forall H name net t t' n i value pubkey script signature (single : bool) d text,
  hashes_ok H -> get_network name = Ok net -> In name overwinter_names -> overwinter_obj H net t -> overwinter_resigned t t' ->
  nth_error (ow_tx_ins t') n = Some i -> make_p2pkh_output_script H net pubkey = Ok script ->
  (if single then overwinter_sighash_single else overwinter_sighash_all) H net t true (Some value) (Some (string_wire script)) (Z.of_nat n) false = Ok d ->
  all_bytes signature -> len signature <= 519 -> len signature <> 19 -> all_bytes pubkey -> 1 <= len pubkey <= 520 ->
  words [hex (signature ++ [if single then 131 else 129]); hex pubkey] text -> serialize net text = Ok (in_script (the_input i)) ->
  (forall W, ecdsa W pubkey d signature = Some true -> overwinter_accepted W H name t' n value script = true) ->
  let signed := zip_signed {| si_index := n; si_script := script; si_value := value |} (the_input i) in
  let ty := if single then ZSingle else ZAll in
  zip143 H ty true n signed t' = zip143 H ty false n signed t'.
Proof.
  intros H name net t t' n i v pk script sg single d text K En Z O R E Es D B1 L1 L19 B2 L2 Wd Se A signed ty.
  set (W := {| ecdsa := fun _ x _ => Some (same x d); other_digest := fun _ _ => []; other_opcode := fun _ _ => None |}).
  specialize (A W ltac:(cbn [ecdsa W]; rewrite same_refl; reflexivity)).
  assert (overwinter_network_digest W H t' n (the_input i) v script (ztype_byte ty false) = Some d) as Dn.
  { apply (overwinter_digest_is_checked_partial W H net t t' n i v script ty false d O R E); [unfold ty; destruct single; discriminate|].
    unfold overwinter_digester, ty. destruct single; exact D. }
  unfold overwinter_network_digest in Dn. rewrite zhash_type_byte in Dn. injection Dn as Dn. fold signed in Dn.
  unfold overwinter_accepted, zcash_accepted in A. cbn [transparent_part t_ins] in A. rewrite nth_error_map, E in A. cbn [option_map] in A.
  apply (zcash_p2pkh W H name net _ _ _ pk script sg pk (ztype_byte ty true) (zip143 H ty true n signed t') text K En) in A; auto.
  - destruct A as [_ A]. cbn [ecdsa W] in A. injection A as A. apply same_true in A. rewrite A. symmetry. exact Dn.
  - apply overwinter_zcash, Z.
  - unfold overwinter_network_digest. rewrite zhash_type_byte. reflexivity.
  - apply ztype_byte_range.
  - unfold ty. destruct single; exact Wd.
Qed.
Print Assumptions overwinter_anyone_signed_refuted.
Theorem sapling_anyone_signed_refuted : forall H name net t t' n i value pubkey script signature (single : bool) d text,
  hashes_ok H -> get_network name = Ok net -> In name sapling_names -> sapling_obj H net t -> sapling_resigned t t' ->
  nth_error (sa_tx_ins t') n = Some i -> make_p2pkh_output_script H net pubkey = Ok script ->
  (if single then sapling_sighash_single else sapling_sighash_all) H net t true (Some value) (Z.of_nat n) false (Some (string_wire script)) = Ok d ->
  all_bytes signature -> len signature <= 519 -> len signature <> 19 -> all_bytes pubkey -> 1 <= len pubkey <= 520 ->
  words [hex (signature ++ [if single then 131 else 129]); hex pubkey] text -> serialize net text = Ok (in_script (the_input i)) ->
  (forall W, ecdsa W pubkey d signature = Some true -> sapling_accepted W H name t' n value script = true) ->
  let signed := zip_signed {| si_index := n; si_script := script; si_value := value |} (the_input i) in
  let ty := if single then ZSingle else ZAll in
  zip243 H ty true n signed t' = zip243 H ty false n signed t'.
Proof.
  intros H name net t t' n i v pk script sg single d text K En Z O R E Es D B1 L1 L19 B2 L2 Wd Se A signed ty.
  set (W := {| ecdsa := fun _ x _ => Some (same x d); other_digest := fun _ _ => []; other_opcode := fun _ _ => None |}).
  specialize (A W ltac:(cbn [ecdsa W]; rewrite same_refl; reflexivity)).
  assert (sapling_network_digest W H t' n (the_input i) v script (ztype_byte ty false) = Some d) as Dn.
  { apply (sapling_digest_is_checked_partial W H net t t' n i v script ty false d O R E); [unfold ty; destruct single; discriminate|].
    unfold sapling_digester, ty. destruct single; exact D. }
  unfold sapling_network_digest in Dn. rewrite zhash_type_byte in Dn. injection Dn as Dn. fold signed in Dn.
  unfold sapling_accepted, zcash_accepted in A. cbn [transparent_part t_ins] in A. rewrite nth_error_map, E in A. cbn [option_map] in A.
  apply (zcash_p2pkh W H name net _ _ _ pk script sg pk (ztype_byte ty true) (zip243 H ty true n signed t') text K En) in A; auto.
  - destruct A as [_ A]. cbn [ecdsa W] in A. injection A as A. apply same_true in A. rewrite A. symmetry. exact Dn.
  - apply sapling_zcash, Z.
  - unfold sapling_network_digest. rewrite zhash_type_byte. reflexivity.
  - apply ztype_byte_range.
  - unfold ty. destruct single; exact Wd.
Qed.
Print Assumptions sapling_anyone_signed_refuted.

(** * Examples *)

(* digests that are quick to compute *)
Definition small_digest (n : Z) (m : bytes) : bytes := to_le (Z.to_nat n) (fold_left (fun a b => (a * 257 + b + 1) mod 65521) m 7).
Definition small : hashes :=
  {| h_sha256 := small_digest 32; h_rmd160 := small_digest 20; h_blake256 := small_digest 32; h_blake2b := fun p n m => small_digest n (p ++ m) |}.
Lemma small_ok : hashes_ok small.
Proof.
  unfold hashes_ok, small, small_digest. cbn [h_sha256 h_rmd160 h_blake256 h_blake2b].
  repeat split; try apply to_le_bytes; try (rewrite zlen_to_le; lia).
Qed.
Definition ex_spkh : output := {| out_value := [9; 0; 0; 0; 0; 0; 0; 0]; out_script := template P2PKH (h_rmd160 small (h_sha256 small [2; 7; 9])) |}.


(* the input with a signature of the digest d under the key [2; 7; 9] *)
Definition ex_zsigned (net : network) (i : txin) (b : Z) (d : bytes) : txin :=
  match TxIn_copy i None (Some (get (serialize net (join (lit " ") [hex (([2; 7; 9] ++ firstn 4 d) ++ [b]); hex [2; 7; 9]])))) None None with Ok i' => i' | Err _ => i end.
Lemma ex_zsigned_ok : forall net (digest : digester) (n : nat) i ty anyone, 
  make_p2pkh_output_script small net [2; 7; 9] = Ok (out_script ex_spkh) -> (ty = ZNone -> anyone = true) -> ti_redeem_script i = [] ->
  let d := get (digest (Z.of_nat n) (string_wire (out_script ex_spkh)) (out_value ex_spkh) ty anyone) in
  let i' := ex_zsigned net i (ztype_byte ty anyone) d in
  forallb (fun b => (0 <=? b) && (b <? 256)) (firstn 4 d) = true -> length (firstn 4 d) = 4%nat ->
  digest (Z.of_nat n) (string_wire (out_script ex_spkh)) (out_value ex_spkh) ty anyone = Ok d ->
  serialize net (join (lit " ") [hex (([2; 7; 9] ++ firstn 4 d) ++ [ztype_byte ty anyone]); hex [2; 7; 9]]) = Ok (ti_script_sig i') ->
  TxIn_copy i None (Some (ti_script_sig i')) None None = Ok i' ->
  zcash_signed_input toy_world small net digest n i ex_spkh i'.
Proof.
  intros net digest n i ty a Em Nn R d i' B4 L4 D Se C. 
  assert (forall l, forallb (fun b => (0 <=? b) && (b <? 256)) l = true -> all_bytes l) as Hb.
  { intros l F. apply Forall_forall. intros x I. rewrite forallb_forall in F. specialize (F x I). unfold is_byte. lia. }
  assert (all_bytes ([2; 7; 9] ++ firstn 4 d)) as B by (apply Forall_app; split; [apply Hb; reflexivity|apply Hb, B4]).
  assert (len ([2; 7; 9] ++ firstn 4 d) = 7) as L by (unfold len; rewrite app_length, L4; reflexivity).
  exists [2; 7; 9], ([2; 7; 9] ++ firstn 4 d), ty, a, d. do 2 eexists.
  split; [exact Em|]. split; [exact D|]. split; [exact Nn|]. split; [cbn [ecdsa toy_world]; rewrite same_refl; reflexivity|].
  split; [exact B|]. split; [lia|]. split; [lia|]. split; [apply Hb; reflexivity|]. split; [unfold len; cbn [length]; lia|].
  split; [apply words_join; constructor; [apply hex_is_word; [apply Forall_app; split; [exact B|constructor; [apply ztype_byte_range|constructor]]|cbn [app]; unfold len; cbn [length]; lia]|constructor; [apply hex_is_word; [apply Hb; reflexivity|unfold len; cbn [length]; lia]|constructor]]|].
  split; [exact Se|]. split; [exact R|]. exact C.
Qed.

Definition ex_ow : overwinter_tx := ow_of small ZcashOverwinterMain [ex_input; ex_input2] [ex_output] (repeat 0 4) (repeat 1 4) [] None None.
Definition ex_sa : sapling_tx := sa_of small ZcashSaplingMain [ex_input; ex_input2] [ex_output] (repeat 0 4) (repeat 1 4) (repeat 255 8) [ex_spend] [ex_shielded_output] [] None None (Some (repeat 3 64)).
Definition ex_sp : sprout_tx := sp_of small ZcashSproutMain [1; 0; 0; 0] [ex_input; ex_input2] [ex_output] (repeat 0 4) [] None None.
Lemma two_inputs : forall A B C (P : nat -> A -> B -> C -> Prop) a0 a1 b0 b1 c0 c1, P 0%nat a0 b0 c0 -> P 1%nat a1 b1 c1 ->
  forall n a b c, nth_error [a0; a1] n = Some a -> nth_error [b0; b1] n = Some b -> nth_error [c0; c1] n = Some c -> P n a b c.
Proof. intros A B C P a0 a1 b0 b1 c0 c1 P0 P1 [|[|[|n]]] a b c E1 E2 E3; cbn [nth_error] in *; try discriminate; injection E1 as <-; injection E2 as <-; injection E3 as <-; assumption. Qed.
Example overwinter_transaction_ex : exists i0 i1 t',
  OverwinterTx_copy small ZcashOverwinterMain ex_ow (Some [i0; i1]) None None None None None None = Ok t' /\ overwinter_obj small ZcashOverwinterMain ex_ow /\
  accepts_all (overwinter_accepted toy_world small (lit "zcash_overwinter_main") t') [ex_spkh; ex_spkh].
Proof.
  pose (D := overwinter_digester small ZcashOverwinterMain ex_ow). pose (code := string_wire (out_script ex_spkh)). pose (v := out_value ex_spkh).
  exists (ex_zsigned ZcashOverwinterMain ex_input (ztype_byte ZAll false) (get (D 0 code v ZAll false))), (ex_zsigned ZcashOverwinterMain ex_input2 (ztype_byte ZNone true) (get (D 1 code v ZNone true))).
  assert (overwinter_obj small ZcashOverwinterMain ex_ow) as O.
  { apply overwinter_obj_iff. split; [constructor; [split; reflexivity|constructor; [split; reflexivity|constructor]]|]. split; [constructor; [reflexivity|constructor]|]. split; [constructor|]. split; [vm_compute; reflexivity|reflexivity]. }
  destruct (overwinter_transaction_accepted toy_world small (lit "zcash_overwinter_main") ZcashOverwinterMain ex_ow [ex_spkh; ex_spkh]
    [ex_zsigned ZcashOverwinterMain ex_input (ztype_byte ZAll false) (get (D 0 code v ZAll false)); ex_zsigned ZcashOverwinterMain ex_input2 (ztype_byte ZNone true) (get (D 1 code v ZNone true))]
    small_ok eq_refl ltac:(left; reflexivity) O eq_refl eq_refl) as [A B].
  - apply (two_inputs _ _ _ (fun n i o i' => zcash_signed_input toy_world small ZcashOverwinterMain D n i o i')).
    + apply (ex_zsigned_ok ZcashOverwinterMain D 0 ex_input ZAll false); [vm_compute; reflexivity|discriminate|reflexivity|vm_compute; reflexivity|vm_compute; reflexivity|vm_compute; reflexivity|vm_compute; reflexivity|vm_compute; reflexivity].
    + apply (ex_zsigned_ok ZcashOverwinterMain D 1 ex_input2 ZNone true); [vm_compute; reflexivity|reflexivity|reflexivity|vm_compute; reflexivity|vm_compute; reflexivity|vm_compute; reflexivity|vm_compute; reflexivity|vm_compute; reflexivity].
  - destruct B as [t' C]; [vm_compute; discriminate|]. exists t'. split; [exact C|]. split; [exact O|]. exact (proj2 (proj2 (A t' C))).
Qed.
Example sapling_transaction_ex : exists i0 i1 t',
  SaplingTx_copy small ZcashSaplingMain ex_sa (Some [i0; i1]) None None None None None None None None None None = Ok t' /\ sapling_obj small ZcashSaplingMain ex_sa /\
  accepts_all (sapling_accepted toy_world small (lit "zcash_sapling_main") t') [ex_spkh; ex_spkh].
Proof.
  pose (D := sapling_digester small ZcashSaplingMain ex_sa). pose (code := string_wire (out_script ex_spkh)). pose (v := out_value ex_spkh).
  exists (ex_zsigned ZcashSaplingMain ex_input (ztype_byte ZSingle false) (get (D 0 code v ZSingle false))), (ex_zsigned ZcashSaplingMain ex_input2 (ztype_byte ZAll true) (get (D 1 code v ZAll true))).
  assert (sapling_obj small ZcashSaplingMain ex_sa) as O.
  { destruct ex_spend_obj as [Sp U]. split; [constructor; [split; reflexivity|constructor; [split; reflexivity|constructor]]|]. split; [constructor; [reflexivity|constructor]|]. split; [repeat constructor; apply Sp|]. split; [repeat constructor; apply U|]. split; [constructor|].
    apply SaplingTx_Ok. split; [vm_compute; reflexivity|reflexivity]. }
  destruct (sapling_transaction_accepted toy_world small (lit "zcash_sapling_main") ZcashSaplingMain ex_sa [ex_spkh; ex_spkh]
    [ex_zsigned ZcashSaplingMain ex_input (ztype_byte ZSingle false) (get (D 0 code v ZSingle false)); ex_zsigned ZcashSaplingMain ex_input2 (ztype_byte ZAll true) (get (D 1 code v ZAll true))]
    small_ok eq_refl ltac:(left; reflexivity) O eq_refl eq_refl) as [A B].
  - apply (two_inputs _ _ _ (fun n i o i' => zcash_signed_input toy_world small ZcashSaplingMain D n i o i')).
    + apply (ex_zsigned_ok ZcashSaplingMain D 0 ex_input ZSingle false); [vm_compute; reflexivity|discriminate|reflexivity|vm_compute; reflexivity|vm_compute; reflexivity|vm_compute; reflexivity|vm_compute; reflexivity|vm_compute; reflexivity].
    + apply (ex_zsigned_ok ZcashSaplingMain D 1 ex_input2 ZAll true); [vm_compute; reflexivity|discriminate|reflexivity|vm_compute; reflexivity|vm_compute; reflexivity|vm_compute; reflexivity|vm_compute; reflexivity|vm_compute; reflexivity].
  - destruct B as [t' C]; [vm_compute; discriminate|]. exists t'. split; [exact C|]. split; [exact O|]. exact (proj2 (proj2 (A t' C))).
Qed.
Example sprout_transaction_ex : exists i0 i1 t',
  SproutTx_copy small ZcashSproutMain ex_sp None (Some [i0; i1]) None None None None None = Ok t' /\ sprout_obj small ZcashSproutMain ex_sp /\
  accepts_all (sprout_accepted toy_world small (lit "zcash_sprout_main") t') [ex_spkh; ex_spkh].
Proof.
  pose (D := sprout_digester small ZcashSproutMain ex_sp). pose (code := string_wire (out_script ex_spkh)). pose (v := out_value ex_spkh).
  exists (ex_zsigned ZcashSproutMain ex_input (ztype_byte ZAll false) (get (D 0 code v ZAll false))), (ex_zsigned ZcashSproutMain ex_input2 (ztype_byte ZAll false) (get (D 1 code v ZAll false))).
  assert (sprout_obj small ZcashSproutMain ex_sp) as O.
  { apply sprout_obj_iff. exists []. split; [repeat constructor; lia|]. split; [constructor; [split; reflexivity|constructor; [split; reflexivity|constructor]]|]. split; [constructor; [reflexivity|constructor]|]. split; [reflexivity|]. split; [constructor|]. split; [vm_compute; reflexivity|reflexivity]. }
  destruct (sprout_transaction_accepted toy_world small (lit "zcash_sprout_main") ZcashSproutMain ex_sp [ex_spkh; ex_spkh]
    [ex_zsigned ZcashSproutMain ex_input (ztype_byte ZAll false) (get (D 0 code v ZAll false)); ex_zsigned ZcashSproutMain ex_input2 (ztype_byte ZAll false) (get (D 1 code v ZAll false))]
    small_ok eq_refl ltac:(left; reflexivity) O eq_refl eq_refl) as [A B].
  - apply (two_inputs _ _ _ (fun n i o i' => zcash_signed_input toy_world small ZcashSproutMain D n i o i')).
    + apply (ex_zsigned_ok ZcashSproutMain D 0 ex_input ZAll false); [vm_compute; reflexivity|discriminate|reflexivity|vm_compute; reflexivity|vm_compute; reflexivity|vm_compute; reflexivity|vm_compute; reflexivity|vm_compute; reflexivity].
    + apply (ex_zsigned_ok ZcashSproutMain D 1 ex_input2 ZAll false); [vm_compute; reflexivity|discriminate|reflexivity|vm_compute; reflexivity|vm_compute; reflexivity|vm_compute; reflexivity|vm_compute; reflexivity|vm_compute; reflexivity].
  - destruct B as [t' C]; [vm_compute; discriminate|]. exists t'. split; [exact C|]. split; [exact O|]. exact (proj2 (proj2 (A t' C))).
Qed.

(* the digests with and without the flag differ *)
Example anyone_signed_ex :
  let signed i := zip_signed {| si_index := 0; si_script := out_script ex_spkh; si_value := out_value ex_spkh |} (the_input i) in
  zip143 small ZAll true 0 (signed ex_input) ex_ow <> zip143 small ZAll false 0 (signed ex_input) ex_ow /\
  zip243 small ZSingle true 0 (signed ex_input) ex_sa <> zip243 small ZSingle false 0 (signed ex_input) ex_sa.
Proof. split; vm_compute; discriminate. Qed.
