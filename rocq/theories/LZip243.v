(* Lemmas about MZcash.v: Sapling signature digests *)
From Coq Require Import String.
From Verif Require Import Py LBase MNet MUtils MShared MScript MTx MZcash SNum SNet SHash SScript STx SSig SZcash LNet LUtils LVarint LTx LTxParse LSig LBip143 LZcash LZcashTx LZip LSapling.
Open Scope list_scope.
Open Scope Z_scope.
Ltac Zify.zify_post_hook ::= idtac.

Section Zip.
Context (H : hashes) (net : network).

Lemma spend_body s : spend_obj net s -> slice_to (ss_bytes s) 320 = spend_body_wire s.
Proof.
  intros O. apply spend_obj_iff in O. destruct O as [_ [W E]]. rewrite E. unfold spend_wire, spend_fields, fields_wire. rewrite map_app, concat_app.
  fold (fields_wire (spend_body_fields s)). fold (spend_body_wire s).
  assert (zlen (spend_body_wire s) = 320) as L.
  { unfold spend_body_wire. rewrite fields_len; [reflexivity|]. unfold widths_ok, spend_fields in *. rewrite Forall_app in W. apply W. }
  apply slice_to_app, L.
Qed.

Lemma spends_spec l : Forall (spend_obj net) l -> z_hash_shielded_spends H l = zip_spends H l.
Proof.
  intros F. unfold z_hash_shielded_spends, zip_spends. destruct l as [|s l]; [reflexivity|].
  destruct (Z.eqb_spec (zlen (s :: l)) 0) as [Z0|_]; [rewrite zlen_cons in Z0; pose proof (zlen_nonneg l); lia|].
  unfold blake2b, personal. do 2 f_equal. apply map_ext_in. intros x I. rewrite Forall_forall in F. apply spend_body, F, I.
Qed.
Lemma shielded_outputs_spec l : Forall (shielded_output_obj net) l -> z_hash_shielded_outputs H l = zip_shielded_outputs H l.
Proof.
  intros F. unfold z_hash_shielded_outputs, zip_shielded_outputs. destruct l as [|s l]; [reflexivity|].
  destruct (Z.eqb_spec (zlen (s :: l)) 0) as [Z0|_]; [rewrite zlen_cons in Z0; pose proof (zlen_nonneg l); lia|].
  unfold blake2b, personal. do 2 f_equal. apply map_ext_in. intros x I. rewrite Forall_forall in F. apply F, shielded_output_obj_iff in I. apply I.
Qed.

Definition code243 (ty : ztype) (anyone : bool) (n : nat) (signed : bytes) (t : sapling_tx) : bytes :=
  zip243_hash H (zip243_with H (code_sequence H ty anyone (sa_tx_ins t)) ty anyone n signed t).
Lemma code243_zip ty anyone n signed t : ty <> ZNone \/ anyone = true -> code243 ty anyone n signed t = zip243 H ty anyone n signed t.
Proof. intros C. unfold code243. rewrite code_sequence_zip by assumption. reflexivity. Qed.
Lemma zip243_type s s' ty ty' anyone anyone' n n' signed t t' : (ty, anyone) <> (ty', anyone') ->
  zip243_with H s ty anyone n signed t <> zip243_with H s' ty' anyone' n' signed t'.
Proof.
  intros N E. unfold zip243_with in E. rewrite !app_assoc in E. apply app_inv_tail in E.
  apply app_inj_tail_len in E; [|reflexivity]. destruct E as [_ E]. apply N. destruct ty, ty', anyone, anyone'; try reflexivity; discriminate E.
Qed.
Lemma zip243_sequence s s' ty anyone n signed t : zip243_with H s ty anyone n signed t = zip243_with H s' ty anyone n signed t -> s = s'.
Proof. unfold zip243_with. intros E. apply app_inv_head, app_inv_head, app_inv_tail in E. exact E. Qed.

Lemma sapling_net t : sapling_obj H net t -> net_has net (lit "zcash") = true.
Proof. intros O. apply sapling_obj_iff in O. destruct O as [_ [_ [_ [_ [_ [A _]]]]]]. unfold sa_args_ok in A. rewrite !andb_true_iff in A. tauto. Qed.

Lemma sapling_digest t ty (anyone joinsplit : bool) n sc pv : sapling_obj H net t ->
  sapling_sighash H net t (ztype_number ty) pv (Z.of_nat n) joinsplit sc anyone =
  if joinsplit && anyone then Err ValueError
  else match zip_fails ty n (sa_tx_outs t) with
       | Some e => Err e
       | None => signed <- z_input_part (sa_tx_ins t) joinsplit (Z.of_nat n) sc pv ;; Ok (code243 ty anyone n signed t)
       end.
Proof.
  intros O. pose proof (sapling_net t O) as Z. destruct (sapling_keys H net t O) as [_ [Keys _]]. apply sapling_obj_iff in O. destruct O as [Fi [Fo [Fs [Fu [Fj [A E]]]]]].
  unfold sapling_sighash, zcash_only, guard. rewrite Z. destruct (joinsplit && anyone); [reflexivity|]. cbn [negb bind].
  rewrite prevouts_spec, sequence_spec, outputs_spec, spends_spec, shielded_outputs_spec by assumption.
  rewrite (joinsplits_spec H sapling_joinsplit_wire).
  2: { intros j I. rewrite Forall_forall in Fj. apply Fj, sapling_joinsplit_obj_iff in I. apply I. }
  2: { intros N. destruct (Keys N) as [pk [sg [-> _]]]. eauto. }
  assert (sa_header t = [4; 0; 0; 0x80] /\ sa_group_id t = [0x85; 0x20; 0x2f; 0x89]) as [Hh Hg] by (rewrite E; split; reflexivity).
  assert (forall ho, (hj <- Ok (zip_joinsplits H sapling_joinsplit_wire (sa_tx_joinsplits t) (sa_joinsplit_pubkey t)) ;;
    t0 <- i2le_padded (if anyone then Z.lor (ztype_number ty) SIGHASH_ANYONECANPAY else ztype_number ty) 4 ;;
    ip <- z_input_part (sa_tx_ins t) joinsplit (Z.of_nat n) sc pv ;;
    Ok (blake2b H (sa_header t ++ sa_group_id t ++ zip_prevouts H anyone (sa_tx_ins t) ++ code_sequence H ty anyone (sa_tx_ins t) ++ ho ++ hj
                   ++ zip_spends H (sa_tx_shielded_spends t) ++ zip_shielded_outputs H (sa_tx_shielded_outputs t)
                   ++ sa_lock_time t ++ sa_expiry_height t ++ sa_value_balance t ++ t0 ++ ip) 32 (lit "ZcashSigHash" ++ [0xbb; 0x09; 0xb8; 0x76]))) =
    (signed <- z_input_part (sa_tx_ins t) joinsplit (Z.of_nat n) sc pv ;;
     Ok (h_blake2b H (lit "ZcashSigHash" ++ le_bytes 4 0x76b809bb) 32
    (sapling_header ++ zip_prevouts H anyone (sa_tx_ins t) ++ code_sequence H ty anyone (sa_tx_ins t) ++ ho ++
     zip_joinsplits H sapling_joinsplit_wire (sa_tx_joinsplits t) (sa_joinsplit_pubkey t) ++
     zip_spends H (sa_tx_shielded_spends t) ++ zip_shielded_outputs H (sa_tx_shielded_outputs t) ++
     sa_lock_time t ++ sa_expiry_height t ++ sa_value_balance t ++ zip_type ty anyone ++ signed)))) as X.
  { intros ho. rewrite ztype_code, Hh, Hg. reflexivity. }
  unfold code243, zip243_hash, zip243_with. destruct ty; cbn [zip_fails]; try (cbn [bind]; apply X).
  destruct (n <? length (sa_tx_outs t))%nat; [cbn [bind]; apply X|reflexivity].
Qed.
End Zip.
