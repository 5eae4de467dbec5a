(* Lemmas about MZcash.v: Overwinter and Sapling signature digests, in the terms of SZcash.v *)
From Coq Require Import String.
From Verif Require Import Py LBase MNet MUtils MShared MScript MTx MZcash SNum SNet SHash SScript STx SSig SZcash LNet LUtils LTx LBip143 LZcash LZcashTx LZip LSapling LZip243.
Open Scope list_scope.
Open Scope Z_scope.
Ltac Zify.zify_post_hook ::= idtac.

Section Top.
Context (H : hashes) (net : network).

Definition the_signed (n : nat) (script value : bytes) (i : txin) : bytes :=
  zip_signed {| si_index := n; si_script := script; si_value := value |} (the_input i).

Lemma zip_fails_none ty n outs : (ty = ZSingle -> (n < length outs)%nat) -> zip_fails ty n outs = None.
Proof. intros C. destruct ty; try reflexivity. cbn [zip_fails]. specialize (C eq_refl). apply Nat.ltb_lt in C. rewrite C. reflexivity. Qed.

Lemma ow_digest t ty anyone n i script value : overwinter_obj H net t -> nth_error (ow_tx_ins t) n = Some i ->
  (ty = ZSingle -> (n < length (ow_tx_outs t))%nat) ->
  overwinter_sighash H net t (ztype_number ty) (Some value) (Some (string_wire script)) (Z.of_nat n) false anyone =
  Ok (code143 H ty anyone n (the_signed n script value i) t).
Proof.
  intros O E C. rewrite (overwinter_digest H net t ty anyone false n _ _ O). cbn [andb]. rewrite (zip_fails_none _ _ _ C).
  rewrite (input_part_spec _ n i) by (try apply O; exact E). reflexivity.
Qed.
Lemma ow_digest_js t ty n sc pv : overwinter_obj H net t -> (ty = ZSingle -> (n < length (ow_tx_outs t))%nat) ->
  overwinter_sighash H net t (ztype_number ty) pv sc (Z.of_nat n) true false = Ok (code143 H ty false n [] t).
Proof. intros O C. rewrite (overwinter_digest H net t ty false true n _ _ O). cbn [andb]. rewrite (zip_fails_none _ _ _ C). reflexivity. Qed.
Lemma ow_digest_single t n sc pv joinsplit anyone : overwinter_obj H net t -> (length (ow_tx_outs t) <= n)%nat ->
  overwinter_sighash H net t 3 pv sc (Z.of_nat n) joinsplit anyone =
  Err (if joinsplit && anyone then ValueError else if (n =? length (ow_tx_outs t))%nat then IndexError else NotImplementedError).
Proof.
  intros O C. rewrite (overwinter_digest H net t ZSingle anyone joinsplit n _ _ O). destruct (joinsplit && anyone); [reflexivity|].
  cbn [zip_fails]. destruct (Nat.ltb_spec n (length (ow_tx_outs t))); [lia|]. reflexivity.
Qed.
Lemma ow_digest_index t ty n sc pv anyone : overwinter_obj H net t -> nth_error (ow_tx_ins t) n = None -> (ty = ZSingle -> (n < length (ow_tx_outs t))%nat) ->
  overwinter_sighash H net t (ztype_number ty) pv sc (Z.of_nat n) false anyone = Err IndexError.
Proof. intros O E C. rewrite (overwinter_digest H net t ty anyone false n _ _ O). cbn [andb]. rewrite (zip_fails_none _ _ _ C), input_part_index by exact E. reflexivity. Qed.

Lemma sa_digest t ty anyone n i script value : sapling_obj H net t -> nth_error (sa_tx_ins t) n = Some i ->
  (ty = ZSingle -> (n < length (sa_tx_outs t))%nat) ->
  sapling_sighash H net t (ztype_number ty) (Some value) (Z.of_nat n) false (Some (string_wire script)) anyone =
  Ok (code243 H ty anyone n (the_signed n script value i) t).
Proof.
  intros O E C. rewrite (sapling_digest H net t ty anyone false n _ _ O). cbn [andb]. rewrite (zip_fails_none _ _ _ C).
  rewrite (input_part_spec _ n i) by (try apply O; exact E). reflexivity.
Qed.
Lemma sa_digest_js t ty n sc pv : sapling_obj H net t -> (ty = ZSingle -> (n < length (sa_tx_outs t))%nat) ->
  sapling_sighash H net t (ztype_number ty) pv (Z.of_nat n) true sc false = Ok (code243 H ty false n [] t).
Proof. intros O C. rewrite (sapling_digest H net t ty false true n _ _ O). cbn [andb]. rewrite (zip_fails_none _ _ _ C). reflexivity. Qed.
Lemma sa_digest_single t n sc pv joinsplit anyone : sapling_obj H net t -> (length (sa_tx_outs t) <= n)%nat ->
  sapling_sighash H net t 3 pv (Z.of_nat n) joinsplit sc anyone =
  Err (if joinsplit && anyone then ValueError else if (n =? length (sa_tx_outs t))%nat then IndexError else NotImplementedError).
Proof.
  intros O C. rewrite (sapling_digest H net t ZSingle anyone joinsplit n _ _ O). destruct (joinsplit && anyone); [reflexivity|].
  cbn [zip_fails]. destruct (Nat.ltb_spec n (length (sa_tx_outs t))); [lia|]. reflexivity.
Qed.
Lemma sa_digest_index t ty n sc pv anyone : sapling_obj H net t -> nth_error (sa_tx_ins t) n = None -> (ty = ZSingle -> (n < length (sa_tx_outs t))%nat) ->
  sapling_sighash H net t (ztype_number ty) pv (Z.of_nat n) false sc anyone = Err IndexError.
Proof. intros O E C. rewrite (sapling_digest H net t ty anyone false n _ _ O). cbn [andb]. rewrite (zip_fails_none _ _ _ C), input_part_index by exact E. reflexivity. Qed.

(* the two together *)
Lemma ow_right t ty anyone n i script value : overwinter_obj H net t -> nth_error (ow_tx_ins t) n = Some i ->
  (ty = ZSingle -> (n < length (ow_tx_outs t))%nat) -> ty <> ZNone \/ anyone = true ->
  overwinter_sighash H net t (ztype_number ty) (Some value) (Some (string_wire script)) (Z.of_nat n) false anyone =
  Ok (zip143 H ty anyone n (the_signed n script value i) t).
Proof. intros O E C T. rewrite (ow_digest t ty anyone n i script value O E C), code143_zip by exact T. reflexivity. Qed.
Lemma sa_right t ty anyone n i script value : sapling_obj H net t -> nth_error (sa_tx_ins t) n = Some i ->
  (ty = ZSingle -> (n < length (sa_tx_outs t))%nat) -> ty <> ZNone \/ anyone = true ->
  sapling_sighash H net t (ztype_number ty) (Some value) (Z.of_nat n) false (Some (string_wire script)) anyone =
  Ok (zip243 H ty anyone n (the_signed n script value i) t).
Proof. intros O E C T. rewrite (sa_digest t ty anyone n i script value O E C), code243_zip by exact T. reflexivity. Qed.
Lemma ow_right_js t ty n sc pv : overwinter_obj H net t -> (ty = ZSingle -> (n < length (ow_tx_outs t))%nat) -> ty <> ZNone ->
  overwinter_sighash H net t (ztype_number ty) pv sc (Z.of_nat n) true false = Ok (zip143 H ty false n [] t).
Proof. intros O C T. rewrite (ow_digest_js t ty n sc pv O C), code143_zip by auto. reflexivity. Qed.
Lemma sa_right_js t ty n sc pv : sapling_obj H net t -> (ty = ZSingle -> (n < length (sa_tx_outs t))%nat) -> ty <> ZNone ->
  sapling_sighash H net t (ztype_number ty) pv (Z.of_nat n) true sc false = Ok (zip243 H ty false n [] t).
Proof. intros O C T. rewrite (sa_digest_js t ty n sc pv O C), code243_zip by auto. reflexivity. Qed.

(* NONE: the sequence numbers are hashed although they must not be *)
Lemma ow_none t n i script value : overwinter_obj H net t -> nth_error (ow_tx_ins t) n = Some i ->
  let signed := the_signed n script value i in
  let hashed := zip143_with H (personal H "ZcashSequencHash" (concat (map in_sequence (map the_input (ow_tx_ins t))))) ZNone false n signed t in
  overwinter_sighash H net t 2 (Some value) (Some (string_wire script)) (Z.of_nat n) false false = Ok (zip143_hash H hashed) /\
  (overwinter_sighash H net t 2 (Some value) (Some (string_wire script)) (Z.of_nat n) false false = Ok (zip143 H ZNone false n signed t) ->
   personal H "ZcashSequencHash" (concat (map in_sequence (map the_input (ow_tx_ins t)))) = zero32 \/
   collision (zip143_hash H) [hashed; zip143_message H ZNone false n signed t]).
Proof.
  intros O E signed hashed.
  assert (overwinter_sighash H net t 2 (Some value) (Some (string_wire script)) (Z.of_nat n) false false = Ok (zip143_hash H hashed)) as D
    by (apply (ow_digest t ZNone false n i script value O E); discriminate).
  split; [exact D|]. rewrite D. intros X. apply Ok_inj in X.
  destruct (list_eq_dec_Z hashed (zip143_message H ZNone false n signed t)) as [Y|N].
  - left. apply zip143_sequence in Y. exact Y.
  - right. exists hashed, (zip143_message H ZNone false n signed t). split; [left; reflexivity|]. split; [right; left; reflexivity|]. split; [exact N|exact X].
Qed.
Lemma sa_none t n i script value : sapling_obj H net t -> nth_error (sa_tx_ins t) n = Some i ->
  let signed := the_signed n script value i in
  let hashed := zip243_with H (personal H "ZcashSequencHash" (concat (map in_sequence (map the_input (sa_tx_ins t))))) ZNone false n signed t in
  sapling_sighash H net t 2 (Some value) (Z.of_nat n) false (Some (string_wire script)) false = Ok (zip243_hash H hashed) /\
  (sapling_sighash H net t 2 (Some value) (Z.of_nat n) false (Some (string_wire script)) false = Ok (zip243 H ZNone false n signed t) ->
   personal H "ZcashSequencHash" (concat (map in_sequence (map the_input (sa_tx_ins t)))) = zero32 \/
   collision (zip243_hash H) [hashed; zip243_message H ZNone false n signed t]).
Proof.
  intros O E signed hashed.
  assert (sapling_sighash H net t 2 (Some value) (Z.of_nat n) false (Some (string_wire script)) false = Ok (zip243_hash H hashed)) as D
    by (apply (sa_digest t ZNone false n i script value O E); discriminate).
  split; [exact D|]. rewrite D. intros X. apply Ok_inj in X.
  destruct (list_eq_dec_Z hashed (zip243_message H ZNone false n signed t)) as [Y|N].
  - left. apply zip243_sequence in Y. exact Y.
  - right. exists hashed, (zip243_message H ZNone false n signed t). split; [left; reflexivity|]. split; [right; left; reflexivity|]. split; [exact N|exact X].
Qed.

(* sighash_all and sighash_single *)
Lemma ow_flag t ty anyone n i script value : overwinter_obj H net t -> nth_error (ow_tx_ins t) n = Some i ->
  (ty = ZSingle -> (n < length (ow_tx_outs t))%nat) -> ty <> ZNone ->
  let call := (match ty with ZSingle => overwinter_sighash_single | _ => overwinter_sighash_all end) H net t anyone (Some value) (Some (string_wire script)) (Z.of_nat n) false in
  let signed := the_signed n script value i in
  call = Ok (zip143 H ty false n signed t) /\
  (call = Ok (zip143 H ty true n signed t) -> collision (zip143_hash H) [zip143_message H ty false n signed t; zip143_message H ty true n signed t]).
Proof.
  intros O E C T call signed. assert (call = Ok (zip143 H ty false n signed t)) as D.
  { pose proof (ow_right t ty false n i script value O E C (or_introl T)) as R. unfold call. destruct ty; [exact R|destruct T; reflexivity|exact R]. }
  split; [exact D|]. rewrite D. intros X. apply Ok_inj in X. eexists. eexists. split; [left; reflexivity|]. split; [right; left; reflexivity|].
  split; [|exact X]. apply zip143_type. congruence.
Qed.
Lemma sa_flag t ty anyone n i script value : sapling_obj H net t -> nth_error (sa_tx_ins t) n = Some i ->
  (ty = ZSingle -> (n < length (sa_tx_outs t))%nat) -> ty <> ZNone ->
  let call := (match ty with ZSingle => sapling_sighash_single | _ => sapling_sighash_all end) H net t anyone (Some value) (Z.of_nat n) false (Some (string_wire script)) in
  let signed := the_signed n script value i in
  call = Ok (zip243 H ty false n signed t) /\
  (call = Ok (zip243 H ty true n signed t) -> collision (zip243_hash H) [zip243_message H ty false n signed t; zip243_message H ty true n signed t]).
Proof.
  intros O E C T call signed. assert (call = Ok (zip243 H ty false n signed t)) as D.
  { pose proof (sa_right t ty false n i script value O E C (or_introl T)) as R. unfold call. destruct ty; [exact R|destruct T; reflexivity|exact R]. }
  split; [exact D|]. rewrite D. intros X. apply Ok_inj in X. eexists. eexists. split; [left; reflexivity|]. split; [right; left; reflexivity|].
  split; [|exact X]. apply zip243_type. congruence.
Qed.
End Top.
