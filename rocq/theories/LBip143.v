(* Lemmas about MTx.v: segwit and fork id digests, and what digests commit to *)
From Coq Require Import String.
From Verif Require Import Py LBase MNet MUtils MShared MScript MTx SNum SNet SHash SScript STx SSig LNet LUtils LVarint LScript LBase58 LTx LTxParse LTxWire LSig.
Open Scope list_scope.
Open Scope Z_scope.
Ltac Zify.zify_post_hook ::= idtac.

Lemma map_outpoints ins : Forall txin_obj ins -> map (fun i => op_bytes (ti_outpoint i)) ins = map outpoint_wire (map the_input ins).
Proof.
  intros F. rewrite map_map. apply map_ext_in. intros i I. rewrite Forall_forall in F. destruct (F i I) as [O _].
  apply outpoint_obj_iff in O. destruct O as [_ [_ ->]]. reflexivity.
Qed.
Lemma map_outputs outs : Forall txout_obj outs -> map to_bytes_ outs = map output_wire (map the_output outs).
Proof.
  intros F. rewrite map_map. apply map_ext_in. intros o I. rewrite Forall_forall in F. apply txout_wire, F, I.
Qed.

Definition type_code (ty : sigtype) : Z := match ty with All => SIGHASH_ALL | Single => SIGHASH_SINGLE end.
Lemma type_code_acp ty (acp : bool) : (if acp then Z.lor (type_code ty) SIGHASH_ANYONECANPAY else type_code ty) = type_number ty acp.
Proof. destruct ty, acp; reflexivity. Qed.
Lemma type_number_range ty acp : 0 <= type_number ty acp < 256.
Proof. destruct ty, acp; cbn; lia. Qed.

(* the body of the preimage, with the script as it is passed *)
Definition raw_body (hash : bytes -> bytes) ty (anyone : bool) (n : nat) (i : input) (script value : bytes) (t : transaction) : bytes :=
  t_version t ++
  (if anyone then zeros else hash (concat (map outpoint_wire (t_ins t)))) ++
  (if anyone then zeros else match ty with Single => zeros | All => hash (concat (map in_sequence (t_ins t))) end) ++
  outpoint_wire i ++ script ++ value ++ in_sequence i ++
  match ty with
  | All => hash (concat (map output_wire (t_outs t)))
  | Single => match nth_error (t_outs t) n with Some o => hash (output_wire o) | None => zeros end
  end ++
  t_lock t.

Section Sig.
Context (H : hashes).

Lemma hash_parts name net t n ty acp : get_network name = Ok net -> tx_obj H net t ->
  hash_prevouts H net t acp = (if acp then zeros else double_hash H name (concat (map outpoint_wire (t_ins (the_tx t))))) /\
  hash_sequence H net t (type_code ty) acp =
    (if acp then zeros else match ty with Single => zeros | All => double_hash H name (concat (map in_sequence (t_ins (the_tx t)))) end) /\
  hash_outputs H net t (Z.of_nat n) (type_code ty) =
    match ty with
    | All => Ok (double_hash H name (concat (map output_wire (t_outs (the_tx t)))))
    | Single => match nth_error (t_outs (the_tx t)) n with Some o => Ok (double_hash H name (output_wire o)) | None => Err NotImplementedError end
    end.
Proof.
  intros En [Fi [Fo _]]. unfold hash_prevouts, hash_sequence, hash_outputs. rewrite map_outpoints, map_outputs by assumption.
  rewrite !(hash256_spec H name) by exact En. unfold the_tx. cbn [t_ins t_outs]. split; [destruct acp; reflexivity|]. split.
  - destruct acp; [reflexivity|]. destruct ty; [|reflexivity]. cbn. rewrite map_map. reflexivity.
  - destruct ty; [reflexivity|]. change (type_code Single =? SIGHASH_ALL) with false. change (type_code Single =? SIGHASH_SINGLE) with true.
    cbn iota. cbn [andb]. rewrite nth_error_map. destruct (nth_error (tx_tx_outs t) n) as [o|] eqn:E.
    + destruct (Z.ltb_spec (Z.of_nat n) (zlen (tx_tx_outs t))) as [L|L].
      2: { apply nth_lt in E. unfold zlen in L. lia. }
      rewrite (index_of_nat _ n o E). cbn [bind option_map]. rewrite (hash256_spec H name) by exact En.
      do 2 f_equal. apply txout_wire. rewrite Forall_forall in Fo. apply Fo. eapply nth_error_In; exact E.
    + apply nth_error_None in E. destruct (Z.ltb_spec (Z.of_nat n) (zlen (tx_tx_outs t))) as [L|L]; [unfold zlen in L; lia|reflexivity].
Qed.

Lemma segwit_spec name net t n i (script value : bytes) ty acp : get_network name = Ok net -> tx_obj H net t -> nth_error (tx_tx_ins t) n = Some i ->
  (ty = Single -> (n < length (tx_tx_outs t))%nat) ->
  segwit_sighash H net t (Z.of_nat n) (type_code ty) (Some value) script acp =
  Ok (double_hash H name (raw_body (double_hash H name) ty acp n (the_input i) script value (the_tx t) ++ le_bytes 4 (type_number ty acp))).
Proof.
  intros En O E S. destruct (hash_parts name net t n ty acp En O) as [A [B C]]. unfold segwit_sighash.
  rewrite A, B, C, (index_of_nat _ n i E). cbn [bind add_opt]. pose proof O as [Fi _]. rewrite Forall_forall in Fi.
  pose proof (Fi i (nth_error_In _ _ E)) as [Oi _]. apply outpoint_obj_iff in Oi. destruct Oi as [_ [_ Eo]].
  change (op_tx_id (ti_outpoint i) ++ op_index (ti_outpoint i)) with (outpoint_wire (the_input i)) in Eo.
  unfold segwit_sighash_adjustment. rewrite type_code_acp. rewrite i2le_padded_Ok by (pose proof (type_number_range ty acp); lia).
  unfold raw_body. rewrite Eo. destruct ty; cbn [bind].
  - rewrite (hash256_spec H name) by exact En. rewrite <- !app_assoc. reflexivity.
  - unfold the_tx in *. cbn [t_outs] in *. rewrite nth_error_map in *.
    destruct (nth_error (tx_tx_outs t) n) as [o|] eqn:En'; [|apply nth_error_None in En'; specialize (S eq_refl); lia].
    cbn [option_map bind]. rewrite (hash256_spec H name) by exact En. rewrite <- !app_assoc. reflexivity.
Qed.

Lemma forkid_number id ty (acp : bool) : 0 <= id < 256 ->
  (if acp then Z.lor (Z.lor (Z.lor (Z.shiftl id 8) (type_code ty)) SIGHASH_FORKID) SIGHASH_ANYONECANPAY
   else Z.lor (Z.lor (Z.shiftl id 8) (type_code ty)) SIGHASH_FORKID) = id * 256 + 64 + type_number ty acp.
Proof.
  intros R. assert (forallb (fun k => forallb (fun ty => forallb (fun acp : bool =>
    (if acp then Z.lor (Z.lor (Z.lor (Z.shiftl k 8) (type_code ty)) SIGHASH_FORKID) SIGHASH_ANYONECANPAY
     else Z.lor (Z.lor (Z.shiftl k 8) (type_code ty)) SIGHASH_FORKID) =? k * 256 + 64 + type_number ty acp) [true; false]) [All; Single])
    (map Z.of_nat (seq 0 256)) = true) as F by (vm_compute; reflexivity).
  rewrite forallb_forall in F. assert (In id (map Z.of_nat (seq 0 256))) as I.
  { apply in_map_iff. exists (Z.to_nat id). split; [lia|]. apply in_seq. lia. }
  specialize (F id I). rewrite forallb_forall in F. assert (In ty [All; Single]) as It by (destruct ty; cbn; auto).
  specialize (F ty It). rewrite forallb_forall in F. assert (In acp [true; false]) as Ia by (destruct acp; cbn; auto).
  specialize (F acp Ia). apply Z.eqb_eq in F. exact F.
Qed.

Lemma forkid_spec name net id t n i (script value : bytes) ty acp : get_network name = Ok net -> In (name, id) fork_ids ->
  tx_obj H net t -> nth_error (tx_tx_ins t) n = Some i -> len value = 8 ->
  (ty = Single -> (n < length (tx_tx_outs t))%nat) ->
  sighash_forkid H net t (Z.of_nat n) script (Some value) (type_code ty) acp =
  Ok (double_hash H name (raw_body (double_hash H name) ty acp n (the_input i) script value (the_tx t) ++ le_bytes 4 (id * 256 + 64 + type_number ty acp))).
Proof.
  intros En I O E V S. destruct (hash_parts name net t n ty acp En O) as [A [B C]]. destruct (FORKID_some name net id En I) as [F R].
  unfold sighash_forkid. replace (validate_bytes (Some value) (Some 8)) with (Ok tt : res unit).
  2: { unfold validate_bytes, guard. norm_spec. rewrite V. reflexivity. }
  cbn [bind]. rewrite A, B, C, (index_of_nat _ n i E). cbn [bind add_opt]. pose proof O as [Fi _]. rewrite Forall_forall in Fi.
  pose proof (Fi i (nth_error_In _ _ E)) as [Oi _]. apply outpoint_obj_iff in Oi. destruct Oi as [_ [_ Eo]].
  change (op_tx_id (ti_outpoint i) ++ op_index (ti_outpoint i)) with (outpoint_wire (the_input i)) in Eo.
  unfold forkid_sighash_adjustment. rewrite F. cbn zeta. rewrite forkid_number by exact R.
  rewrite i2le_padded_Ok by (pose proof (type_number_range ty acp); lia).
  unfold raw_body. rewrite Eo. destruct ty; cbn [bind].
  - rewrite (hash256_spec H name) by exact En. rewrite <- !app_assoc. reflexivity.
  - unfold the_tx in *. cbn [t_outs] in *. rewrite nth_error_map in *.
    destruct (nth_error (tx_tx_outs t) n) as [o|] eqn:En'; [|apply nth_error_None in En'; specialize (S eq_refl); lia].
    cbn [option_map bind]. rewrite (hash256_spec H name) by exact En. rewrite <- !app_assoc. reflexivity.
Qed.

Notation sighash := (digest H).

(* the digest call for a hash type, by the kind of transaction and network *)
Lemma sighash_segwit name net t n i (script value : bytes) ty acp : get_network name = Ok net -> no_fork_id name -> tx_obj H net t ->
  ~ plain t -> nth_error (tx_tx_ins t) n = Some i ->
  sighash ty net t (Z.of_nat n) script (Some value) acp =
  match ty, nth_error (tx_tx_outs t) n with
  | Single, None => Err NotImplementedError
  | _, _ => Ok (double_hash H name (raw_body (double_hash H name) ty acp n (the_input i) script value (the_tx t) ++ le_bytes 4 (type_number ty acp)))
  end.
Proof.
  intros En N O P E. assert (is_witness t = true) as W.
  { unfold is_witness. unfold plain in P. destruct (tx_flag t), (tx_tx_witnesses t); cbn; try reflexivity. exfalso. apply P. auto. }
  unfold digest, sighash_all, sighash_single. rewrite (FORKID_none name net En N), W. destruct ty.
  - apply (segwit_spec name net t n i script value All acp); try assumption. discriminate.
  - destruct (nth_error (tx_tx_outs t) n) as [o|] eqn:Eo.
    + apply nth_lt in Eo. destruct (Z.leb_spec (zlen (tx_tx_outs t)) (Z.of_nat n)) as [L|L]; [unfold zlen in L; lia|].
      cbv [guard]. cbn [bind]. apply (segwit_spec name net t n i script value Single acp); auto.
    + apply nth_error_None in Eo. destruct (Z.leb_spec (zlen (tx_tx_outs t)) (Z.of_nat n)) as [L|L]; [|unfold zlen in L; lia]. reflexivity.
Qed.

Lemma sighash_fork name net id t n i (script value : bytes) ty acp : get_network name = Ok net -> In (name, id) fork_ids -> tx_obj H net t ->
  nth_error (tx_tx_ins t) n = Some i -> len value = 8 ->
  sighash ty net t (Z.of_nat n) script (Some value) acp =
  match ty, nth_error (tx_tx_outs t) n with
  | Single, None => Err NotImplementedError
  | _, _ => Ok (double_hash H name (raw_body (double_hash H name) ty acp n (the_input i) script value (the_tx t) ++ le_bytes 4 (id * 256 + 64 + type_number ty acp)))
  end.
Proof.
  intros En I O E V. destruct (FORKID_some name net id En I) as [F R].
  unfold digest, sighash_all, sighash_single. rewrite F. destruct ty.
  - apply (forkid_spec name net id t n i script value All acp); try assumption. discriminate.
  - destruct (nth_error (tx_tx_outs t) n) as [o|] eqn:Eo.
    + apply nth_lt in Eo. destruct (Z.leb_spec (zlen (tx_tx_outs t)) (Z.of_nat n)) as [L|L]; [unfold zlen in L; lia|].
      cbv [guard]. cbn [bind]. apply (forkid_spec name net id t n i script value Single acp); auto.
    + apply nth_error_None in Eo. destruct (Z.leb_spec (zlen (tx_tx_outs t)) (Z.of_nat n)) as [L|L]; [|unfold zlen in L; lia]. reflexivity.
Qed.

(* a fork id digest needs the value *)
Lemma fork_value name net id t n script pv ty acp : get_network name = Ok net -> In (name, id) fork_ids ->
  match pv with Some v => len v <> 8 | None => True end ->
  sighash ty net t n script pv acp = Err ValueError \/
  (ty = Single /\ zlen (tx_tx_outs t) <= n /\ sighash ty net t n script pv acp = Err NotImplementedError).
Proof.
  intros En I V. destruct (FORKID_some name net id En I) as [F R].
  assert (forall k, sighash_forkid H net t n script pv k acp = Err ValueError) as X.
  { intros k. unfold sighash_forkid. destruct pv as [v|]; [|reflexivity]. norm_spec. unfold validate_bytes, guard.
    destruct (Z.eqb_spec (zlen v) 8); [contradiction|reflexivity]. }
  unfold digest, sighash_all, sighash_single. rewrite F. destruct ty; [left; apply X|].
  destruct (Z.leb_spec (zlen (tx_tx_outs t)) n) as [L|L]; [right; auto|]. left. cbv [guard]. cbn [bind]. apply X.
Qed.

(** * the last four bytes *)

Lemma inv_bind' {A B} (x : res A) (f : A -> res B) b : bind x f = Ok b -> exists a, x = Ok a /\ f a = Ok b.
Proof. destruct x; cbn; intros E; [eauto|discriminate]. Qed.

Definition types : list Z := [1; 129; 3; 131].

Lemma segwit_last name net t n k pv script acp d : get_network name = Ok net -> In k [1; 3] ->
  segwit_sighash H net t n k pv script acp = Ok d ->
  exists p ty, In ty types /\ d = double_hash H name (p ++ le_bytes 4 ty).
Proof.
  intros En K E. unfold segwit_sighash in E. apply inv_bind' in E. destruct E as [cur [_ E]]. apply inv_bind' in E. destruct E as [v [_ E]].
  apply inv_bind' in E. destruct E as [ho [_ E]]. apply inv_bind' in E. destruct E as [ty [T E]]. apply Ok_inj in E. subst d.
  unfold segwit_sighash_adjustment in T.
  assert (exists z, In z types /\ ty = le_bytes 4 z) as [z [Iz ->]].
  { destruct K as [<-|[<-|[]]], acp; vm_compute in T; injection T as <-; [exists 129|exists 1|exists 131|exists 3]; (split; [cbn; tauto|reflexivity]). }
  rewrite (hash256_spec H name) by exact En.
  eexists. exists z. split; [exact Iz|]. f_equal. rewrite !app_assoc. reflexivity.
Qed.

Lemma no_fork_last name net t n script pv ty acp d : get_network name = Ok net -> no_fork_id name ->
  sighash ty net t n script pv acp = Ok d ->
  exists p k, In k types /\ d = double_hash H name (p ++ le_bytes 4 k).
Proof.
  intros En N E.
  assert (forall c k, In k types -> sighash_final_hashing H net c k = Ok d -> exists p k, In k types /\ d = double_hash H name (p ++ le_bytes 4 k)) as Fin.
  { intros c k K X. unfold sighash_final_hashing in X. apply inv_bind' in X. destruct X as [b [Eb X]]. apply Ok_inj in X. subst d.
    rewrite (hash256_spec H name) by exact En. exists (tx_bytes c), k. split; [exact K|]. do 2 f_equal.
    destruct K as [<-|[<-|[<-|[<-|[]]]]]; vm_compute in Eb; injection Eb as <-; reflexivity. }
  assert (forall c k, In k [1; 3] -> sighash_anyone_can_pay H net n c k = Ok d -> exists p k, In k types /\ d = double_hash H name (p ++ le_bytes 4 k)) as Acp.
  { intros c k K X. unfold sighash_anyone_can_pay in X. apply inv_bind' in X. destruct X as [b [_ X]]. apply inv_bind' in X. destruct X as [c' [_ X]].
    apply Fin in X; [exact X|]. destruct K as [<-|[<-|[]]]; cbn; tauto. }
  unfold digest, sighash_all, sighash_single in E. rewrite (FORKID_none name net En N) in E. destruct ty.
  - destruct (is_witness t); [apply (segwit_last name) in E; try assumption; cbn; tauto|].
    apply inv_bind' in E. destruct E as [c [_ E]]. destruct acp; [apply Acp in E|apply Fin in E]; try assumption; cbn; tauto.
  - apply inv_bind' in E. destruct E as [_ [_ E]]. destruct (is_witness t); [apply (segwit_last name) in E; try assumption; cbn; tauto|].
    repeat (apply inv_bind' in E; destruct E as [? [_ E]]). destruct acp; [apply Acp in E|apply Fin in E]; try assumption; cbn; tauto.
Qed.

Lemma fork_last name net id t n script pv ty acp d : get_network name = Ok net -> In (name, id) fork_ids ->
  sighash ty net t n script pv acp = Ok d ->
  exists p, d = double_hash H name (p ++ le_bytes 4 (id * 256 + 64 + type_number ty acp)).
Proof.
  intros En I E. destruct (FORKID_some name net id En I) as [F R].
  assert (sighash_forkid H net t n script pv (type_code ty) acp = Ok d) as E'.
  { unfold digest, sighash_all, sighash_single in E. rewrite F in E. destruct ty; [exact E|]. apply inv_bind' in E. destruct E as [_ [_ E]]. exact E. }
  unfold sighash_forkid in E'. repeat (apply inv_bind' in E'; destruct E' as [? [? E']]). apply Ok_inj in E'. subst d.
  match goal with X : forkid_sighash_adjustment _ _ _ = _ |- _ => rename X into T end.
  unfold forkid_sighash_adjustment in T. rewrite F in T. cbn zeta in T. rewrite forkid_number in T by exact R.
  rewrite i2le_padded_Ok in T by (pose proof (type_number_range ty acp); lia). apply Ok_inj in T. change (Z.to_nat 4) with 4%nat in T. subst.
  rewrite (hash256_spec H name) by exact En. eexists. f_equal. rewrite !app_assoc. reflexivity.
Qed.

Lemma types_not_fork k id ty acp : In k types -> 0 <= id -> le_bytes 4 k <> le_bytes 4 (id * 256 + 64 + type_number ty acp).
Proof.
  intros K R E. rewrite !le_bytes_to_le in E. apply (f_equal (hd 0)) in E.
  assert (hd 0 (to_le 4 k) = k mod 256) as A by reflexivity. assert (hd 0 (to_le 4 (id * 256 + 64 + type_number ty acp)) = (id * 256 + 64 + type_number ty acp) mod 256) as B by reflexivity.
  rewrite A, B in E. rewrite <- Z.add_assoc, Z.add_comm, Z_mod_plus_full in E.
  destruct K as [<-|[<-|[<-|[<-|[]]]]], ty, acp; discriminate E.
Qed.

Lemma app_inj_tail_len {A} (a b c d : list A) : length c = length d -> a ++ c = b ++ d -> a = b /\ c = d.
Proof.
  intros L E. assert (length a = length b) as La.
  { apply (f_equal (@length A)) in E. rewrite !app_length in E. lia. }
  revert b E La. induction a as [|x a IH]; intros [|y b] E La; try discriminate La; cbn in *; [auto|].
  injection E as -> E. destruct (IH b E) as [-> ->]; [lia|auto].
Qed.

End Sig.
