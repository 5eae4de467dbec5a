(* Lemmas about MZcash.v: signature digests *)
From Coq Require Import String.
From Verif Require Import Py LBase MNet MUtils MShared MScript MTx MZcash SNum SNet SHash SScript STx SSig SZcash LNet LUtils LVarint LTx LTxParse LSig LBip143 LZcash LZcashTx.
Open Scope list_scope.
Open Scope Z_scope.
Ltac Zify.zify_post_hook ::= idtac.

Lemma index_nat {A} (l : list A) n : index l (Z.of_nat n) = match nth_error l n with Some x => Ok x | None => Err IndexError end.
Proof.
  destruct (nth_error l n) as [x|] eqn:E; [apply index_of_nat, E|]. apply nth_error_None in E. unfold index, zlen.
  destruct (Z.ltb_spec (Z.of_nat n) 0); [lia|]. destruct (Z.leb_spec (Z.of_nat (length l)) (Z.of_nat n)); [|lia]. rewrite orb_true_r. reflexivity.
Qed.

Section Zip.
Context (H : hashes) (net : network).

Lemma zero32_eq : zrepeat 0 32 = zero32.
Proof. reflexivity. Qed.

Lemma prevouts_spec ins anyone : Forall txin_obj ins -> z_hash_prevouts H ins anyone = zip_prevouts H anyone ins.
Proof.
  intros F. unfold z_hash_prevouts, zip_prevouts. destruct anyone; [reflexivity|]. unfold blake2b, personal. f_equal.
  rewrite map_map. f_equal. apply map_ext_in. intros i I. rewrite Forall_forall in F. specialize (F i I).
  destruct F as [O _]. apply outpoint_obj_iff in O. destruct O as [_ [_ ->]]. reflexivity.
Qed.

(* the code keeps the sequence numbers in for SIGHASH_NONE *)
Definition code_sequence (ty : ztype) (anyone : bool) (ins : list txin) : bytes :=
  zip_sequence H (match ty with ZNone => ZAll | _ => ty end) anyone ins.
Lemma sequence_spec ins ty anyone : z_hash_sequence H ins (ztype_number ty) anyone = code_sequence ty anyone ins.
Proof.
  unfold z_hash_sequence, code_sequence, zip_sequence, blake2b, personal. rewrite map_map. destruct ty, anyone; reflexivity.
Qed.

Lemma outputs_spec outs ty n : Forall txout_obj outs -> z_hash_outputs H outs (ztype_number ty) (Z.of_nat n) =
  match ty with
  | ZSingle => if (n <? length outs)%nat then Ok (zip_outputs H ty n outs)
               else Err (if (n =? length outs)%nat then IndexError else NotImplementedError)
  | _ => Ok (zip_outputs H ty n outs)
  end.
Proof.
  intros F. unfold z_hash_outputs. destruct ty; cbn [ztype_number].
  - change (zmem 1 [SIGHASH_ALL; SIGHASH_SINGLE]) with true. change (1 =? SIGHASH_ALL) with true. change (1 =? SIGHASH_SINGLE) with false.
    cbn [negb bind]. rewrite app_nil_r. unfold zip_outputs, blake2b, personal. do 2 f_equal. rewrite map_map. f_equal. apply map_ext_in.
    intros o I. rewrite Forall_forall in F. apply txout_wire, F, I.
  - reflexivity.
  - change (zmem 3 [SIGHASH_ALL; SIGHASH_SINGLE]) with true. change (3 =? SIGHASH_ALL) with false. change (3 =? SIGHASH_SINGLE) with true.
    cbn [negb app]. unfold zip_outputs. rewrite index_nat. unfold zlen.
    destruct (Nat.ltb_spec n (length outs)) as [L|L].
    + destruct (Z.ltb_spec (Z.of_nat (length outs)) (Z.of_nat n)); [lia|]. cbv [guard]. cbn [bind].
      destruct (nth_error outs n) as [o|] eqn:E; [|apply nth_error_None in E; lia]. cbn [bind]. unfold blake2b, personal. do 2 f_equal.
      apply nth_error_In in E. rewrite Forall_forall in F. apply txout_wire, F, E.
    + destruct (nth_error outs n) as [o|] eqn:E; [assert (n < length outs)%nat by (apply nth_error_Some; congruence); lia|].
      destruct (Nat.eqb_spec n (length outs)); destruct (Z.ltb_spec (Z.of_nat (length outs)) (Z.of_nat n)); try lia; reflexivity.
Qed.

Lemma joinsplits_spec {P} (w : joinsplit P -> bytes) (l : list (joinsplit P)) key : (forall j, In j l -> js_bytes j = w j) ->
  (l <> [] -> exists k, key = Some k) -> z_hash_joinsplits H l key = Ok (zip_joinsplits H w l key).
Proof.
  intros W K. unfold z_hash_joinsplits, zip_joinsplits. destruct l as [|j l]; [reflexivity|].
  destruct (Z.eqb_spec (zlen (j :: l)) 0) as [Z0|_]; [rewrite zlen_cons in Z0; pose proof (zlen_nonneg l); lia|].
  destruct (K ltac:(discriminate)) as [k ->]. cbn [add_opt bind opt]. unfold blake2b, personal. do 3 f_equal. f_equal.
  apply map_ext_in. exact W.
Qed.

Lemma input_part_spec ins n i script value : Forall txin_obj ins -> nth_error ins n = Some i ->
  z_input_part ins false (Z.of_nat n) (Some (string_wire script)) (Some value) =
  Ok (zip_signed {| si_index := n; si_script := script; si_value := value |} (the_input i)).
Proof.
  intros F E. unfold z_input_part. rewrite index_nat, E. cbn [bind add_opt]. unfold zip_signed. cbn [si_script si_value]. do 2 f_equal.
  apply nth_error_In in E. rewrite Forall_forall in F. destruct (F i E) as [O _]. apply outpoint_obj_iff in O. destruct O as [_ [_ ->]]. reflexivity.
Qed.
Lemma input_part_index ins n sc pv : nth_error ins n = None -> z_input_part ins false (Z.of_nat n) sc pv = Err IndexError.
Proof. intros E. unfold z_input_part. rewrite index_nat, E. reflexivity. Qed.

Lemma ztype_code ty (anyone : bool) :
  i2le_padded (if anyone then Z.lor (ztype_number ty) SIGHASH_ANYONECANPAY else ztype_number ty) 4 = Ok (zip_type ty anyone).
Proof. destruct ty, anyone; reflexivity. Qed.

(* which requests fail, before the signed input is looked at *)
Definition zip_fails (ty : ztype) (n : nat) (outs : list txout) : option exn :=
  match ty with
  | ZSingle => if (n <? length outs)%nat then None
               else Some (if (n =? length outs)%nat then IndexError else NotImplementedError)
  | _ => None
  end.

(* with the sequence hash that the code computes *)
Definition code143 (ty : ztype) (anyone : bool) (n : nat) (signed : bytes) (t : overwinter_tx) : bytes :=
  zip143_hash H (zip143_with H (code_sequence ty anyone (ow_tx_ins t)) ty anyone n signed t).

Lemma code_sequence_zip ty anyone ins : ty <> ZNone \/ anyone = true -> code_sequence ty anyone ins = zip_sequence H ty anyone ins.
Proof. intros C. unfold code_sequence, zip_sequence. destruct ty, anyone; try reflexivity; destruct C; congruence. Qed.
Lemma code143_zip ty anyone n signed t : ty <> ZNone \/ anyone = true -> code143 ty anyone n signed t = zip143 H ty anyone n signed t.
Proof. intros C. unfold code143. rewrite code_sequence_zip by assumption. reflexivity. Qed.

(* messages that differ in the type, or in the sequence hash *)
Lemma zip143_type s s' ty ty' anyone anyone' n n' signed t t' : (ty, anyone) <> (ty', anyone') ->
  zip143_with H s ty anyone n signed t <> zip143_with H s' ty' anyone' n' signed t'.
Proof.
  intros N E. unfold zip143_with in E. rewrite !app_assoc in E. apply app_inv_tail in E.
  apply app_inj_tail_len in E; [|reflexivity]. destruct E as [_ E]. apply N. destruct ty, ty', anyone, anyone'; try reflexivity; discriminate E.
Qed.
Lemma zip143_sequence s s' ty anyone n signed t : zip143_with H s ty anyone n signed t = zip143_with H s' ty anyone n signed t -> s = s'.
Proof. unfold zip143_with. intros E. apply app_inv_head, app_inv_head, app_inv_tail in E. exact E. Qed.

Lemma overwinter_net t : overwinter_obj H net t -> net_has net (lit "zcash") = true.
Proof. intros O. apply overwinter_obj_iff in O. destruct O as [_ [_ [_ [A _]]]]. unfold ow_args_ok in A. rewrite !andb_true_iff in A. tauto. Qed.

Lemma overwinter_digest t ty (anyone joinsplit : bool) n sc pv : overwinter_obj H net t ->
  overwinter_sighash H net t (ztype_number ty) pv sc (Z.of_nat n) joinsplit anyone =
  if joinsplit && anyone then Err ValueError
  else match zip_fails ty n (ow_tx_outs t) with
       | Some e => Err e
       | None => signed <- z_input_part (ow_tx_ins t) joinsplit (Z.of_nat n) sc pv ;; Ok (code143 ty anyone n signed t)
       end.
Proof.
  intros O. pose proof (overwinter_net t O) as Z. apply overwinter_obj_iff in O. destruct O as [Fi [Fo [Fj [A E]]]].
  unfold overwinter_sighash, zcash_only, guard. rewrite Z. destruct (joinsplit && anyone); [reflexivity|]. cbn [negb bind].
  rewrite prevouts_spec, sequence_spec, outputs_spec by assumption.
  rewrite (joinsplits_spec sprout_joinsplit_wire).
  2: { intros j I. rewrite Forall_forall in Fj. apply Fj, sprout_joinsplit_obj_iff in I. apply I. }
  2: { intros N. unfold ow_args_ok in A. rewrite !andb_true_iff in A. destruct A as [[[[[[[[[[_ _] _] _] _] _] A] _] _] _] _].
       destruct (Z.eqb_spec (zlen (ow_tx_joinsplits t)) 0) as [J|J]; [apply zlen_0 in J; contradiction|]. cbn [orb] in A.
       destruct (ow_joinsplit_pubkey t); [eauto|discriminate]. }
  assert (ow_header t = [3; 0; 0; 0x80] /\ ow_group_id t = [0x70; 0x82; 0xc4; 0x03]) as [Hh Hg] by (rewrite E; split; reflexivity).
  assert (forall ho, (hj <- Ok (zip_joinsplits H sprout_joinsplit_wire (ow_tx_joinsplits t) (ow_joinsplit_pubkey t)) ;;
    t0 <- i2le_padded (if anyone then Z.lor (ztype_number ty) SIGHASH_ANYONECANPAY else ztype_number ty) 4 ;;
    ip <- z_input_part (ow_tx_ins t) joinsplit (Z.of_nat n) sc pv ;;
    Ok (blake2b H (ow_header t ++ ow_group_id t ++ zip_prevouts H anyone (ow_tx_ins t) ++ code_sequence ty anyone (ow_tx_ins t) ++ ho ++ hj
                   ++ ow_lock_time t ++ ow_expiry_height t ++ t0 ++ ip) 32 (lit "ZcashSigHash" ++ [0x19; 0x1b; 0xa8; 0x5b]))) =
    (signed <- z_input_part (ow_tx_ins t) joinsplit (Z.of_nat n) sc pv ;;
     Ok (h_blake2b H (lit "ZcashSigHash" ++ le_bytes 4 0x5ba81b19) 32
    (overwinter_header ++ zip_prevouts H anyone (ow_tx_ins t) ++ code_sequence ty anyone (ow_tx_ins t) ++ ho ++
     zip_joinsplits H sprout_joinsplit_wire (ow_tx_joinsplits t) (ow_joinsplit_pubkey t) ++
     ow_lock_time t ++ ow_expiry_height t ++ zip_type ty anyone ++ signed)))) as X.
  { intros ho. rewrite ztype_code, Hh, Hg. reflexivity. }
  unfold code143, zip143_hash, zip143_with. destruct ty; cbn [zip_fails]; try (cbn [bind]; apply X).
  destruct (n <? length (ow_tx_outs t))%nat; [cbn [bind]; apply X|reflexivity].
Qed.
End Zip.
