(* Lemmas about signature digests: the statements of PSig.v *)
From Coq Require Import String.
From Verif Require Import Py LBase MNet MUtils MShared MScript MTx SNum SNet SHash SScript STx SSig LNet LUtils LVarint LScript LBase58 LTx LTxParse LTxWire LSig LBip143 LSigBind.
Open Scope list_scope.
Open Scope Z_scope.
Ltac Zify.zify_post_hook ::= idtac.

Lemma nth_some {A} (l : list A) n : (n < length l)%nat -> exists x, nth_error l n = Some x.
Proof. intros L. destruct (nth_error l n) as [x|] eqn:E; [eauto|]. apply nth_error_None in E. lia. Qed.
Lemma the_nth t n i : nth_error (tx_tx_ins t) n = Some i -> nth_error (t_ins (the_tx t)) n = Some (the_input i).
Proof. intros E. unfold the_tx. cbn [t_ins]. rewrite nth_error_map, E. reflexivity. Qed.
Lemma the_nth_inv t n i : nth_error (t_ins (the_tx t)) n = Some i -> exists j, nth_error (tx_tx_ins t) n = Some j /\ the_input j = i.
Proof.
  unfold the_tx. cbn [t_ins]. rewrite nth_error_map. destruct (nth_error (tx_tx_ins t) n) as [j|]; [|discriminate]. intros E. injection E as <-. eauto.
Qed.
Lemma the_outs_len t : length (t_outs (the_tx t)) = length (tx_tx_outs t).
Proof. apply map_length. Qed.
Lemma the_ins_len t : length (t_ins (the_tx t)) = length (tx_tx_ins t).
Proof. apply map_length. Qed.

Section Top.
Context (H : hashes).

Lemma top_all name net t n code pv acp : get_network name = Ok net -> no_fork_id name -> tx_obj H net t -> plain t ->
  (n < length (t_ins (the_tx t)))%nat -> readable_size name (len code) -> len code < 2 ^ 64 ->
  sighash_all H net t (Z.of_nat n) (string_wire code) pv acp =
  if len code <=? 1650 then Ok (double_hash H name (legacy_preimage All acp n code (the_tx t))) else Err ValueError.
Proof.
  intros En N O P L R C. rewrite the_ins_len in L. destruct (nth_some _ _ L) as [i E].
  unfold string_wire. norm_spec. apply (legacy_all H name net t n i (zlen code) code pv acp); try assumption.
  - split; [apply zlen_nonneg|assumption].
  - apply (readable_spec name); assumption.
Qed.

Lemma top_all_prefix name net t n m code pv acp : get_network name = Ok net -> no_fork_id name -> tx_obj H net t -> plain t ->
  (n < length (t_ins (the_tx t)))%nat -> 0 <= m < 2 ^ 64 -> readable_size name m -> len code <= 1650 ->
  sighash_all H net t (Z.of_nat n) (compactsize m ++ code) pv acp = Ok (double_hash H name (legacy_preimage All acp n code (the_tx t))).
Proof.
  intros En N O P L M R C. rewrite the_ins_len in L. destruct (nth_some _ _ L) as [i E].
  rewrite (legacy_all H name net t n i m code pv acp); try assumption; [|apply (readable_spec name); assumption].
  norm_spec. destruct (Z.leb_spec (zlen code) 1650); [reflexivity|lia].
Qed.

Lemma top_single name net t n code pv acp : get_network name = Ok net -> no_fork_id name -> tx_obj H net t -> plain t ->
  (n < length (t_ins (the_tx t)))%nat -> (n < length (t_outs (the_tx t)))%nat -> readable_size name (len code) -> len code < 2 ^ 64 ->
  sighash_single H net t (Z.of_nat n) (string_wire code) pv acp =
  if len code <=? 1650
  then Ok (double_hash H name (wire_tx (single_tx acp n code (the_tx t)) ++ le_bytes 4 (type_number Single acp))) else Err ValueError.
Proof.
  intros En N O P L Lo R C. rewrite the_ins_len in L. rewrite the_outs_len in Lo. destruct (nth_some _ _ L) as [i E].
  unfold string_wire. norm_spec. rewrite (legacy_single H name net t n i (zlen code) code pv acp); try assumption.
  - destruct (Z.leb_spec (zlen (tx_tx_outs t)) (Z.of_nat n)) as [X|_]; [unfold zlen in X; lia|]. reflexivity.
  - split; [apply zlen_nonneg|assumption].
  - apply (readable_spec name); assumption.
Qed.

Lemma single_tx_last acp n code t : S n = length (t_ins t) -> (n < length (t_outs t))%nat -> single_tx acp n code t = legacy_tx Single acp n code t.
Proof.
  intros E L. unfold single_tx. rewrite (proj2 (single_outs_spec (length (t_ins t)) n (t_outs t) L ltac:(lia)) E). reflexivity.
Qed.

Lemma top_single_last name net t n code pv acp : get_network name = Ok net -> no_fork_id name -> tx_obj H net t -> plain t ->
  S n = length (t_ins (the_tx t)) -> (n < length (t_outs (the_tx t)))%nat -> readable_size name (len code) -> len code <= 1650 ->
  sighash_single H net t (Z.of_nat n) (string_wire code) pv acp = Ok (double_hash H name (legacy_preimage Single acp n code (the_tx t))).
Proof.
  intros En N O P L Lo R C. rewrite (top_single name); try assumption; [|lia|lia].
  destruct (Z.leb_spec (len code) 1650); [|lia]. rewrite single_tx_last by assumption. reflexivity.
Qed.

Lemma top_single_wrong name net t n code pv acp : get_network name = Ok net -> no_fork_id name -> tx_obj H net t -> plain t ->
  (S n < length (t_ins (the_tx t)))%nat -> (n < length (t_outs (the_tx t)))%nat -> readable_size name (len code) -> len code <= 1650 ->
  sighash_single H net t (Z.of_nat n) (string_wire code) pv acp = Ok (double_hash H name (legacy_preimage Single acp n code (the_tx t))) ->
  collision (double_hash H name) [lib_preimage Single acp n code (the_tx t); legacy_preimage Single acp n code (the_tx t)].
Proof.
  intros En N O P L Lo R C X. rewrite (top_single name) in X; try assumption; [|lia|lia].
  destruct (Z.leb_spec (len code) 1650); [|lia]. apply Ok_inj in X. eexists. eexists. split; [left; reflexivity|]. split; [right; left; reflexivity|]. split; [|exact X].
  intros Y. unfold legacy_preimage, lib_preimage in Y.
  destruct (tx_wire H name net t En O) as [_ K]. destruct (nth_some (t_ins (the_tx t)) n ltac:(lia)) as [i E].
  destruct (lib_ok Single acp n code (the_tx t) i K E) as [K1 K2]; [auto|lia|].
  assert (transaction_ok (legacy_tx Single acp n code (the_tx t))) as K3.
  { destruct K1 as [A1 [A2 [A3 [A4 [A5 [A6 A7]]]]]]. split; [exact A1|]. split; [exact A2|]. split; [exact A3|].
    split; [|split; [exact A5|split; [|exact I]]].
    - unfold count, legacy_tx. cbn [t_outs]. rewrite app_length, repeat_length, firstn_length, skipn_length. destruct K as [_ [_ [_ [K _]]]]. unfold count in K. lia.
    - unfold lib_tx, single_tx, single_outs in A6. cbn [t_outs] in A6. rewrite app_assoc in A6. apply Forall_app in A6. exact (proj1 A6). }
  apply wire_tx_prefix in Y; [|exact K1|exact K3|exact K2|exact I].
  destruct Y as [Y _]. apply (f_equal t_outs) in Y. apply (single_outs_spec (length (t_ins (the_tx t))) n) in Y; lia.
Qed.

(** * BIP143 and fork id *)

Lemma top_segwit name net t n i (code value : bytes) ty acp : get_network name = Ok net -> no_fork_id name -> tx_obj H net t -> ~ plain t ->
  nth_error (t_ins (the_tx t)) n = Some i ->
  digest H ty net t (Z.of_nat n) (string_wire code) (Some value) acp =
  match ty, nth_error (t_outs (the_tx t)) n with
  | Single, None => Err NotImplementedError
  | _, _ => Ok (double_hash H name (bip143_preimage (double_hash H name) ty acp n i code value (the_tx t)))
  end.
Proof.
  intros En N O P E. apply the_nth_inv in E. destruct E as [j [E <-]].
  rewrite (sighash_segwit H name net t n j (string_wire code) value ty acp En N O P E).
  replace (nth_error (t_outs (the_tx t)) n) with (option_map the_output (nth_error (tx_tx_outs t) n)) by (symmetry; apply nth_error_map).
  unfold bip143_preimage, forkid_preimage, bip143_body, raw_body. cbn [the_tx t_outs]. rewrite nth_error_map.
  destruct ty, (nth_error (tx_tx_outs t) n); reflexivity.
Qed.

Lemma top_segwit_none name net t n script ty acp : get_network name = Ok net -> no_fork_id name -> ~ plain t ->
  (n < length (t_ins (the_tx t)))%nat -> (n < length (t_outs (the_tx t)))%nat ->
  digest H ty net t (Z.of_nat n) script None acp = Err TypeError.
Proof.
  intros En N P L Lo. rewrite the_ins_len in L. rewrite the_outs_len in Lo. destruct (nth_some _ _ L) as [i E].
  assert (is_witness t = true) as W.
  { unfold is_witness. unfold plain in P. destruct (tx_flag t), (tx_tx_witnesses t); cbn; try reflexivity. exfalso. apply P. auto. }
  unfold digest, sighash_all, sighash_single. rewrite (FORKID_none name net En N), W.
  destruct (Z.leb_spec (zlen (tx_tx_outs t)) (Z.of_nat n)) as [X|_]; [unfold zlen in X; lia|].
  destruct ty; unfold segwit_sighash; cbv [guard]; rewrite (index_of_nat _ n i E); reflexivity.
Qed.

Lemma top_fork name net id t n i (code value : bytes) ty acp : get_network name = Ok net -> In (name, id) fork_ids -> tx_obj H net t ->
  nth_error (t_ins (the_tx t)) n = Some i -> len value = 8 ->
  digest H ty net t (Z.of_nat n) (string_wire code) (Some value) acp =
  match ty, nth_error (t_outs (the_tx t)) n with
  | Single, None => Err NotImplementedError
  | _, _ => Ok (double_hash H name (forkid_preimage (double_hash H name) id ty acp n i code value (the_tx t)))
  end.
Proof.
  intros En I O E V. apply the_nth_inv in E. destruct E as [j [E <-]].
  rewrite (sighash_fork H name net id t n j (string_wire code) value ty acp En I O E V).
  replace (nth_error (t_outs (the_tx t)) n) with (option_map the_output (nth_error (tx_tx_outs t) n)) by (symmetry; apply nth_error_map).
  unfold bip143_preimage, forkid_preimage, bip143_body, raw_body. cbn [the_tx t_outs]. rewrite nth_error_map.
  destruct ty, (nth_error (tx_tx_outs t) n); reflexivity.
Qed.

Lemma single_ok_lt ty net t n script pv acp d : digest H ty net t (Z.of_nat n) script pv acp = Ok d -> ty = Single -> (n < length (t_outs (the_tx t)))%nat.
Proof.
  intros E ->. rewrite the_outs_len. unfold digest, sighash_single in E.
  destruct (Z.leb_spec (zlen (tx_tx_outs t)) (Z.of_nat n)) as [X|X]; [discriminate E|]. unfold zlen in X. lia.
Qed.

Lemma top_refused net t n script pv acp : zlen (tx_tx_outs t) <= n -> sighash_single H net t n script pv acp = Err NotImplementedError.
Proof. intros L. unfold sighash_single. destruct (Z.leb_spec (zlen (tx_tx_outs t)) n); [reflexivity|lia]. Qed.

(** * what is covered *)

Lemma top_segwit_binds name net t t' n n' i i' (code code' v v' : bytes) ty ty' acp acp' d : hashes_ok H ->
  get_network name = Ok net -> no_fork_id name -> tx_obj H net t -> tx_obj H net t' -> ~ plain t -> ~ plain t' ->
  nth_error (t_ins (the_tx t)) n = Some i -> nth_error (t_ins (the_tx t')) n' = Some i' ->
  len v = 8 -> len v' = 8 -> len code < 2 ^ 64 -> len code' < 2 ^ 64 ->
  digest H ty net t (Z.of_nat n) (string_wire code) (Some v) acp = Ok d ->
  digest H ty' net t' (Z.of_nat n') (string_wire code') (Some v') acp' = Ok d ->
  collision (double_hash H name) (bip143_preimage (double_hash H name) ty acp n i code v (the_tx t) :: bip143_preimage (double_hash H name) ty' acp' n' i' code' v' (the_tx t') :: bip143_parts (the_tx t) ++ bip143_parts (the_tx t')) \/
  (ty = ty' /\ acp = acp' /\ covered_same ty acp n (the_tx t) n' (the_tx t') /\ same_signed i i' /\ code = code' /\ v = v').
Proof.
  intros Hh En N O O' P P' E E' V V' C C' D D'.
  pose proof (single_ok_lt _ _ _ _ _ _ _ _ D) as S. pose proof (single_ok_lt _ _ _ _ _ _ _ _ D') as S'.
  rewrite (top_segwit name net t n i code v ty acp En N O P E) in D.
  rewrite (top_segwit name net t' n' i' code' v' ty' acp' En N O' P' E') in D'.
  assert (d = double_hash H name (bip143_preimage (double_hash H name) ty acp n i code v (the_tx t))) as D1 by (destruct ty, (nth_error (t_outs (the_tx t)) n); congruence).
  assert (d = double_hash H name (bip143_preimage (double_hash H name) ty' acp' n' i' code' v' (the_tx t'))) as D2 by (destruct ty', (nth_error (t_outs (the_tx t')) n'); congruence).
  rewrite D1 in D2. apply (same_or_collide _ (bip143_preimage (double_hash H name) ty acp n i code v (the_tx t) :: bip143_preimage (double_hash H name) ty' acp' n' i' code' v' (the_tx t') :: bip143_parts (the_tx t) ++ bip143_parts (the_tx t'))) in D2; [|left; reflexivity|right; left; reflexivity]. destruct D2 as [D2|]; [|auto]. unfold bip143_preimage in D2.
  apply app_inj_tail_len in D2; [|reflexivity]. destruct D2 as [X Y].
  apply le4_inj in Y; [|pose proof (type_number_range ty acp); lia|pose proof (type_number_range ty' acp'); lia].
  apply type_number_inj in Y. destruct Y as [<- <-].
  destruct (body_binds (double_hash H name) (fun m => double_hash_len H name m Hh) ty acp n i code v (the_tx t) n' i' code' v' (the_tx t')) as [K|K]; auto; try (left; eapply collision_incl; [|exact K]; intros x X0; right; right; exact X0); try apply (tx_wire H name net); auto.
Qed.

Lemma top_fork_binds name net id t t' n n' i i' (code code' v v' : bytes) ty ty' acp acp' d : hashes_ok H ->
  get_network name = Ok net -> In (name, id) fork_ids -> tx_obj H net t -> tx_obj H net t' ->
  nth_error (t_ins (the_tx t)) n = Some i -> nth_error (t_ins (the_tx t')) n' = Some i' ->
  len code < 2 ^ 64 -> len code' < 2 ^ 64 ->
  digest H ty net t (Z.of_nat n) (string_wire code) (Some v) acp = Ok d ->
  digest H ty' net t' (Z.of_nat n') (string_wire code') (Some v') acp' = Ok d ->
  collision (double_hash H name) (forkid_preimage (double_hash H name) id ty acp n i code v (the_tx t) :: forkid_preimage (double_hash H name) id ty' acp' n' i' code' v' (the_tx t') :: bip143_parts (the_tx t) ++ bip143_parts (the_tx t')) \/
  (ty = ty' /\ acp = acp' /\ covered_same ty acp n (the_tx t) n' (the_tx t') /\ same_signed i i' /\ code = code' /\ v = v').
Proof.
  intros Hh En I O O' E E' C C' D D'.
  assert (forall u m sc (w : bytes) ty acp, digest H ty net u m sc (Some w) acp = Ok d -> len w = 8) as V8.
  { intros u m sc w ty0 acp0 D0. destruct (Z.eq_dec (len w) 8) as [|X]; [assumption|].
    destruct (fork_value H name net id u m sc (Some w) ty0 acp0 En I X) as [Y|[_ [_ Y]]]; rewrite Y in D0; discriminate. }
  pose proof (V8 _ _ _ _ _ _ D) as V. pose proof (V8 _ _ _ _ _ _ D') as V'.
  pose proof (single_ok_lt _ _ _ _ _ _ _ _ D) as S. pose proof (single_ok_lt _ _ _ _ _ _ _ _ D') as S'.
  rewrite (top_fork name net id t n i code v ty acp En I O E V) in D.
  rewrite (top_fork name net id t' n' i' code' v' ty' acp' En I O' E' V') in D'.
  assert (d = double_hash H name (forkid_preimage (double_hash H name) id ty acp n i code v (the_tx t))) as D1 by (destruct ty, (nth_error (t_outs (the_tx t)) n); congruence).
  assert (d = double_hash H name (forkid_preimage (double_hash H name) id ty' acp' n' i' code' v' (the_tx t'))) as D2 by (destruct ty', (nth_error (t_outs (the_tx t')) n'); congruence).
  rewrite D1 in D2. apply (same_or_collide _ (forkid_preimage (double_hash H name) id ty acp n i code v (the_tx t) :: forkid_preimage (double_hash H name) id ty' acp' n' i' code' v' (the_tx t') :: bip143_parts (the_tx t) ++ bip143_parts (the_tx t'))) in D2; [|left; reflexivity|right; left; reflexivity]. destruct D2 as [D2|]; [|auto]. unfold forkid_preimage in D2.
  apply app_inj_tail_len in D2; [|reflexivity]. destruct D2 as [X Y]. destruct (FORKID_some name net id En I) as [_ R].
  apply le4_inj in Y; [|pose proof (type_number_range ty acp); lia|pose proof (type_number_range ty' acp'); lia].
  assert (type_number ty acp = type_number ty' acp') as Y' by lia.
  apply type_number_inj in Y'. destruct Y' as [<- <-].
  destruct (body_binds (double_hash H name) (fun m => double_hash_len H name m Hh) ty acp n i code v (the_tx t) n' i' code' v' (the_tx t')) as [K|K]; auto; try (left; eapply collision_incl; [|exact K]; intros x X0; right; right; exact X0); try apply (tx_wire H name net); auto.
Qed.

Lemma top_legacy name net t n i code pv ty acp d : get_network name = Ok net -> no_fork_id name -> tx_obj H net t -> plain t ->
  nth_error (t_ins (the_tx t)) n = Some i -> readable_size name (len code) -> len code < 2 ^ 64 ->
  digest H ty net t (Z.of_nat n) (string_wire code) pv acp = Ok d ->
  d = double_hash H name (wire_tx (lib_tx ty acp n code (the_tx t)) ++ le_bytes 4 (type_number ty acp)).
Proof.
  intros En N O P E R C D. pose proof (single_ok_lt _ _ _ _ _ _ _ _ D) as S. pose proof (nth_lt _ _ _ E) as L. unfold digest in D. destruct ty.
  - rewrite (top_all name) in D by assumption. destruct (len code <=? 1650); [|discriminate]. apply Ok_inj in D. rewrite <- D. reflexivity.
  - rewrite (top_single name) in D by auto. destruct (len code <=? 1650); [|discriminate]. apply Ok_inj in D. rewrite <- D. reflexivity.
Qed.

Lemma top_legacy_binds name net t t' n n' i i' code code' pv pv' ty ty' acp acp' d :
  get_network name = Ok net -> no_fork_id name -> tx_obj H net t -> tx_obj H net t' -> plain t -> plain t' ->
  nth_error (t_ins (the_tx t)) n = Some i -> nth_error (t_ins (the_tx t')) n' = Some i' ->
  readable_size name (len code) -> readable_size name (len code') -> len code < 2 ^ 64 -> len code' < 2 ^ 64 ->
  digest H ty net t (Z.of_nat n) (string_wire code) pv acp = Ok d ->
  digest H ty' net t' (Z.of_nat n') (string_wire code') pv' acp' = Ok d ->
  collision (double_hash H name) [lib_preimage ty acp n code (the_tx t); lib_preimage ty' acp' n' code' (the_tx t')] \/
  (ty = ty' /\ acp = acp' /\ covered_same ty acp n (the_tx t) n' (the_tx t') /\ (acp = true \/ code <> [] -> same_signed i i') /\ code = code').
Proof.
  intros En N O O' P P' E E' R R' C C' D D'.
  pose proof (single_ok_lt _ _ _ _ _ _ _ _ D) as S. pose proof (single_ok_lt _ _ _ _ _ _ _ _ D') as S'.
  apply (top_legacy name net t n i) in D; try assumption. apply (top_legacy name net t' n' i') in D'; try assumption.
  rewrite D in D'. apply (same_or_collide _ [lib_preimage ty acp n code (the_tx t); lib_preimage ty' acp' n' code' (the_tx t')]) in D'; [|left; reflexivity|right; left; reflexivity]. destruct D' as [D'|]; [|auto].
  destruct (tx_wire H name net t En O) as [_ K]. destruct (tx_wire H name net t' En O') as [_ K'].
  destruct (lib_ok ty acp n code (the_tx t) i K E S C) as [A B]. destruct (lib_ok ty' acp' n' code' (the_tx t') i' K' E' S' C') as [A' B'].
  apply wire_tx_prefix in D'; try assumption. destruct D' as [X Y].
  apply le4_inj in Y; [|pose proof (type_number_range ty acp); lia|pose proof (type_number_range ty' acp'); lia].
  apply type_number_inj in Y. destruct Y as [<- <-]. right. split; [reflexivity|]. split; [reflexivity|].
  apply (lib_eq ty acp n i code (the_tx t) n' i' code' (the_tx t')); auto.
Qed.

(** * replay protection *)

Lemma fork_not_decred name id : In (name, id) fork_ids -> ~ In name decred_names.
Proof.
  intros I. assert (forallb (fun p => negb (str_mem (fst p) decred_names)) fork_ids = true) as F by (vm_compute; reflexivity).
  rewrite forallb_forall in F. specialize (F _ I). cbn [fst] in F. intros J. apply str_mem_In in J. rewrite J in F. discriminate.
Qed.
Lemma double_sha name : ~ In name decred_names -> double_hash H name = sha256d H.
Proof. intros N. unfold double_hash. destruct in_dec; [contradiction|reflexivity]. Qed.

Lemma top_fork_message name net id t n i (code v : bytes) ty acp d : get_network name = Ok net -> In (name, id) fork_ids -> tx_obj H net t ->
  nth_error (t_ins (the_tx t)) n = Some i -> digest H ty net t (Z.of_nat n) (string_wire code) (Some v) acp = Ok d ->
  d = sha256d H (forkid_preimage (sha256d H) id ty acp n i code v (the_tx t)).
Proof.
  intros En I O E D. assert (len v = 8) as V.
  { destruct (Z.eq_dec (len v) 8) as [|X]; [assumption|].
    destruct (fork_value H name net id t (Z.of_nat n) (string_wire code) (Some v) ty acp En I X) as [Y|[_ [_ Y]]]; rewrite Y in D; discriminate. }
  rewrite (top_fork name net id t n i code v ty acp En I O E V) in D. rewrite (double_sha name (fork_not_decred _ _ I)) in D.
  destruct ty, (nth_error (t_outs (the_tx t)) n); congruence.
Qed.

Lemma types_differ p q id ty acp ty' acp' : 0 <= id < 256 -> p ++ le_bytes 4 (id * 256 + 64 + type_number ty acp) <> q ++ le_bytes 4 (type_number ty' acp').
Proof.
  intros R X. apply app_inj_tail_len in X; [|reflexivity]. destruct X as [_ X]. symmetry in X. revert X.
  apply types_not_fork; [|apply R]. destruct ty', acp'; cbn; auto.
Qed.

Lemma replay_segwit name net id name' net' t t' n n' i i' (code code' v v' : bytes) ty ty' acp acp' d :
  get_network name = Ok net -> In (name, id) fork_ids -> get_network name' = Ok net' -> no_fork_id name' -> ~ In name' decred_names ->
  tx_obj H net t -> tx_obj H net' t' -> ~ plain t' -> nth_error (t_ins (the_tx t)) n = Some i -> nth_error (t_ins (the_tx t')) n' = Some i' ->
  digest H ty net t (Z.of_nat n) (string_wire code) (Some v) acp = Ok d ->
  digest H ty' net' t' (Z.of_nat n') (string_wire code') (Some v') acp' = Ok d ->
  collision (sha256d H) [forkid_preimage (sha256d H) id ty acp n i code v (the_tx t); bip143_preimage (sha256d H) ty' acp' n' i' code' v' (the_tx t')].
Proof.
  intros En I En' N Nd O O' P E E' D D'. apply (top_fork_message name net id t n i) in D; try assumption.
  rewrite (top_segwit name' net' t' n' i' code' v' ty' acp' En' N O' P E') in D'. rewrite (double_sha name' Nd) in D'.
  assert (d = sha256d H (bip143_preimage (sha256d H) ty' acp' n' i' code' v' (the_tx t'))) as D2 by (destruct ty', (nth_error (t_outs (the_tx t')) n'); congruence).
  eexists. eexists. split; [left; reflexivity|]. split; [right; left; reflexivity|]. split; [|congruence].
  unfold forkid_preimage, bip143_preimage. apply types_differ, (FORKID_some name net id En I).
Qed.

Lemma replay_legacy name net id name' net' t t' n n' i i' (code code' v : bytes) v' ty ty' acp acp' d :
  get_network name = Ok net -> In (name, id) fork_ids -> get_network name' = Ok net' -> no_fork_id name' -> ~ In name' decred_names ->
  tx_obj H net t -> tx_obj H net' t' -> plain t' -> nth_error (t_ins (the_tx t)) n = Some i -> nth_error (t_ins (the_tx t')) n' = Some i' ->
  readable_size name' (len code') -> len code' < 2 ^ 64 ->
  digest H ty net t (Z.of_nat n) (string_wire code) (Some v) acp = Ok d ->
  digest H ty' net' t' (Z.of_nat n') (string_wire code') v' acp' = Ok d ->
  collision (sha256d H) [forkid_preimage (sha256d H) id ty acp n i code v (the_tx t); lib_preimage ty' acp' n' code' (the_tx t')].
Proof.
  intros En I En' N Nd O O' P E E' R C D D'. apply (top_fork_message name net id t n i) in D; try assumption.
  apply (top_legacy name' net' t' n' i') in D'; try assumption. rewrite (double_sha name' Nd) in D'.
  eexists. eexists. split; [left; reflexivity|]. split; [right; left; reflexivity|]. split; [|rewrite <- D, D'; reflexivity].
  unfold forkid_preimage, lib_preimage. apply types_differ, (FORKID_some name net id En I).
Qed.

Lemma replay_fork name net id name' net' id' t t' n n' i i' (code code' v v' : bytes) ty ty' acp acp' d :
  get_network name = Ok net -> In (name, id) fork_ids -> get_network name' = Ok net' -> In (name', id') fork_ids -> id <> id' ->
  tx_obj H net t -> tx_obj H net' t' -> nth_error (t_ins (the_tx t)) n = Some i -> nth_error (t_ins (the_tx t')) n' = Some i' ->
  digest H ty net t (Z.of_nat n) (string_wire code) (Some v) acp = Ok d ->
  digest H ty' net' t' (Z.of_nat n') (string_wire code') (Some v') acp' = Ok d ->
  collision (sha256d H) [forkid_preimage (sha256d H) id ty acp n i code v (the_tx t); forkid_preimage (sha256d H) id' ty' acp' n' i' code' v' (the_tx t')].
Proof.
  intros En I En' I' Ni O O' E E' D D'. apply (top_fork_message name net id t n i) in D; try assumption.
  apply (top_fork_message name' net' id' t' n' i') in D'; try assumption.
  eexists. eexists. split; [left; reflexivity|]. split; [right; left; reflexivity|]. split; [|congruence].
  unfold forkid_preimage. intros X. apply app_inj_tail_len in X; [|reflexivity]. destruct X as [_ X].
  destruct (FORKID_some name net id En I) as [_ R]. destruct (FORKID_some name' net' id' En' I') as [_ R'].
  apply le4_inj in X; [|pose proof (type_number_range ty acp); lia|pose proof (type_number_range ty' acp'); lia].
  assert (64 + type_number ty acp < 256) by (destruct ty, acp; cbn; lia). assert (64 + type_number ty' acp' < 256) by (destruct ty', acp'; cbn; lia).
  pose proof (type_number_range ty acp). pose proof (type_number_range ty' acp'). lia.
Qed.

(** * what is not covered *)

Lemma covered_outs ty acp n t n' t' : covered_same ty acp n t n' t' -> ty = Single -> (n < length (t_outs t))%nat -> (n' < length (t_outs t'))%nat.
Proof.
  intros [_ [_ [_ [_ [_ F]]]]] S L. specialize (F S). destruct (nth_some _ _ L) as [o Eo]. rewrite Eo in F. symmetry in F. apply nth_lt in F. exact F.
Qed.

Lemma top_segwit_ignores name net t t' n n' i i' (script v : bytes) ty acp :
  get_network name = Ok net -> no_fork_id name -> tx_obj H net t -> tx_obj H net t' -> ~ plain t -> ~ plain t' ->
  nth_error (t_ins (the_tx t)) n = Some i -> nth_error (t_ins (the_tx t')) n' = Some i' ->
  covered_same ty acp n (the_tx t) n' (the_tx t') -> same_signed i i' ->
  digest H ty net t (Z.of_nat n) script (Some v) acp = digest H ty net t' (Z.of_nat n') script (Some v) acp.
Proof.
  intros En N O O' P P' E E' K SS. apply the_nth_inv in E, E'. destruct E as [j [E <-]]. destruct E' as [j' [E' <-]].
  rewrite (sighash_segwit H name net t n j script v ty acp En N O P E), (sighash_segwit H name net t' n' j' script v ty acp En N O' P' E').
  rewrite (body_ignores (double_hash H name) ty acp n (the_input j) script v (the_tx t) n' (the_input j') (the_tx t') K SS).
  destruct ty; [reflexivity|]. destruct K as [_ [_ [_ [_ [_ F]]]]]. specialize (F eq_refl). unfold the_tx in F. cbn [t_outs] in F. rewrite !nth_error_map in F.
  destruct (nth_error (tx_tx_outs t) n), (nth_error (tx_tx_outs t') n'); try discriminate F; reflexivity.
Qed.

Lemma top_fork_ignores name net id t t' n n' i i' (script v : bytes) ty acp :
  get_network name = Ok net -> In (name, id) fork_ids -> tx_obj H net t -> tx_obj H net t' ->
  nth_error (t_ins (the_tx t)) n = Some i -> nth_error (t_ins (the_tx t')) n' = Some i' ->
  covered_same ty acp n (the_tx t) n' (the_tx t') -> same_signed i i' -> len v = 8 ->
  digest H ty net t (Z.of_nat n) script (Some v) acp = digest H ty net t' (Z.of_nat n') script (Some v) acp.
Proof.
  intros En I O O' E E' K SS V. apply the_nth_inv in E, E'. destruct E as [j [E <-]]. destruct E' as [j' [E' <-]].
  rewrite (sighash_fork H name net id t n j script v ty acp En I O E V), (sighash_fork H name net id t' n' j' script v ty acp En I O' E' V).
  rewrite (body_ignores (double_hash H name) ty acp n (the_input j) script v (the_tx t) n' (the_input j') (the_tx t') K SS).
  destruct ty; [reflexivity|]. destruct K as [_ [_ [_ [_ [_ F]]]]]. specialize (F eq_refl). unfold the_tx in F. cbn [t_outs] in F. rewrite !nth_error_map in F.
  destruct (nth_error (tx_tx_outs t) n), (nth_error (tx_tx_outs t') n'); try discriminate F; reflexivity.
Qed.

Lemma top_legacy_ignores name net t t' n n' i i' code pv pv' ty acp :
  get_network name = Ok net -> no_fork_id name -> tx_obj H net t -> tx_obj H net t' -> plain t -> plain t' ->
  nth_error (t_ins (the_tx t)) n = Some i -> nth_error (t_ins (the_tx t')) n' = Some i' ->
  readable_size name (len code) -> len code < 2 ^ 64 ->
  covered_same ty acp n (the_tx t) n' (the_tx t') -> same_signed i i' ->
  (acp = false \/ ty = Single -> n = n') -> (ty = Single -> length (t_ins (the_tx t)) = length (t_ins (the_tx t'))) ->
  digest H ty net t (Z.of_nat n) (string_wire code) pv acp = digest H ty net t' (Z.of_nat n') (string_wire code) pv' acp.
Proof.
  intros En N O O' P P' E E' R C K SS Hn Hl.
  destruct (tx_wire H name net t En O) as [_ T]. destruct (tx_wire H name net t' En O') as [_ T'].
  assert (lib_tx ty acp n code (the_tx t) = lib_tx ty acp n' code (the_tx t')) as X.
  { apply (lib_ignores ty acp n i code (the_tx t) n' i' (the_tx t')); try assumption; [apply T|apply T']. }
  pose proof (nth_lt _ _ _ E) as L. pose proof (nth_lt _ _ _ E') as L'. destruct ty.
  - unfold digest. rewrite !(top_all name) by assumption. unfold legacy_preimage. unfold lib_tx in X. rewrite X. reflexivity.
  - unfold digest. specialize (Hn (or_intror eq_refl)). subst n'.
    destruct (Nat.lt_ge_cases n (length (t_outs (the_tx t)))) as [Lo|Lo].
    + assert (n < length (t_outs (the_tx t')))%nat as Lo' by (eapply covered_outs; [exact K|reflexivity|exact Lo]).
      rewrite !(top_single name) by assumption. unfold lib_tx in X. rewrite X. reflexivity.
    + rewrite !top_refused; [reflexivity| |rewrite the_outs_len in Lo; unfold zlen; lia].
      destruct (Nat.lt_ge_cases n (length (t_outs (the_tx t')))) as [Lo'|Lo']; [|rewrite the_outs_len in Lo'; unfold zlen; lia].
      destruct K as [_ [_ [_ [_ [_ F]]]]]. specialize (F eq_refl). destruct (nth_some _ _ Lo') as [o Eo]. rewrite Eo in F. apply nth_lt in F. lia.
Qed.

Lemma top_single_acp name net t t' n i i' code pv pv' acp d :
  get_network name = Ok net -> no_fork_id name -> tx_obj H net t -> tx_obj H net t' -> plain t -> plain t' ->
  nth_error (t_ins (the_tx t)) n = Some i -> nth_error (t_ins (the_tx t')) n = Some i' ->
  readable_size name (len code) -> len code < 2 ^ 64 ->
  length (t_ins (the_tx t)) <> length (t_ins (the_tx t')) ->
  sighash_single H net t (Z.of_nat n) (string_wire code) pv acp = Ok d ->
  sighash_single H net t' (Z.of_nat n) (string_wire code) pv' acp = Ok d ->
  collision (double_hash H name) [lib_preimage Single acp n code (the_tx t); lib_preimage Single acp n code (the_tx t')].
Proof.
  intros En N O O' P P' E E' R C Ln D D'.
  pose proof (single_ok_lt Single _ _ _ _ _ _ _ D eq_refl) as S. pose proof (single_ok_lt Single _ _ _ _ _ _ _ D' eq_refl) as S'.
  apply (top_legacy name net t n i code pv Single) in D; try assumption. apply (top_legacy name net t' n i' code pv' Single) in D'; try assumption.
  rewrite D in D'. apply (same_or_collide _ [lib_preimage Single acp n code (the_tx t); lib_preimage Single acp n code (the_tx t')]) in D'; [|left; reflexivity|right; left; reflexivity]. destruct D' as [D'|]; [|auto]. exfalso. apply Ln.
  destruct (tx_wire H name net t En O) as [_ K]. destruct (tx_wire H name net t' En O') as [_ K'].
  destruct (lib_ok Single acp n code (the_tx t) i K E ltac:(auto) C) as [A B]. destruct (lib_ok Single acp n code (the_tx t') i' K' E' ltac:(auto) C) as [A' B'].
  apply wire_tx_prefix in D'; try assumption. destruct D' as [X _].
  apply (single_counts acp n code (the_tx t) n code (the_tx t')); try assumption; eapply nth_lt; eassumption.
Qed.

(** * after parsing *)

Lemma top_parsed name net t : get_network name = Ok net -> tx_obj H net t -> parsable name (the_tx t) ->
  exists t', Tx_from_bytes H net (tx_bytes t) = Ok t' /\ tx_obj H net t' /\ the_tx t' = the_tx t /\ ~ plain t'.
Proof.
  intros En O P. destruct (tx_parse H name net t [] En O P (or_intror eq_refl)) as [t' [E [O' [T [Wt _]]]]]. rewrite app_nil_r in E.
  exists t'. split; [exact E|]. split; [exact O'|]. split; [exact T|]. intros [_ X]. rewrite X in Wt. discriminate.
Qed.

Lemma covered_refl ty acp n t : covered_same ty acp n t n t.
Proof. repeat split. Qed.
Lemma signed_refl i : same_signed i i.
Proof. repeat split. Qed.

Lemma top_parsed_same name net t : get_network name = Ok net -> tx_obj H net t -> parsable name (the_tx t) ->
  (exists id, In (name, id) fork_ids) \/ (no_fork_id name /\ ~ plain t) ->
  exists t', Tx_from_bytes H net (tx_bytes t) = Ok t' /\
    forall ty n script (v : bytes) acp, (n < length (t_ins (the_tx t)))%nat -> len v = 8 ->
      digest H ty net t' (Z.of_nat n) script (Some v) acp = digest H ty net t (Z.of_nat n) script (Some v) acp.
Proof.
  intros En O P C. destruct (top_parsed name net t En O P) as [t' [E [O' [T Np]]]]. exists t'. split; [exact E|].
  intros ty n script v acp L V. destruct (nth_some _ _ L) as [i Ei]. pose proof Ei as Ei'. rewrite <- T in Ei'.
  destruct C as [[id I]|[N Pl]].
  - eapply (top_fork_ignores name net id t' t n n i i); try eassumption; [rewrite T; apply covered_refl|apply signed_refl].
  - eapply (top_segwit_ignores name net t' t n n i i); try eassumption; [rewrite T; apply covered_refl|apply signed_refl].
Qed.

Lemma top_parsed_legacy name net t : get_network name = Ok net -> tx_obj H net t -> parsable name (the_tx t) -> no_fork_id name -> plain t ->
  exists t', Tx_from_bytes H net (tx_bytes t) = Ok t' /\
    forall ty n i code acp, nth_error (t_ins (the_tx t)) n = Some i -> (n < length (t_outs (the_tx t)))%nat ->
      digest H ty net t' (Z.of_nat n) (string_wire code) None acp = Err TypeError /\
      (forall v : bytes, digest H ty net t' (Z.of_nat n) (string_wire code) (Some v) acp =
        Ok (double_hash H name (bip143_preimage (double_hash H name) ty acp n i code v (the_tx t)))) /\
      (readable_size name (len code) -> len code <= 1650 -> forall pv, exists d, digest H ty net t (Z.of_nat n) (string_wire code) pv acp = Ok d).
Proof.
  intros En O P N Pl. destruct (top_parsed name net t En O P) as [t' [E [O' [T Np]]]]. exists t'. split; [exact E|].
  intros ty n i code acp Ei Lo. pose proof (nth_lt _ _ _ Ei) as L. split; [|split].
  - apply (top_segwit_none name); try assumption; rewrite T; assumption.
  - intros v. rewrite (top_segwit name net t' n i code v ty acp); try assumption; [|rewrite T; exact Ei]. rewrite T.
    destruct (nth_some _ _ Lo) as [o ->]. destruct ty; reflexivity.
  - intros R C pv. destruct ty; unfold digest; [rewrite (top_all name)|rewrite (top_single name)]; try assumption; try lia;
      (destruct (Z.leb_spec (len code) 1650); [eexists; reflexivity|lia]).
Qed.
End Top.
