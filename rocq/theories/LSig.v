(* Lemmas about MTx.v: signature digests *)
From Coq Require Import String.
From Verif Require Import Py LBase MNet MUtils MShared MScript MTx SNum SNet SHash SScript STx SSig LNet LUtils LVarint LScript LBase58 LTx LTxParse LTxWire.
Open Scope list_scope.
Open Scope Z_scope.
Ltac Zify.zify_post_hook ::= idtac.

Lemma hash256_spec H name net m : get_network name = Ok net -> hash256 H net m = double_hash H name m.
Proof.
  intros En. destruct (hash256_by_name H name net m En) as [A B]. unfold double_hash. destruct in_dec; auto.
Qed.

Lemma FORKID_names name net : get_network name = Ok net ->
  match FORKID net with Some id => In (name, id) fork_ids /\ 0 <= id < 256 | None => no_fork_id name end.
Proof.
  intros E.
  assert (match FORKID net with
          | Some id => existsb (fun p => leqb name (fst p) && (id =? snd p)) fork_ids && (0 <=? id) && (id <? 256)
          | None => negb (str_mem name (map fst fork_ids)) end = true) as B.
  { revert name net E. apply (supported_forall (fun s n => match FORKID n with
          | Some id => existsb (fun p => leqb s (fst p) && (id =? snd p)) fork_ids && (0 <=? id) && (id <? 256)
          | None => negb (str_mem s (map fst fork_ids)) end)). vm_compute. reflexivity. }
  destruct (FORKID net) as [id|].
  - rewrite !andb_true_iff in B. destruct B as [[B L] U]. split; [|lia].
    apply existsb_exists in B. destruct B as [[s k] [I B]]. cbn [fst snd] in B. apply andb_true_iff in B. destruct B as [B1 B2].
    apply leqb_eq in B1. apply Z.eqb_eq in B2. subst. exact I.
  - intros id I. apply negb_true_iff in B. assert (str_mem name (map fst fork_ids) = true); [|congruence].
    apply str_mem_In. apply in_map_iff. exists (name, id). auto.
Qed.

Lemma FORKID_none name net : get_network name = Ok net -> no_fork_id name -> FORKID net = None.
Proof.
  intros En N. pose proof (FORKID_names name net En) as F. destruct (FORKID net) as [id|]; [|reflexivity].
  exfalso. apply (N id), F.
Qed.

Lemma fork_ids_functional name a b : In (name, a) fork_ids -> In (name, b) fork_ids -> a = b.
Proof.
  intros A B.
  assert (forallb (fun p => forallb (fun q => negb (leqb (fst p) (fst q)) || (snd p =? snd q)) fork_ids) fork_ids = true) as F by (vm_compute; reflexivity).
  rewrite forallb_forall in F. specialize (F _ A). rewrite forallb_forall in F. specialize (F _ B). cbn [fst snd] in F.
  rewrite leqb_refl in F. cbn [negb orb] in F. lia.
Qed.

Lemma FORKID_some name net id : get_network name = Ok net -> In (name, id) fork_ids -> FORKID net = Some id /\ 0 <= id < 256.
Proof.
  intros En I. pose proof (FORKID_names name net En) as F. destruct (FORKID net) as [k|].
  - destruct F as [F R]. rewrite (fork_ids_functional name id k I F). auto.
  - exfalso. apply (F id), I.
Qed.

(** * the original algorithm *)

Definition clear (i : txin) : txin := txin_of (ti_outpoint i) [] [] (ti_sequence i).
Definition setc (code : bytes) (i : txin) : txin := txin_of (ti_outpoint i) [] code (ti_sequence i).
Definition zeroq (i : txin) : txin := txin_of (ti_outpoint i) (ti_stack_script i) (ti_redeem_script i) [0; 0; 0; 0].

Lemma op36 i : txin_obj i -> zlen (op_bytes (ti_outpoint i)) = 36.
Proof. intros [O _]. apply outpoint_obj_iff in O. destruct O as [A [B ->]]. rewrite zlen_app. lia. Qed.

Lemma copy_clear i : txin_obj i -> TxIn_copy i None (Some []) (Some []) None = Ok (clear i).
Proof.
  intros O. unfold TxIn_copy, or_self. rewrite TxIn_spec, (op36 i O). apply txin_obj_iff in O. destruct O as [_ [-> _]]. reflexivity.
Qed.
Lemma clear_obj i : txin_obj i -> txin_obj (clear i).
Proof. intros O. split; [apply O|]. exact (copy_clear i O). Qed.

Lemma copy_setc i code : txin_obj i -> TxIn_copy (clear i) None None (Some code) None =
  if zlen code <=? 1650 then Ok (setc code i) else Err ValueError.
Proof.
  intros O. unfold TxIn_copy, or_self, clear. cbn [ti_outpoint ti_stack_script ti_sequence txin_of].
  rewrite TxIn_spec, (op36 i O). apply txin_obj_iff in O. destruct O as [_ [-> _]]. reflexivity.
Qed.
Lemma setc_obj i code : txin_obj i -> zlen code <= 1650 -> txin_obj (setc code i).
Proof.
  intros O L. pose proof (copy_setc i code O) as C. destruct (Z.leb_spec (zlen code) 1650); [|lia]. split; [apply O|exact C].
Qed.

Lemma copy_zeroq i : txin_obj i -> TxIn_copy i None None None (Some (zrepeat 0 4)) = Ok (zeroq i).
Proof.
  intros O. unfold TxIn_copy, or_self. rewrite TxIn_spec, (op36 i O). apply txin_obj_iff in O. destruct O as [_ [_ [L E]]].
  rewrite E in L. cbn [ti_script_sig txin_of] in L.
  destruct (Z.leb_spec (zlen (ti_stack_script i ++ ti_redeem_script i)) 1650); [reflexivity|lia].
Qed.
Lemma zeroq_obj i : txin_obj i -> txin_obj (zeroq i).
Proof. intros O. split; [apply O|]. exact (copy_zeroq i O). Qed.

Lemma the_clear i : the_input (clear i) = with_script [] (the_input i).
Proof. reflexivity. Qed.
Lemma the_setc i code : the_input (setc code i) = with_script code (the_input i).
Proof. reflexivity. Qed.
Lemma the_zeroq i : txin_obj i -> the_input (zeroq i) = with_sequence [0; 0; 0; 0] (the_input i).
Proof.
  intros O. apply txin_obj_iff in O. destruct O as [_ [_ [_ E]]]. unfold the_input, zeroq, with_sequence. cbn.
  f_equal. rewrite E at 3. reflexivity.
Qed.

Lemma nth_split {A} (l : list A) n x : nth_error l n = Some x -> l = firstn n l ++ x :: skipn (S n) l.
Proof.
  revert n. induction l as [|y l IH]; intros [|n] E; try discriminate; cbn in *; [congruence|]. f_equal. apply IH, E.
Qed.
Lemma nth_one {A} (l : list A) n x : nth_error l n = Some x -> firstn 1 (skipn n l) = [x].
Proof.
  revert n. induction l as [|y l IH]; intros [|n] E; try discriminate; cbn in *; [congruence|]. apply IH, E.
Qed.
Lemma nth_lt {A} (l : list A) n x : nth_error l n = Some x -> (n < length l)%nat.
Proof. intros E. apply nth_error_Some. congruence. Qed.

Section Sig.
Context (H : hashes).

Lemma plain_obj net t : tx_obj H net t -> plain t -> forall ins outs,
  Forall txin_obj ins -> Forall txout_obj outs -> 1 <= zlen ins < 2 ^ 64 -> 1 <= zlen outs < 2 ^ 64 ->
  let c := tx_of H net (tx_version t) None ins outs None (tx_lock_time t) in
  Tx H net (tx_version t) None ins outs None (tx_lock_time t) = Ok c /\ tx_obj H net c /\ plain c.
Proof.
  intros O [P1 P2] ins outs Fi Fo Li Lo c. apply tx_obj_iff in O. destruct O as [_ [_ [_ [A _]]]].
  assert (tx_args_ok net (tx_version t) None ins outs None (tx_lock_time t) = true) as B.
  { unfold tx_args_ok in *. rewrite !andb_true_iff in *. cbn [flag_ok wits_ok]. repeat split; try tauto; lia. }
  split; [rewrite Tx_spec, B; reflexivity|]. split; [|split; reflexivity].
  apply tx_obj_iff. cbn [c tx_of tx_tx_ins tx_tx_outs tx_tx_witnesses tx_version tx_flag tx_lock_time].
  split; [exact Fi|]. split; [exact Fo|]. split; [exact I|]. split; [exact B|reflexivity].
Qed.

Lemma tx_counts net t : tx_obj H net t -> 1 <= zlen (tx_tx_ins t) < 2 ^ 64 /\ 1 <= zlen (tx_tx_outs t) < 2 ^ 64.
Proof.
  intros O. apply tx_obj_iff in O. destruct O as [_ [_ [_ [A _]]]]. unfold tx_args_ok in A. rewrite !andb_true_iff in A. lia.
Qed.

Definition prep_ins (n : nat) (code : bytes) (i : txin) (ins : list txin) : list txin :=
  map clear (firstn n ins) ++ setc code i :: map clear (skipn (S n) ins).

Lemma Forall_parts {A} (P : A -> Prop) n x (l : list A) : nth_error l n = Some x -> Forall P l ->
  P x /\ Forall P (firstn n l) /\ Forall P (skipn (S n) l).
Proof.
  intros E F. rewrite (nth_split l n x E) in F. apply Forall_app in F. destruct F as [F1 F2]. inversion F2; subst. auto.
Qed.

Lemma prep_len n code i ins : nth_error ins n = Some i -> zlen (prep_ins n code i ins) = zlen ins.
Proof.
  intros E. rewrite (nth_split ins n i E) at 2. unfold prep_ins. rewrite !zlen_app, !zlen_cons, !zlen_map. reflexivity.
Qed.

Lemma prep_obj n code i ins : nth_error ins n = Some i -> Forall txin_obj ins -> zlen code <= 1650 -> Forall txin_obj (prep_ins n code i ins).
Proof.
  intros E F L. destruct (Forall_parts _ _ _ _ E F) as [O [F1 F2]]. apply Forall_app. split; [|constructor].
  - apply Forall_map. eapply Forall_impl; [exact clear_obj|exact F1].
  - apply setc_obj; assumption.
  - apply Forall_map. eapply Forall_impl; [exact clear_obj|exact F2].
Qed.

Lemma nth_prep n code i ins : nth_error ins n = Some i -> nth_error (prep_ins n code i ins) n = Some (setc code i).
Proof.
  intros E. unfold prep_ins. pose proof (nth_lt _ _ _ E).
  rewrite nth_error_app2 by (rewrite map_length, firstn_length; lia).
  rewrite map_length, firstn_length. replace (n - Nat.min n (length ins))%nat with 0%nat by lia. reflexivity.
Qed.

Lemma index_of_nat {A} (l : list A) n x : nth_error l n = Some x -> index l (Z.of_nat n) = Ok x.
Proof. intros E. apply index_nth; [lia|]. rewrite Nat2Z.id. exact E. Qed.
Lemma set_index_of_nat {A} (l : list A) n x a : nth_error l n = Some x ->
  set_index l (Z.of_nat n) a = Ok (firstn n l ++ a :: skipn (S n) l).
Proof.
  intros E. pose proof (nth_lt _ _ _ E). rewrite set_index_Ok by (unfold zlen; lia). rewrite Nat2Z.id, set_nth_eq by assumption. reflexivity.
Qed.

(* any length prefix is taken off, whatever it says *)
Lemma prep_spec net t n i m code : tx_obj H net t -> plain t -> nth_error (tx_tx_ins t) n = Some i ->
  0 <= m < 2 ^ 64 -> readable net m ->
  sighash_prep H net t (Z.of_nat n) (compactsize m ++ code) =
  if zlen code <=? 1650
  then Ok (tx_of H net (tx_version t) None (prep_ins n code i (tx_tx_ins t)) (tx_tx_outs t) None (tx_lock_time t))
  else Err ValueError.
Proof.
  intros O P E M R. pose proof O as O'. destruct O' as [Fi [Fo _]]. unfold sighash_prep.
  rewrite (mapM_Ok_map _ clear) by (intros a I; apply copy_clear; rewrite Forall_forall in Fi; apply Fi, I). cbn [bind].
  rewrite VarInt_roundtrip by assumption. cbn [bind vi_bytes].
  rewrite (index_of_nat _ n (clear i)) by (rewrite nth_error_map, E; reflexivity). cbn [bind].
  rewrite slice_from_app by reflexivity.
  rewrite copy_setc by (rewrite Forall_forall in Fi; apply Fi; eapply nth_error_In; exact E).
  destruct (Z.leb_spec (zlen code) 1650) as [L|L]; [|reflexivity]. cbn [bind].
  rewrite (set_index_of_nat _ n (clear i)) by (rewrite nth_error_map, E; reflexivity). cbn [bind].
  rewrite firstn_map, skipn_map. fold (prep_ins n code i (tx_tx_ins t)).
  unfold Tx_copy, or_self, or_self_opt. destruct P as [P1 P2]. rewrite P1, P2.
  destruct (tx_counts net t O) as [C1 C2]. apply plain_obj; try assumption; [split; assumption|apply prep_obj; assumption|].
  rewrite prep_len by exact E. exact C1.
Qed.

Lemma type_lor ty : Z.lor (match ty with All => SIGHASH_ALL | Single => SIGHASH_SINGLE end) SIGHASH_ANYONECANPAY = type_number ty true.
Proof. destruct ty; reflexivity. Qed.

Lemma final_spec name net c k : get_network name = Ok net -> tx_obj H net c -> 0 <= k < 2 ^ 32 ->
  sighash_final_hashing H net c k = Ok (double_hash H name (wire_tx (the_tx c) ++ le_bytes 4 k)).
Proof.
  intros En O K. unfold sighash_final_hashing. rewrite i2le_padded_Ok by lia. cbn [bind].
  destruct (tx_wire H name net c En O) as [-> _]. rewrite (hash256_spec H name) by exact En. reflexivity.
Qed.

Lemma acp_spec name net c n i k : get_network name = Ok net -> tx_obj H net c -> plain c -> nth_error (tx_tx_ins c) n = Some i ->
  0 <= Z.lor k 128 < 2 ^ 32 ->
  sighash_anyone_can_pay H net (Z.of_nat n) c k =
  Ok (double_hash H name (wire_tx {| t_version := tx_version c; t_ins := [the_input i]; t_outs := map the_output (tx_tx_outs c);
                                     t_witness := None; t_lock := tx_lock_time c |} ++ le_bytes 4 (Z.lor k 128))).
Proof.
  intros En O P E K. unfold sighash_anyone_can_pay. rewrite (index_of_nat _ n i E). cbn [bind].
  unfold Tx_copy, or_self, or_self_opt. pose proof O as [Fi [Fo _]].
  destruct (tx_counts net c O) as [_ C2].
  destruct (plain_obj net c O P [i] (tx_tx_outs c)) as [T [Oc _]]; try assumption.
  { constructor; [|constructor]. rewrite Forall_forall in Fi. apply Fi. eapply nth_error_In; exact E. }
  { rewrite zlen_cons, zlen_nil. lia. }
  destruct P as [P1 P2]. rewrite P1, P2, T. cbn [bind]. change SIGHASH_ANYONECANPAY with 128. rewrite (final_spec name) by assumption.
  reflexivity.
Qed.

Lemma plain_not_witness t : plain t -> is_witness t = false.
Proof. intros [A B]. unfold is_witness. rewrite A, B. reflexivity. Qed.

Lemma the_prep n code i ins : nth_error ins n = Some i ->
  map the_input (prep_ins n code i ins) =
  map (other_input All) (firstn n (map the_input ins)) ++ map (with_script code) (firstn 1 (skipn n (map the_input ins))) ++
  map (other_input All) (skipn (S n) (map the_input ins)).
Proof.
  intros E. rewrite (nth_one _ n (the_input i)) by (rewrite nth_error_map, E; reflexivity).
  unfold prep_ins. rewrite map_app. cbn [map app]. rewrite firstn_map, skipn_map, !map_map. reflexivity.
Qed.

Lemma legacy_all name net t n i m code pv acp : get_network name = Ok net -> no_fork_id name ->
  tx_obj H net t -> plain t -> nth_error (tx_tx_ins t) n = Some i -> 0 <= m < 2 ^ 64 -> readable net m ->
  sighash_all H net t (Z.of_nat n) (compactsize m ++ code) pv acp =
  if zlen code <=? 1650 then Ok (double_hash H name (legacy_preimage All acp n code (the_tx t))) else Err ValueError.
Proof.
  intros En N O P E M R. unfold sighash_all. rewrite (FORKID_none name net En N), (plain_not_witness t P).
  rewrite (prep_spec net t n i m code O P E M R).
  destruct (Z.leb_spec (zlen code) 1650) as [L|L]; [|reflexivity]. cbn [bind].
  pose proof O as [Fi [Fo _]]. destruct (tx_counts net t O) as [C1 C2].
  destruct (plain_obj net t O P (prep_ins n code i (tx_tx_ins t)) (tx_tx_outs t)) as [_ [Oc Pc]]; try assumption.
  { apply prep_obj; assumption. } { rewrite prep_len by exact E. exact C1. }
  unfold legacy_preimage, legacy_tx. cbn [the_tx t_version t_ins t_outs t_lock].
  destruct acp.
  - rewrite (acp_spec name net _ n (setc code i) _ En Oc Pc); [| |vm_compute; split; congruence].
    + cbn [tx_of tx_version tx_tx_outs tx_lock_time]. rewrite (nth_one _ n (the_input i)) by (rewrite nth_error_map, E; reflexivity).
      reflexivity.
    + apply nth_prep, E.
  - rewrite (final_spec name) by (try assumption; vm_compute; split; congruence).
    do 3 f_equal. unfold the_tx. cbn [tx_of tx_version tx_tx_ins tx_tx_outs tx_lock_time tx_flag].
    rewrite (the_prep n code i) by exact E. reflexivity.
Qed.

Definition nullo : txout := {| to_value := zrepeat 255 8; to_output_script := []; to_bytes_ := zrepeat 255 8 ++ [0] |}.
Lemma nullo_ok : TxOut (zrepeat 0xff 8) [] = Ok nullo.
Proof. reflexivity. Qed.
Lemma nullo_obj : txout_obj nullo.
Proof. reflexivity. Qed.

Lemma map_const {A B} (b : B) (l : list A) : map (fun _ => b) l = repeat b (length l).
Proof. induction l as [|a l IH]; [reflexivity|]. cbn. rewrite IH. reflexivity. Qed.
Lemma firstn_repeat {A} (a : A) n k : (n <= k)%nat -> firstn n (repeat a k) = repeat a n.
Proof. revert k. induction n as [|n IH]; intros [|k] L; try reflexivity; [lia|]. cbn. rewrite IH by lia. reflexivity. Qed.
Lemma skipn_repeat {A} (a : A) n k : skipn n (repeat a k) = repeat a (k - n).
Proof. revert k. induction n as [|n IH]; intros [|k]; try reflexivity. cbn. apply IH. Qed.
Lemma nth_error_repeat {A} (a : A) n k : (n < k)%nat -> nth_error (repeat a k) n = Some a.
Proof. revert k. induction n as [|n IH]; intros [|k] L; try lia; [reflexivity|]. cbn. apply IH. lia. Qed.
Lemma map_repeat' {A B} (f : A -> B) a k : map f (repeat a k) = repeat (f a) k.
Proof. induction k as [|k IH]; [reflexivity|]. cbn. rewrite IH. reflexivity. Qed.

Definition zero_ins (n : nat) (code : bytes) (i : txin) (ins : list txin) : list txin :=
  map (fun i => zeroq (clear i)) (firstn n ins) ++ setc code i :: map (fun i => zeroq (clear i)) (skipn (S n) ins).

Lemma legacy_single name net t n i m code pv acp : get_network name = Ok net -> no_fork_id name ->
  tx_obj H net t -> plain t -> nth_error (tx_tx_ins t) n = Some i -> 0 <= m < 2 ^ 64 -> readable net m ->
  sighash_single H net t (Z.of_nat n) (compactsize m ++ code) pv acp =
  if zlen (tx_tx_outs t) <=? Z.of_nat n then Err NotImplementedError
  else if zlen code <=? 1650
  then Ok (double_hash H name (wire_tx (single_tx acp n code (the_tx t)) ++ le_bytes 4 (type_number Single acp)))
  else Err ValueError.
Proof.
  intros En N O P E M R. unfold sighash_single.
  destruct (Z.leb_spec (zlen (tx_tx_outs t)) (Z.of_nat n)) as [|Lo]; [reflexivity|]. cbv [guard]. cbn [bind]. 
  rewrite (FORKID_none name net En N), (plain_not_witness t P).
  rewrite (prep_spec net t n i m code O P E M R).
  destruct (Z.leb_spec (zlen code) 1650) as [L|L]; [|reflexivity]. cbn [bind].
  pose proof O as [Fi [Fo _]]. destruct (tx_counts net t O) as [C1 C2].
  set (ins1 := prep_ins n code i (tx_tx_ins t)).
  assert (Forall txin_obj ins1) as F1 by (apply prep_obj; assumption).
  assert (zlen ins1 = zlen (tx_tx_ins t)) as Z1 by (apply prep_len, E).
  assert (length ins1 = length (tx_tx_ins t)) as Z1' by (unfold zlen in Z1; lia).
  cbn [tx_of tx_tx_ins tx_tx_outs].
  rewrite (mapM_Ok_map _ (fun _ => nullo)) by (intros; exact nullo_ok). cbn [bind].
  destruct (nth_error (tx_tx_outs t) n) as [o|] eqn:Eo.
  2: { apply nth_error_None in Eo. unfold zlen in Lo. lia. }
  rewrite (index_of_nat _ n o Eo). cbn [bind]. rewrite map_const.
  pose proof (nth_lt _ _ _ E) as Ln.
  rewrite (set_index_of_nat _ n nullo) by (apply nth_error_repeat; lia). cbn [bind].
  rewrite firstn_repeat, skipn_repeat, Z1' by lia.
  rewrite (mapM_Ok_map _ zeroq) by (intros a I; apply copy_zeroq; rewrite Forall_forall in F1; apply F1, I). cbn [bind].
  rewrite (index_of_nat _ n (setc code i)) by (apply nth_prep, E). cbn [bind].
  assert (nth_error (map zeroq ins1) n = Some (zeroq (setc code i))) as Ez by (rewrite nth_error_map; unfold ins1; rewrite nth_prep by exact E; reflexivity).
  rewrite (set_index_of_nat _ n _ _ Ez). cbn [bind].
  assert (firstn n (map zeroq ins1) ++ setc code i :: skipn (S n) (map zeroq ins1) = zero_ins n code i (tx_tx_ins t)) as ->.
  { unfold ins1, prep_ins, zero_ins. rewrite map_app. cbn [map]. rewrite !map_map.
    assert (length (map (fun x => zeroq (clear x)) (firstn n (tx_tx_ins t))) = n) as Lf by (rewrite map_length, firstn_length; lia).
    f_equal.
    - rewrite firstn_app, Lf, Nat.sub_diag. cbn [firstn]. rewrite app_nil_r. apply firstn_all2. lia.
    - f_equal. rewrite skipn_app, Lf. replace (S n - n)%nat with 1%nat by lia. rewrite (skipn_all2 (n := S n)) by lia. reflexivity. }
  destruct (Forall_parts _ _ _ _ E Fi) as [Oi [Fa Fb]].
  assert (Forall txin_obj (zero_ins n code i (tx_tx_ins t))) as Fz.
  { apply Forall_app. split; [|constructor].
    - apply Forall_map. eapply Forall_impl; [|exact Fa]. intros x Ox. apply zeroq_obj, clear_obj, Ox.
    - apply setc_obj; assumption.
    - apply Forall_map. eapply Forall_impl; [|exact Fb]. intros x Ox. apply zeroq_obj, clear_obj, Ox. }
  assert (zlen (zero_ins n code i (tx_tx_ins t)) = zlen (tx_tx_ins t)) as Lz.
  { rewrite (nth_split (tx_tx_ins t) n i E) at 2. unfold zero_ins. rewrite !zlen_app, !zlen_cons, !zlen_map. reflexivity. }
  set (outs1 := repeat nullo n ++ o :: repeat nullo (length (tx_tx_ins t) - S n)).
  assert (Forall txout_obj outs1) as Fo1.
  { assert (forall k, Forall txout_obj (repeat nullo k)) as Fr.
    { intros k. apply Forall_forall. intros x I. apply repeat_spec in I. subst. exact nullo_obj. }
    apply Forall_app. split; [apply Fr|]. constructor; [|apply Fr]. rewrite Forall_forall in Fo. apply Fo. eapply nth_error_In; exact Eo. }
  assert (zlen outs1 = zlen (tx_tx_ins t)) as Lo1.
  { unfold outs1, zlen. rewrite app_length. cbn [length]. rewrite !repeat_length. lia. }
  destruct (plain_obj net t O P _ _ Fz Fo1) as [T [Oc Pc]]; [lia|lia|].
  unfold Tx_copy, or_self, or_self_opt. cbn [tx_of tx_version tx_flag tx_tx_witnesses tx_lock_time].
  match type of T with _ = ?r => match goal with |- bind ?x _ = _ => replace x with r by (symmetry; exact T) end end. cbn [bind].
  assert (map the_output outs1 = single_outs (length (t_ins (the_tx t))) n (t_outs (the_tx t))) as Eout.
  { unfold outs1, single_outs, the_tx. cbn [t_ins t_outs]. rewrite map_app. cbn [map]. rewrite !map_repeat', map_length.
    rewrite (nth_one _ n (the_output o)) by (rewrite nth_error_map, Eo; reflexivity). reflexivity. }
  destruct acp.
  - rewrite (acp_spec name net _ n (setc code i) _ En Oc Pc); [| |vm_compute; split; congruence].
    + cbn [tx_of tx_version tx_tx_outs tx_lock_time]. rewrite Eout. unfold single_tx, legacy_tx. cbn [the_tx t_version t_ins t_outs t_lock].
      rewrite (nth_one (map the_input (tx_tx_ins t)) n (the_input i)) by (rewrite nth_error_map, E; reflexivity). reflexivity.
    + cbn [tx_of tx_tx_ins]. unfold zero_ins.
      rewrite nth_error_app2 by (rewrite map_length, firstn_length; lia). rewrite map_length, firstn_length.
      replace (n - Nat.min n (length (tx_tx_ins t)))%nat with 0%nat by lia. reflexivity.
  - rewrite (final_spec name) by (try assumption; vm_compute; split; congruence).
    do 3 f_equal. unfold the_tx at 1. cbn [tx_of tx_version tx_tx_ins tx_tx_outs tx_lock_time tx_flag]. rewrite Eout.
    unfold single_tx, legacy_tx. cbn [the_tx t_version t_ins t_outs t_lock]. f_equal.
    rewrite (nth_one (map the_input (tx_tx_ins t)) n (the_input i)) by (rewrite nth_error_map, E; reflexivity).
    unfold zero_ins. rewrite map_app. cbn [map app]. rewrite firstn_map, skipn_map, !map_map. reflexivity.
Qed.

(* an index that is out of range *)
Lemma legacy_index_err name net t n sc pv acp : get_network name = Ok net -> no_fork_id name -> tx_obj H net t -> plain t ->
  (length (tx_tx_ins t) <= n)%nat -> (exists v, VarInt_from_bytes net sc = Ok v) ->
  sighash_all H net t (Z.of_nat n) sc pv acp = Err IndexError.
Proof.
  intros En N O P L [v V]. pose proof O as [Fi _]. unfold sighash_all. rewrite (FORKID_none name net En N), (plain_not_witness t P).
  unfold sighash_prep. rewrite (mapM_Ok_map _ clear) by (intros a I; apply copy_clear; rewrite Forall_forall in Fi; apply Fi, I). cbn [bind].
  rewrite V. cbn [bind]. rewrite index_err by (rewrite zlen_map; unfold zlen; lia). reflexivity.
Qed.
End Sig.
