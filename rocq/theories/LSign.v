(* Lemmas about the network's verdict on signed transactions *)
From Coq Require Import String.
From Verif Require Import Py LBase MNet MUtils MShared MScript MTx MBuilder SNum SNet SHash SScript SAddr STx SSig SInterp SSign
  LNet LTx LTxParse LCopy LTxWire LSig LBip143 LSigBind LSigTop LAddr LInterp.
Open Scope list_scope.
Open Scope Z_scope.
Ltac Zify.zify_post_hook ::= idtac.

(** * contexts that check signatures alike *)

Section Ext.
Context (cx cx' : context).
Context (E1 : cx_locktime cx = cx_locktime cx') (E2 : cx_sequence cx = cx_sequence cx').
Context (E3 : forall s k, cx_checksig cx s k = cx_checksig cx' s k) (E4 : cx_other cx = cx_other cx').
Context (E5 : cx_sha256 cx = cx_sha256 cx') (E6 : cx_rmd160 cx = cx_rmd160 cx').

Lemma check_sigs_ext keys : forall sigs, check_sigs cx keys sigs = check_sigs cx' keys sigs.
Proof using E3.
  induction keys as [|k ks IH]; intros [|s ss]; cbn [check_sigs]; try reflexivity.
  rewrite E3. destruct (length (k :: ks) <? length (s :: ss))%nat; [reflexivity|]. destruct (cx_checksig cx' s k) as [[|]|]; auto.
Qed.
Lemma multisig_ext s o : multisig cx s o = multisig cx' s o.
Proof using E3.
  unfold multisig. destruct s as [|kn r]; [reflexivity|]. destruct (_ && _ && _ && _ && _); [|reflexivity].
  destruct (skipn _ r) as [|km r']; [reflexivity|]. destruct (_ && _ && _ && _); [|reflexivity]. rewrite check_sigs_ext. reflexivity.
Qed.
Lemma operate_ext c s a o : operate cx c s a o = operate cx' c s a o.
Proof using All.
  unfold operate, locktime_reached. rewrite E1, E2, E4, E5, E6.
  repeat match goal with |- (if ?b then _ else _) = (if ?b then _ else _) => destruct b; [try reflexivity|] end; try reflexivity.
  - destruct s as [|k [|x r]]; try reflexivity. rewrite E3. reflexivity.
  - rewrite multisig_ext. reflexivity.
Qed.
Lemma step_ext i st : step cx i st = step cx' i st.
Proof using All.
  destruct i as [d|c]; [reflexivity|]. unfold step. destruct (_ || _); [reflexivity|]. destruct (_ && _); [reflexivity|].
  destruct (executing st); [|reflexivity]. rewrite operate_ext. reflexivity.
Qed.
Lemma steps_ext is : forall st, steps cx is st = steps cx' is st.
Proof using All. induction is as [|i r IH]; intros st; cbn [steps]; [reflexivity|]. rewrite step_ext. destruct (step cx' i st); auto. Qed.
Lemma run_ext script s : run cx script s = run cx' script s.
Proof using All. unfold run. destruct (10000 <? len script); [reflexivity|]. destruct (decode script); [|reflexivity]. rewrite steps_ext. reflexivity. Qed.
Lemma verify_program_ext v p wit : verify_program cx v p wit = verify_program cx' v p wit.
Proof using All. unfold verify_program, witness_script. rewrite E5. destruct (rev wit); rewrite ?run_ext; reflexivity. Qed.
Lemma spends_ext segwit sig script wit : spends cx segwit sig script wit = spends cx' segwit sig script wit.
Proof using All.
  unfold spends. rewrite run_ext. destruct (run cx' sig []) as [s1|]; [|reflexivity]. rewrite run_ext. destruct (run cx' script s1) as [s2|]; [|reflexivity].
  apply (f_equal (andb _)). destruct (if segwit then program script else None) as [[v p]|]; [rewrite verify_program_ext; reflexivity|].
  destruct (is_p2sh script); [|reflexivity]. apply (f_equal (andb _)). destruct s1 as [|redeem s1]; [reflexivity|]. rewrite run_ext. destruct (run cx' redeem s1) as [s3|]; [|reflexivity].
  apply (f_equal (andb _)). destruct (if segwit then program redeem else None) as [[v p]|]; [rewrite verify_program_ext|]; reflexivity.
Qed.
End Ext.

(** * fork ids *)

Lemma fork_id_some name id : In (name, id) fork_ids -> network_fork_id name = Some id.
Proof.
  intros I. unfold network_fork_id.
  destruct (List.find (fun p => same (fst p) name) fork_ids) as [[n' id']|] eqn:F.
  - apply find_some in F. destruct F as [F1 F2]. cbn [fst] in F2. apply same_true in F2. subst n'. f_equal. eapply fork_ids_functional; eassumption.
  - pose proof (find_none _ _ F (name, id) I) as X. cbn [fst] in X. rewrite same_refl in X. discriminate.
Qed.
Lemma fork_id_none name : no_fork_id name -> network_fork_id name = None.
Proof.
  intros N. unfold network_fork_id. destruct (List.find (fun p => same (fst p) name) fork_ids) as [[n' id']|] eqn:F; [|reflexivity].
  apply find_some in F. destruct F as [F1 F2]. cbn [fst] in F2. apply same_true in F2. subst n'. elim (N id' F1).
Qed.

(** * signing changes no digest *)

Lemma unsigned_nth t t' n i : same_unsigned t t' -> nth_error (t_ins t') n = Some i -> exists j, nth_error (t_ins t) n = Some j /\ same_signed j i.
Proof.
  intros (_ & _ & _ & F) E. revert n E. induction F as [|x y l l' S F IH]; intros [|n] E; try discriminate E; cbn [nth_error] in *.
  - injection E as <-. eauto.
  - apply IH, E.
Qed.
Lemma unsigned_covered t t' ty anyone n : same_unsigned t t' -> covered_same ty anyone n t n t'.
Proof.
  intros (A & B & C & F). split; [exact A|]. split; [exact B|]. rewrite C. repeat split; auto; intros _; [|intros _];
  induction F as [|x y l l' (S1 & S2 & S3) F IH]; cbn [map]; try reflexivity; unfold outpoint_wire in *; congruence.
Qed.
Lemma unsigned_legacy t t' ty anyone n code : same_unsigned t t' -> legacy_tx ty anyone n code t = legacy_tx ty anyone n code t'.
Proof.
  intros (A & B & C & F). unfold legacy_tx. rewrite A, B, C.
  assert (forall l l', Forall2 same_signed l l' -> map (with_script code) l = map (with_script code) l' /\ map (other_input ty) l = map (other_input ty) l') as M.
  { clear. induction 1 as [|x y l l' (S1 & S2 & S3) F [I1 I2]]; [split; reflexivity|]. cbn [map]. rewrite I1, I2.
    unfold other_input, with_sequence, with_script. cbn [in_txid in_index in_script in_sequence]. rewrite S1, S2, S3. split; reflexivity. }
  destruct (M _ _ F) as [M1 M2]. rewrite <- !firstn_map, <- !(skipn_map (with_script code)), <- !(skipn_map (other_input ty)), M1, M2. reflexivity.
Qed.

Section Sign.
Context (W : world) (H : hashes) (name : str) (net : network) (En : get_network name = Ok net).

Lemma bip143_unsigned t t' ty anyone n i j (code value : bytes) : same_unsigned t t' -> same_signed j i ->
  bip143_preimage (double_hash H name) ty anyone n j code value t = bip143_preimage (double_hash H name) ty anyone n i code value t'.
Proof.
  intros U S. unfold bip143_preimage. f_equal. exact (body_ignores (double_hash H name) ty anyone n j (string_wire code) value t n i t' (unsigned_covered _ _ _ _ _ U) S).
Qed.

Lemma hash_type_number b ty anyone : hash_type b = Some (ty, anyone) -> b = type_number ty anyone.
Proof.
  unfold hash_type. destruct (Z.eqb_spec b 1); [intros E; injection E as <- <-; assumption|]. destruct (Z.eqb_spec b 3); [intros E; injection E as <- <-; assumption|].
  destruct (Z.eqb_spec b 129); [intros E; injection E as <- <-; assumption|]. destruct (Z.eqb_spec b 131); [intros E; injection E as <- <-; assumption|discriminate].
Qed.
Lemma hash_type_of ty anyone : hash_type (type_number ty anyone) = Some (ty, anyone).
Proof. destruct ty, anyone; reflexivity. Qed.

Lemma witness_digest t T n i (value code : bytes) b : no_fork_id name -> tx_obj H net t -> ~ plain t -> same_unsigned (the_tx t) T ->
  nth_error (t_ins T) n = Some i -> (n < length (t_outs T))%nat ->
  network_digest W H name true T n i value code b = library_digest W H name net t n value code b.
Proof using En.
  intros N O P U E L. destruct (unsigned_nth _ _ n i U E) as (j & Ej & S). unfold network_digest, library_digest. rewrite (fork_id_none name N). cbn [andb].
  destruct (hash_type b) as [[ty anyone]|] eqn:T'; [|reflexivity].
  rewrite (top_segwit H name net t n j code value ty anyone En N O P Ej). rewrite (bip143_unsigned (the_tx t) T ty anyone n i j code value U S).
  destruct U as (_ & _ & Uo & _). rewrite Uo. destruct (nth_some _ _ L) as [o ->]. destruct ty; reflexivity.
Qed.

Lemma forked_digest id w t T n i (value code : bytes) b : In (name, id) fork_ids -> tx_obj H net t -> len value = 8 -> same_unsigned (the_tx t) T ->
  nth_error (t_ins T) n = Some i -> (n < length (t_outs T))%nat ->
  network_digest W H name w T n i value code b = library_digest W H name net t n value code b.
Proof using En.
  intros I O V U E L. destruct (unsigned_nth _ _ n i U E) as (j & Ej & S). unfold network_digest, library_digest. rewrite (fork_id_some name id I). cbn [andb].
  destruct (Z.testbit b 6); [|reflexivity]. cbn [negb]. destruct (hash_type (b - 64)) as [[ty anyone]|] eqn:T'; [|reflexivity].
  rewrite (top_fork H name net id t n j code value ty anyone En I O Ej V).
  assert (forkid_preimage (double_hash H name) id ty anyone n j code value (the_tx t) = forkid_preimage (double_hash H name) id ty anyone n i code value T) as X.
  { unfold forkid_preimage. f_equal. exact (body_ignores (double_hash H name) ty anyone n j (string_wire code) value _ n i T (unsigned_covered _ _ _ _ _ U) S). }
  rewrite X. destruct U as (_ & _ & Uo & _). rewrite Uo. destruct (nth_some _ _ L) as [o ->]. destruct ty; reflexivity.
Qed.

(* the original algorithm *)
Lemma legacy_digest t T n i (value code : bytes) b : no_fork_id name -> tx_obj H net t -> plain t -> same_unsigned (the_tx t) T ->
  nth_error (t_ins T) n = Some i -> (n < length (t_outs T))%nat -> readable_size name (len code) -> len code <= 1650 ->
  (b = 3 \/ b = 131 -> S n = length (t_ins T)) ->
  network_digest W H name false T n i value code b = library_digest W H name net t n value code b.
Proof using En.
  intros N O P U E L R C Sn. destruct (unsigned_nth _ _ n i U E) as (j & Ej & S). unfold network_digest, library_digest. rewrite (fork_id_none name N). cbn [andb].
  destruct (hash_type b) as [[ty anyone]|] eqn:T'; [|reflexivity]. apply hash_type_number in T'. unfold digest.
  assert (nth_error (t_outs T) n <> None) as No by (intros X; apply nth_error_None in X; lia).
  pose proof (nth_lt _ _ _ Ej) as Lj.
  assert (legacy_preimage ty anyone n code (the_tx t) = legacy_preimage ty anyone n code T) as X by (unfold legacy_preimage; rewrite (unsigned_legacy _ _ ty anyone n code U); reflexivity).
  destruct U as (_ & _ & Uo & Ui). assert (length (t_ins (the_tx t)) = length (t_ins T)) as Li by (clear - Ui; induction Ui; cbn [length]; congruence).
  destruct ty.
  - rewrite (top_all H name net t n code (Some value) anyone En N O P Lj R) by lia. destruct (Z.leb_spec (len code) 1650); [|lia]. rewrite X. reflexivity.
  - rewrite (top_single_last H name net t n code (Some value) anyone En N O P); try assumption; [|rewrite Li; apply Sn; rewrite T'; destruct anyone; cbn; lia|rewrite Uo; exact L].
    rewrite X. destruct (nth_error (t_outs T) n); [reflexivity|congruence].
Qed.
End Sign.

(** * script codes *)

Lemma starts_app p a r : starts p (p ++ r) = true /\ (starts p a = true -> exists r', a = p ++ r').
Proof.
  split; [induction p as [|x p IH]; cbn [app starts]; [reflexivity|rewrite Z.eqb_refl; exact IH]|].
  revert a. induction p as [|x p IH]; intros a E; [exists a; reflexivity|]. destruct a as [|y a]; [discriminate|]. cbn [starts] in E.
  apply andb_true_iff in E. destruct E as [E1 E2]. apply Z.eqb_eq in E1. subst y. destruct (IH a E2) as [r' ->]. exists r'. reflexivity.
Qed.

(* data of another length than sig *)
Definition unlike (sig : bytes) (e : element) : Prop := match e with Op _ _ => True | Push _ d => len d <> len sig end.

Lemma push_starts sig e r : 1 <= len sig <= 520 -> code_ok e -> unlike sig e -> starts (push (smallest sig) sig) (wire e ++ r) = false.
Proof.
  intros L K U. destruct (starts (push (smallest sig) sig) (wire e ++ r)) eqn:E; [|reflexivity]. exfalso.
  apply (starts_app _ _ []) in E. destruct E as [r' E].
  assert (code_ok (Push (smallest sig) sig)) as Ks by (apply smallest_code; lia).
  pose proof (next_wire e r K) as N1. pose proof (next_wire (Push (smallest sig) sig) r' Ks) as N2. cbn [wire] in N2. rewrite E, N2 in N1.
  injection N1 as N1 _. destruct e as [c n|f d]; cbn [instr_of] in N1; [|injection N1 as ->; apply U; reflexivity].
  destruct (c =? 0); [|discriminate]. injection N1 as ->. cbn in L. lia.
Qed.

Lemma erase_wires sig es : 1 <= len sig <= 520 -> Forall code_ok es -> Forall (unlike sig) es ->
  erase (push (smallest sig) sig) (concat (map wire es)) = concat (map wire es).
Proof.
  intros L F U. unfold erase. generalize (length (concat (map wire es))) as fuel. revert U. induction F as [|e es K F IH]; intros U fuel.
  - destruct fuel; [reflexivity|]. cbn [map concat erase_from]. destruct (push (smallest sig) sig) eqn:P.
    + apply (f_equal (@length Z)) in P. pose proof (wire_nonempty (Push (smallest sig) sig)) as X. cbn [wire] in X. cbn [length] in P. lia.
    + reflexivity.
  - inversion U; subst. destruct fuel as [|fuel]; [reflexivity|]. cbn [map concat erase_from]. rewrite push_starts by assumption. rewrite next_wire by assumption.
    rewrite IH by assumption. rewrite app_length. replace (length (wire e) + length (concat (map wire es)) - length (concat (map wire es)))%nat with (length (wire e)) by lia.
    rewrite firstn_app, Nat.sub_diag, firstn_all. cbn [firstn]. rewrite app_nil_r. reflexivity.
Qed.

Lemma erase_p2pkh sig h : len h = 20 -> 1 <= len sig <= 520 -> len sig <> 20 -> erase (push (smallest sig) sig) (template P2PKH h) = template P2PKH h.
Proof.
  intros Lh L N. rewrite (p2pkh_wires h Lh). apply erase_wires; [exact L| |].
  - repeat constructor; cbn; lia.
  - repeat constructor. cbn. lia.
Qed.

Lemma next_shorter s i r : next s = Some (i, r) -> (length r < length s)%nat.
Proof.
  assert (forall n a d b, take n a = Some (d, b) -> (length b <= length a)%nat) as T.
  { intros n a d b. unfold take. destruct (len a <? n); [discriminate|]. intros E. injection E as <- <-. rewrite skipn_length. lia. }
  unfold next. destruct s as [|c s]; [discriminate|]. cbn [length].
  destruct (c <=? 75). { destruct (take c s) as [[d b]|] eqn:E; [|discriminate]. intros X. injection X as <- <-. apply T in E. lia. }
  assert (forall k, match match take k s with Some (n, r') => match take (le_value n) r' with Some (d, r0) => Some (IPush d, r0) | None => None end | None => None end with Some (_, r0) => (length r0 <= length s)%nat | None => True end) as K.
  { intros k. destruct (take k s) as [[n b]|] eqn:E; [|exact I]. destruct (take (le_value n) b) as [[d b']|] eqn:E2; [|exact I]. apply T in E, E2. lia. }
  destruct (c =? 76). { intros X. specialize (K 1). rewrite X in K. lia. }
  destruct (c =? 77). { intros X. specialize (K 2). rewrite X in K. lia. }
  destruct (c =? 78). { intros X. specialize (K 4). rewrite X in K. lia. }
  intros X. injection X as <- <-. lia.
Qed.

Lemma erase_shorter p s : (length (erase p s) <= length s)%nat.
Proof.
  unfold erase. generalize (length s) at 1 as fuel. intros fuel. revert s. induction fuel as [|fuel IH]; intros s; [cbn; lia|]. cbn [erase_from].
  destruct (starts p s). { specialize (IH (skipn (length p) s)). rewrite skipn_length in IH. lia. }
  destruct (next s) as [[i r]|] eqn:E; [|lia]. apply next_shorter in E. rewrite app_length, firstn_length. specialize (IH r). lia.
Qed.

(** * verdicts *)

Section Verdict.
Context (W : world) (H : hashes) (name : str) (net : network) (En : get_network name = Ok net).

Lemma digest_checked t T n i w value v code ty anyone d : tx_obj H net t -> right_kind name t w value v -> same_unsigned (the_tx t) T ->
  nth_error (t_ins T) n = Some i -> readable_size name (len code) -> len code < 2 ^ 64 -> (ty = Single -> w = false -> no_fork_id name -> S n = length (t_ins T)) ->
  digest H ty net t (Z.of_nat n) (string_wire code) value anyone = Ok d ->
  network_digest W H name w T n i v code (type_byte name ty anyone) = Some d.
Proof using En.
  intros O K U E R C Sn D. destruct (unsigned_nth _ _ n i U E) as (j & Ej & S). pose proof (single_ok_lt _ _ _ _ _ _ _ _ _ D) as Lo.
  unfold network_digest, type_byte. destruct K as [(id & I & ->)|[N K]].
  - rewrite (fork_id_some name id I). rewrite (top_fork_message H name net id t n j code v ty anyone d En I O Ej D).
    assert (Z.testbit (type_number ty anyone + 64) 6 = true) as -> by (destruct ty, anyone; reflexivity).
    replace (type_number ty anyone + 64 - 64) with (type_number ty anyone) by lia. rewrite hash_type_of. rewrite (double_sha H name (fork_not_decred name id I)).
    unfold forkid_preimage. do 3 f_equal. symmetry. exact (body_ignores (sha256d H) ty anyone n j (string_wire code) v _ n i T (unsigned_covered _ _ _ _ _ U) S).
  - rewrite (fork_id_none name N). rewrite Z.add_0_r, hash_type_of. destruct w.
    + destruct K as [P ->]. rewrite (top_segwit H name net t n j code v ty anyone En N O P Ej) in D. rewrite <- (bip143_unsigned H name (the_tx t) T ty anyone n i j code v U S).
      destruct ty; [destruct (nth_error (t_outs (the_tx t)) n); congruence|]. destruct (nth_some _ _ (Lo eq_refl)) as [o Eo]. rewrite Eo in D. congruence.
    + rewrite (top_legacy H name net t n j code value ty anyone d En N O K Ej R C D).
      destruct ty.
      * cbn [lib_tx]. unfold legacy_preimage. rewrite <- (unsigned_legacy _ _ All anyone n code U). reflexivity.
      * specialize (Sn eq_refl eq_refl N). specialize (Lo eq_refl). pose proof U as U'. destruct U' as (_ & _ & Uo & Ui).
        assert (length (t_ins (the_tx t)) = length (t_ins T)) as Li by (clear - Ui; induction Ui; cbn [length]; congruence).
        rewrite <- Uo. destruct (nth_some _ _ Lo) as [o Eo]. rewrite Eo. f_equal. unfold legacy_preimage. rewrite <- (unsigned_legacy _ _ Single anyone n code U).
        cbn [lib_tx]. rewrite <- single_tx_last by congruence. reflexivity.
Qed.
End Verdict.

Lemma check_snoc W name D w code s b key : check W name D w code (s ++ [b]) key =
  match D (if w then code else match network_fork_id name with Some _ => code | None => erase (push (smallest (s ++ [b])) (s ++ [b])) code end) b with
  | Some d => ecdsa W key d s | None => None
  end.
Proof. unfold check. destruct (s ++ [b]) eqn:E; [destruct s; discriminate|]. rewrite <- E, last_last, removelast_last. reflexivity. Qed.

Lemma segwit_mem name : has_segwit name = true <-> In name segwit_names.
Proof.
  unfold has_segwit. rewrite existsb_exists. split; [intros (x & I & E); apply same_true in E; subst x; exact I|].
  intros I. exists name. split; [exact I|apply same_refl].
Qed.

Lemma signed_p2pkh seg h sig wit : len h = 20 -> signed_script seg (template P2PKH h) sig wit = (template P2PKH h, false).
Proof.
  intros L. unfold signed_script. rewrite (is_p2sh_p2pkh h L). assert ((if seg then program (template P2PKH h) else None) = None) as ->; [|reflexivity].
  destruct seg; [|reflexivity]. apply program_first; lia.
Qed.
Lemma signed_p2wpkh h sig wit : len h = 20 -> signed_script true (0 :: 20 :: h) sig wit = (template P2PKH h, true).
Proof. intros L. unfold signed_script. rewrite <- L at 1. rewrite program_template by lia. unfold signed_program. rewrite L. reflexivity. Qed.
Lemma signed_p2wsh h sig wit : len h = 32 -> signed_script true (0 :: 32 :: h) sig wit = (last wit [], true).
Proof. intros L. unfold signed_script. rewrite <- L at 1. rewrite program_template by lia. unfold signed_program. rewrite L. reflexivity. Qed.
Lemma signed_p2sh seg h sig wit : len h = 20 -> (seg = true -> program (last_push sig) = None) ->
  signed_script seg (template P2SH h) sig wit = (last_push sig, false).
Proof.
  intros L N. unfold signed_script. rewrite (is_p2sh_p2sh h L). assert ((if seg then program (template P2SH h) else None) = None) as ->.
  { destruct seg; [|reflexivity]. apply program_first; lia. }
  destruct seg; [rewrite (N eq_refl)|]; reflexivity.
Qed.
Lemma last_push_wires es f d : Forall code_ok (es ++ [Push f d]) -> last_push (concat (map wire (es ++ [Push f d]))) = d.
Proof. intros F. unfold last_push. rewrite decode_wires by exact F. rewrite map_app. cbn [map instr_of]. rewrite last_last. reflexivity. Qed.

Lemma type_byte_range name ty anyone : is_byte (type_byte name ty anyone).
Proof. unfold type_byte, is_byte. destruct (network_fork_id name), ty, anyone; cbn; lia. Qed.

(** * whole transactions *)

Lemma legacy_is_plain H net ins outs version lock expiry js pk sg t :
  simple_unsigned_legacy_tx H net ins outs version lock expiry js pk sg = Ok (AnyTx t) -> plain t.
Proof.
  unfold simple_unsigned_legacy_tx, make_tx. intros E.
  repeat match type of E with
  | bind ?x _ = Ok _ => destruct x eqn:?; cbn [bind] in E; [|discriminate E]
  | (if ?c then _ else _) = Ok _ => destruct c
  end; try discriminate E.
  apply Ok_inj in E. injection E as <-.
  try match goal with X : Ok None = Ok _ |- _ => apply Ok_inj in X; subst end.
  match goal with X : Tx _ _ _ _ _ _ _ _ = Ok _ |- _ => apply tx_fields in X; destruct X as (_ & F & _ & _ & Ws & _) end.
  split; assumption.
Qed.

Lemma plain_transaction H net t ins : tx_obj H net t -> plain t -> Forall txin_obj ins -> length ins = length (tx_tx_ins t) ->
  exists t', Tx_copy H net t None None (Some ins) None None None = Ok t' /\ tx_obj H net t' /\
    the_tx t' = {| t_version := tx_version t; t_ins := map the_input ins; t_outs := map the_output (tx_tx_outs t); t_witness := None; t_lock := tx_lock_time t |}.
Proof.
  intros O [P1 P2] F L. pose proof (tx_counts H net t O) as [Ci Co]. pose proof O as O'. apply tx_obj_iff in O'. destruct O' as (_ & Fo & _).
  destruct (plain_obj H net t O (conj P1 P2) ins (tx_tx_outs t) F Fo) as (E & O' & P'); [unfold zlen in *; lia|exact Co|].
  eexists. split; [unfold Tx_copy, or_self, or_self_opt; rewrite P1, P2; exact E|]. split; [exact O'|reflexivity].
Qed.

Lemma witness_transaction H net t ws f : tx_obj H net t -> tx_flag t = Some f -> Forall witness_obj ws -> length ws = length (tx_tx_ins t) ->
  exists t', Tx_copy H net t None None None None (Some ws) None = Ok t' /\ tx_obj H net t' /\
    the_tx t' = {| t_version := tx_version t; t_ins := map the_input (tx_tx_ins t); t_outs := map the_output (tx_tx_outs t); t_witness := Some (map the_stack ws); t_lock := tx_lock_time t |}.
Proof.
  intros O P F L. apply tx_obj_iff in O. destruct O as (Fi & Fo & _ & A & _).
  assert (tx_args_ok net (tx_version t) (Some f) (tx_tx_ins t) (tx_tx_outs t) (Some ws) (tx_lock_time t) = true) as B.
  { unfold tx_args_ok in *. rewrite P in A. rewrite !andb_true_iff in *. repeat split; try tauto. cbn [wits_ok]. unfold zlen. rewrite L, Z.eqb_refl. apply orb_true_r. }
  assert (Tx H net (tx_version t) (Some f) (tx_tx_ins t) (tx_tx_outs t) (Some ws) (tx_lock_time t) = Ok (tx_of H net (tx_version t) (Some f) (tx_tx_ins t) (tx_tx_outs t) (Some ws) (tx_lock_time t))) as E
    by (rewrite Tx_spec, B; reflexivity).
  eexists. split; [unfold Tx_copy, or_self, or_self_opt; rewrite P; exact E|]. apply tx_fields in E. destruct E as (_ & _ & _ & _ & _ & _ & E). split; [exact (E Fi Fo F)|reflexivity].
Qed.

Lemma forked name : (exists id, In (name, id) fork_ids) \/ no_fork_id name.
Proof.
  destruct (network_fork_id name) as [id|] eqn:E.
  - left. exists id. unfold network_fork_id in E. destruct (List.find _ _) as [[x y]|] eqn:F; [|discriminate]. injection E as <-.
    apply find_some in F. destruct F as [I F]. cbn [fst] in F. apply same_true in F. subst x. exact I.
  - right. intros id I. rewrite (fork_id_some name id I) in E. discriminate.
Qed.

Lemma witness_is_flagged H net ins outs version lock t : simple_unsigned_witness_tx H net ins outs version lock = Ok (AnyTx t) -> tx_flag t <> None.
Proof.
  unfold simple_unsigned_witness_tx, make_tx. intros E.
  repeat match type of E with
  | bind ?x _ = Ok _ => destruct x eqn:?; cbn [bind] in E; [|discriminate E]
  | (if ?c then _ else _) = Ok _ => destruct c
  end; try discriminate E.
  apply Ok_inj in E. injection E as <-.
  match goal with X : Tx _ _ _ _ _ _ _ _ = Ok _ |- _ => apply tx_fields in X; destruct X as (_ & F & _ & _ & Ws & _) end.
  rewrite F. discriminate.
Qed.
