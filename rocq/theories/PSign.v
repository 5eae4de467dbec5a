(* C66: a transaction signed with the library's digests is accepted by the network.
   [accepted], [signing], [network_digest], [library_digest], [same_unsigned] and
   [right_kind] are in SSign.v, the Script interpreter in SInterp.v. *)
From Coq Require Import String.
From Verif Require Import Py SNum SNet SHash SScript SAddr SInterp STx SSig SCopy SSign MNet MUtils MScript MTx MBuilder MExamples
  LBase LBase58 LNet LTx LScript LAddr LBuilder LSig LSigTop LInterp LExamples LSign PScript PTx PSig PBuilder PCopy PInterp PExamples.
Open Scope list_scope.
Open Scope Z_scope.
Ltac Zify.zify_post_hook ::= idtac.

(** * Digests *)

(* the digest computed from t is the one that the network checks, in t and in every
   transaction that differs from it in script sigs and witnesses only *)
Theorem digest_is_checked_partial : forall W H name net t T n i witness value v code ty anyone d,
  get_network name = Ok net -> tx_obj H net t -> right_kind name t witness value v -> same_unsigned (the_tx t) T ->
  nth_error (t_ins T) n = Some i -> readable_size name (len code) -> len code < 2 ^ 64 ->
  (ty = Single -> witness = false -> no_fork_id name -> S n = length (t_ins T)) ->
  digest H ty net t (Z.of_nat n) (string_wire code) value anyone = Ok d ->
  network_digest W H name witness T n i v code (type_byte name ty anyone) = Some d.
Proof. intros W H name net t T n i w value v code ty anyone d En. exact (digest_checked W H name net En t T n i w value v code ty anyone d). Qed.
Print Assumptions digest_is_checked_partial.

(* whatever is spent with witnesses: the network's verdict on the signed transaction T is
   that of checking signatures against the digests of t *)
Theorem witness_verdict : forall W H name net t T n i value script code,
  get_network name = Ok net -> no_fork_id name -> tx_obj H net t -> ~ plain t -> same_unsigned (the_tx t) T ->
  nth_error (t_ins T) n = Some i -> (n < length (t_outs T))%nat ->
  signed_script (has_segwit name) script (in_script i) (witness_of T n) = (code, true) ->
  accepted W H name T n value script =
  spends (signing W H name (library_digest W H name net t n value) true T i code) (has_segwit name) (in_script i) script (witness_of T n).
Proof.
  intros W H name net t T n i value script code En N O P U E L Sc. unfold accepted. rewrite E, Sc.
  apply spends_ext; try reflexivity. intros s k. cbn [cx_checksig signing]. unfold check. destruct s as [|x s]; [reflexivity|].
  rewrite (witness_digest W H name net En t T n i) by assumption. reflexivity.
Qed.
Print Assumptions witness_verdict.

(* on networks with a fork id, whatever is spent *)
Theorem forked_verdict : forall W H name net id t T n i value script code witness,
  get_network name = Ok net -> In (name, id) fork_ids -> tx_obj H net t -> same_unsigned (the_tx t) T -> len value = 8 ->
  nth_error (t_ins T) n = Some i -> (n < length (t_outs T))%nat ->
  signed_script (has_segwit name) script (in_script i) (witness_of T n) = (code, witness) ->
  accepted W H name T n value script =
  spends (signing W H name (library_digest W H name net t n value) witness T i code) (has_segwit name) (in_script i) script (witness_of T n).
Proof.
  intros W H name net id t T n i value script code w En I O U V E L Sc. unfold accepted. rewrite E, Sc.
  apply spends_ext; try reflexivity. intros s k. cbn [cx_checksig signing]. unfold check. destruct s as [|x s]; [reflexivity|].
  rewrite (forked_digest W H name net En id w t T n i) by assumption. reflexivity.
Qed.
Print Assumptions forked_verdict.

(* without witness, whatever is spent by the last input; the script code has at most 1650
   bytes (C27), and SINGLE is wrong for other inputs (C28) *)
Theorem legacy_verdict_partial : forall W H name net t T n i value script code,
  get_network name = Ok net -> no_fork_id name -> ~ In name upgraded_zcash -> tx_obj H net t -> plain t -> same_unsigned (the_tx t) T ->
  S n = length (t_ins T) -> nth_error (t_ins T) n = Some i -> (n < length (t_outs T))%nat ->
  signed_script (has_segwit name) script (in_script i) (witness_of T n) = (code, false) -> len code <= 1650 ->
  accepted W H name T n value script =
  spends (signing W H name (library_digest W H name net t n value) false T i code) (has_segwit name) (in_script i) script (witness_of T n).
Proof.
  intros W H name net t T n i value script code En N Z O P U Sn E L Sc C. unfold accepted. rewrite E, Sc.
  apply spends_ext; try reflexivity. intros s k. cbn [cx_checksig signing]. unfold check. destruct s as [|x s]; [reflexivity|].
  rewrite (legacy_digest W H name net En t T n i); try assumption; try reflexivity; [left; exact Z| |auto].
  rewrite (fork_id_none name N). pose proof (erase_shorter (push (smallest (x :: s)) (x :: s)) code). unfold len in *. lia.
Qed.
Print Assumptions legacy_verdict_partial.

(** * Keys *)

(* a P2PKH output: the script sig is written as the signature with its hash type, and the key *)
Theorem p2pkh_signed_partial : forall W H name net t T n i value v pubkey script signature key ty anyone d text,
  hashes_ok H -> get_network name = Ok net -> ~ In name decred_names -> tx_obj H net t -> right_kind name t false value v ->
  same_unsigned (the_tx t) T -> nth_error (t_ins T) n = Some i -> witness_of T n = [] ->
  make_p2pkh_output_script H net pubkey = Ok script ->
  digest H ty net t (Z.of_nat n) (string_wire script) value anyone = Ok d ->
  (ty = Single -> no_fork_id name -> S n = length (t_ins T)) ->
  all_bytes signature -> len signature <= 519 -> len signature <> 19 -> all_bytes key -> 1 <= len key <= 520 ->
  words [hex (signature ++ [type_byte name ty anyone]); hex key] text -> serialize net text = Ok (in_script i) ->
  (accepted W H name T n v script = true <-> key_hash H name key = key_hash H name pubkey /\ ecdsa W key d signature = Some true).
Proof.
  intros W H name net t T n i value v pk script sg key ty anyone d text K En ND O R U E Wt Es D Sn B1 L1 L19 B2 L2 Wd Ei.
  pose proof (make_p2pkh_output_script_template H name net pk En) as Et. rewrite Et in Es. apply Ok_inj in Es. destruct (key_hash_ok H name pk K) as [_ L].
  unfold accepted. rewrite E, Wt. rewrite <- Es. rewrite signed_p2pkh by exact L. set (cx := signing _ _ _ _ _ _ _ _).
  assert (hashing H cx) as Hc by (split; reflexivity).
  set (s' := sg ++ [type_byte name ty anyone]). assert (len s' = len sg + 1) as Ls by (unfold s', len; rewrite app_length; cbn; lia). assert (0 <= len sg) by (unfold len; lia).
  destruct (p2pkh_input_spends H cx name net pk (template P2PKH (key_hash H name pk)) (has_segwit name) s' key text K Hc En ND Et) as (sig & E1 & E2).
  { apply Forall_app. split; [exact B1|]. constructor; [apply type_byte_range|constructor]. }
  { exact B2. } { lia. } { lia. } { exact Wd. }
  rewrite E1 in Ei. apply Ok_inj in Ei. subst sig. rewrite E2. unfold cx. cbn [cx_checksig signing]. unfold s'. rewrite check_snoc. fold s'.
  assert ((match network_fork_id name with Some _ => template P2PKH (key_hash H name pk) | None => erase (push (smallest s') s') (template P2PKH (key_hash H name pk)) end) = template P2PKH (key_hash H name pk)) as ->.
  { destruct (network_fork_id name); [reflexivity|]. apply erase_p2pkh; lia. }
  assert (len (template P2PKH (key_hash H name pk)) = 25) as L25. { cbn [template]. unfold len in *. rewrite !app_length. cbn [length]. lia. }
  rewrite (digest_checked W H name net En t T n i false value v _ ty anyone d O R U E); try assumption.
  - assert (len s' <= 520) by lia. tauto.
  - rewrite L25. right. lia.
  - rewrite L25. lia.
  - auto.
  - rewrite Es. exact D.
Qed.
Print Assumptions p2pkh_signed_partial.

(* a P2WPKH output: the script code to be hashed is that of a P2PKH output *)
Theorem p2wpkh_signed : forall W H name net t T n i v pubkey script code signature key ty anyone d,
  hashes_ok H -> get_network name = Ok net -> ~ In name decred_names -> tx_obj H net t -> right_kind name t true (Some v) v ->
  same_unsigned (the_tx t) T -> nth_error (t_ins T) n = Some i -> in_script i = [] ->
  make_p2wpkh_output_script H net pubkey = Ok script -> make_p2pkh_output_script H net pubkey = Ok code ->
  digest H ty net t (Z.of_nat n) (string_wire code) (Some v) anyone = Ok d ->
  witness_of T n = [signature ++ [type_byte name ty anyone]; key] ->
  len signature <= 519 -> len key <= 520 -> truthy (key_hash H name pubkey) = true ->
  (accepted W H name T n v script = true <-> key_hash H name key = key_hash H name pubkey /\ ecdsa W key d signature = Some true).
Proof.
  intros W H name net t T n i v pk script code sg key ty anyone d K En ND O R U E Ei Es Ec D Wt L1 L2 Tr.
  rewrite (make_p2pkh_output_script_template H name net pk En) in Ec. apply Ok_inj in Ec. destruct (key_hash_ok H name pk K) as [_ L].
  assert (In name segwit_names /\ script = 0 :: 20 :: key_hash H name pk) as [Sg Sc].
  { destruct (make_p2wpkh_output_script_template H name net pk En) as [A B]. destruct (in_dec list_eq_dec_Z name segwit_names) as [I|N]; [|rewrite (B N) in Es; discriminate].
    rewrite (A I) in Es. apply Ok_inj in Es. split; [exact I|]. rewrite <- Es. reflexivity. }
  unfold accepted. rewrite E, Wt, Ei. rewrite (proj2 (segwit_mem name) Sg). replace (signed_script true script [] _) with (template P2PKH (key_hash H name pk), true) by (rewrite Sc; symmetry; apply signed_p2wpkh, L). set (cx := signing _ _ _ _ _ _ _ _).
  assert (hashing H cx) as Hc by (split; reflexivity).
  rewrite (p2wpkh_output_spent H cx name net pk script [] _ K Hc En ND Es). unfold cx. cbn [cx_checksig signing].
  assert (len code = 25) as L25. { rewrite <- Ec. cbn [template]. unfold len in *. rewrite !app_length. cbn [length]. lia. }
  pose proof (digest_checked W H name net En t T n i true (Some v) v code ty anyone d O R U E ltac:(rewrite L25; right; lia) ltac:(rewrite L25; lia) ltac:(discriminate) D) as X.
  rewrite <- Ec in X.
  assert (check W name (network_digest W H name true T n i v) true (template P2PKH (key_hash H name pk)) (sg ++ [type_byte name ty anyone]) key = ecdsa W key d sg) as Y
    by (rewrite check_snoc, X; reflexivity).
  split.
  - intros (_ & _ & s & k & Q & _ & _ & Qk & Qc). injection Q as <- <-. rewrite <- Y. auto.
  - intros [Qk Qc]. split; [reflexivity|]. split; [exact Tr|]. do 2 eexists. split; [reflexivity|].
    split; [unfold len in *; rewrite app_length; cbn [length]; lia|]. split; [exact L2|]. rewrite Y. auto.
Qed.
Print Assumptions p2wpkh_signed.

(* the same inside a P2SH output *)
Theorem p2sh_p2wpkh_signed : forall W H name net t T n i v pubkey text script code signature key ty anyone d,
  hashes_ok H -> get_network name = Ok net -> ~ In name decred_names -> In name segwit_names -> tx_obj H net t -> right_kind name t true (Some v) v ->
  same_unsigned (the_tx t) T -> nth_error (t_ins T) n = Some i ->
  words [lit "OP_0"; hex (key_hash H name pubkey)] text -> make_p2sh_output_script H net text = Ok script ->
  make_script_sig net [] text = Ok (in_script i) -> make_p2pkh_output_script H net pubkey = Ok code ->
  digest H ty net t (Z.of_nat n) (string_wire code) (Some v) anyone = Ok d ->
  witness_of T n = [signature ++ [type_byte name ty anyone]; key] ->
  len signature <= 519 -> len key <= 520 -> truthy (key_hash H name pubkey) = true ->
  (accepted W H name T n v script = true <-> key_hash H name key = key_hash H name pubkey /\ ecdsa W key d signature = Some true).
Proof.
  intros W H name net t T n i v pk text script code sg key ty anyone d K En ND Sg O R U E Wd Es Ei Ec D Wt L1 L2 Tr.
  rewrite (make_p2pkh_output_script_template H name net pk En) in Ec. apply Ok_inj in Ec. destruct (key_hash_ok H name pk K) as [B L].
  assert (in_script i = 22 :: 0 :: 20 :: key_hash H name pk) as Eii.
  { pose (es := [Op 0 (lit "OP_0"); Push (smallest (key_hash H name pk)) (key_hash H name pk)]).
    assert (Forall (standard_element name) es) as F.
    { constructor; [split; [apply zero_in|lia]|]. constructor; [|constructor]. cbn. repeat split; try lia. exact B. }
    assert (Forall2 spelled [lit "OP_0"; hex (key_hash H name pk)] es) as Sp by (repeat constructor).
    destruct (serialize_deserialize_partial name net _ es text En F Sp Wd) as [Eb _].
    assert (concat (map wire es) = 0 :: 20 :: key_hash H name pk) as X.
    { unfold es, smallest. rewrite L. cbn [Z.leb Z.compare Pos.compare Pos.compare_cont map wire push concat app]. rewrite L, app_nil_r. reflexivity. }
    rewrite X in Eb. rewrite (make_script_sig_exact_partial name net [] text En), Eb in Ei.
    assert (len (0 :: 20 :: key_hash H name pk) = 22) as L22 by (unfold len in *; cbn [length]; lia). rewrite L22 in Ei.
    cbn [Z.eqb Z.leb Z.compare Pos.compare Pos.compare_cont] in Ei. apply Ok_inj in Ei. rewrite <- Ei. unfold smallest. rewrite L22. cbn [Z.leb Z.compare Pos.compare Pos.compare_cont push]. rewrite L22. reflexivity. }
  assert (signed_script true script (in_script i) (witness_of T n) = (template P2PKH (key_hash H name pk), true)) as Sc.
  { unfold signed_script. assert (exists h, script = template P2SH h /\ len h = 20) as (h & -> & Lh).
    { rewrite (make_p2sh_output_script_template H name net text En) in Es. destruct (serialize net text) as [b|]; [|discriminate]. apply Ok_inj in Es. exists (key_hash H name b). split; [congruence|apply (key_hash_ok H name b K)]. }
    assert (program (template P2SH h) = None) as -> by (apply program_first; lia). rewrite (is_p2sh_p2sh h Lh). assert (last_push (in_script i) = 0 :: 20 :: key_hash H name pk) as ->.
    { rewrite Eii. set (x := 0 :: 20 :: key_hash H name pk). assert (len x = 22) as Lx by (unfold x, len in *; cbn [length]; lia).
      change (22 :: x) with ([22] ++ x). rewrite <- Lx. replace ([len x] ++ x) with (concat (map wire ([] ++ [Push Direct x]))) by (cbn [app map concat wire push]; rewrite app_nil_r; reflexivity).
      apply last_push_wires. constructor; [unfold code_ok; rewrite Lx; lia|constructor]. }
    rewrite <- L at 1. rewrite program_template by lia. unfold signed_program. rewrite L. reflexivity. }
  unfold accepted. rewrite E, (proj2 (segwit_mem name) Sg), Sc, Wt. set (cx := signing _ _ _ _ _ _ _ _). assert (hashing H cx) as Hc by (split; reflexivity).
  destruct (p2sh_p2wpkh_spends H cx name net pk text [sg ++ [type_byte name ty anyone]; key] K Hc En ND Wd) as (script' & sig' & E1 & E2 & E3).
  rewrite Es in E1. apply Ok_inj in E1. subst script'. rewrite Ei in E2. apply Ok_inj in E2. subst sig'. rewrite E3. unfold cx. cbn [cx_checksig signing].
  assert (len code = 25) as L25. { rewrite <- Ec. cbn [template]. unfold len in *. rewrite !app_length. cbn [length]. lia. }
  pose proof (digest_checked W H name net En t T n i true (Some v) v code ty anyone d O R U E ltac:(rewrite L25; right; lia) ltac:(rewrite L25; lia) ltac:(discriminate) D) as X.
  rewrite <- Ec in X.
  assert (check W name (network_digest W H name true T n i v) true (template P2PKH (key_hash H name pk)) (sg ++ [type_byte name ty anyone]) key = ecdsa W key d sg) as Y
    by (rewrite check_snoc, X; reflexivity).
  split.
  - intros (_ & s & k & Q & _ & _ & Qk & Qc). injection Q as <- <-. rewrite <- Y. auto.
  - intros [Qk Qc]. split; [exact Tr|]. do 2 eexists. split; [reflexivity|].
    split; [unfold len in *; rewrite app_length; cbn [length]; lia|]. split; [exact L2|]. rewrite Y. auto.
Qed.
Print Assumptions p2sh_p2wpkh_signed.

(** * Scripts *)

(* a P2WSH output with any script: it is run with signatures checked against the library's digests *)
Theorem p2wsh_signed : forall W H name net t T n i v text b script items,
  hashes_ok H -> get_network name = Ok net -> tx_obj H net t -> right_kind name t true (Some v) v -> len v = 8 ->
  same_unsigned (the_tx t) T -> nth_error (t_ins T) n = Some i -> (n < length (t_outs T))%nat -> in_script i = [] ->
  serialize net text = Ok b -> make_p2wsh_output_script H net text = Ok script -> truthy (h_sha256 H b) = true ->
  witness_of T n = items ++ [b] -> Forall (fun i => len i <= 520) items ->
  (accepted W H name T n v script = true <->
   exists x, run (signing W H name (library_digest W H name net t n v) true T i b) b (rev items) = Some [x] /\ truthy x = true).
Proof.
  intros W H name net t T n i v text b script items K En O R V U E Lo Ei Eb Es Tr Wt F.
  assert (In name segwit_names /\ script = 0 :: 32 :: h_sha256 H b) as [Sg Sc].
  { destruct (make_p2wsh_output_script_template H name net text En) as [A B]. destruct (in_dec list_eq_dec_Z name segwit_names) as [I|N]; [|rewrite (B N) in Es; discriminate].
    rewrite (A I), Eb in Es. apply Ok_inj in Es. split; [exact I|]. rewrite <- Es. reflexivity. }
  assert (len (h_sha256 H b) = 32) as L by apply K.
  assert (signed_script (has_segwit name) script (in_script i) (witness_of T n) = (b, true)) as Ss.
  { rewrite (proj2 (segwit_mem name) Sg), Sc, signed_p2wsh by exact L. rewrite Wt, last_last. reflexivity. }
  assert (accepted W H name T n v script = spends (signing W H name (library_digest W H name net t n v) true T i b) true [] script (items ++ [b])) as ->.
  { destruct R as [(id & I & _)|[N [P _]]].
    - rewrite (forked_verdict W H name net id t T n i v script b true En I O U V E Lo Ss). rewrite Ei, Wt, (proj2 (segwit_mem name) Sg). reflexivity.
    - rewrite (witness_verdict W H name net t T n i v script b En N O P U E Lo Ss). rewrite Ei, Wt, (proj2 (segwit_mem name) Sg). reflexivity. }
  set (cx := signing _ _ _ _ _ _ _ _). assert (hashing H cx) as Hc by (split; reflexivity).
  rewrite (p2wsh_output_spent H cx name net text b script [] (items ++ [b]) K Hc En Eb Es). split.
  - intros (_ & _ & items' & other & x & X & _ & _ & Rn & Y). apply app_inj_tail in X. destruct X as [<- <-]. eauto.
  - intros (x & Rn & Y). split; [reflexivity|]. split; [exact Tr|]. exists items, b, x. auto.
Qed.
Print Assumptions p2wsh_signed.

(* a P2SH output that asks for two signatures *)
Theorem msig_two_two_signed_partial : forall W H name net t T n i value v pk0 pk1 b script s0 s1 ty0 ty1 anyone0 anyone1 d0 d1,
  hashes_ok H -> get_network name = Ok net -> ~ In name decred_names -> tx_obj H net t -> right_kind name t false value v ->
  same_unsigned (the_tx t) T -> nth_error (t_ins T) n = Some i -> witness_of T n = [] ->
  all_bytes pk0 -> all_bytes pk1 -> all_bytes s0 -> all_bytes s1 -> 1 <= len pk0 <= 75 -> 1 <= len pk1 <= 75 -> len s0 <= 519 -> len s1 <= 519 ->
  ~ In (len s0 + 1) [len pk0; len pk1] -> ~ In (len s1 + 1) [len pk0; len pk1] ->
  serialize net (msig_two_two (hex pk0) (hex pk1)) = Ok b ->
  make_p2sh_output_script H net (msig_two_two (hex pk0) (hex pk1)) = Ok script ->
  digest H ty0 net t (Z.of_nat n) (string_wire b) value anyone0 = Ok d0 ->
  digest H ty1 net t (Z.of_nat n) (string_wire b) value anyone1 = Ok d1 ->
  (ty0 = Single \/ ty1 = Single -> no_fork_id name -> S n = length (t_ins T)) ->
  make_script_sig net (msig_two_two_stack_script (hex (s0 ++ [type_byte name ty0 anyone0])) (hex (s1 ++ [type_byte name ty1 anyone1]))) (msig_two_two (hex pk0) (hex pk1)) = Ok (in_script i) ->
  (accepted W H name T n v script = true <-> ecdsa W pk0 d0 s0 = Some true /\ ecdsa W pk1 d1 s1 = Some true).
Proof.
  intros W H name net t T n i value v pk0 pk1 b script s0 s1 ty0 ty1 a0 a1 d0 d1 K En ND O R U E Wt B0 B1 S0 S1 L0 L1 M0 M1 X0 X1 Eb Es D0 D1 Sn Ei.
  assert (b = msig pk0 pk1) as -> by (rewrite (msig_serialize name net En ND pk0 pk1) in Eb by (assumption || lia); apply Ok_inj in Eb; congruence).
  set (t0 := type_byte name ty0 a0) in *. set (t1 := type_byte name ty1 a1) in *.
  assert (0 <= len s0 /\ 0 <= len s1) as [? ?] by (unfold len; lia).
  assert (len (s0 ++ [t0]) = len s0 + 1) as Y0 by (unfold len; rewrite app_length; cbn; lia). assert (len (s1 ++ [t1]) = len s1 + 1) as Y1 by (unfold len; rewrite app_length; cbn; lia).
  assert (all_bytes (s0 ++ [t0])) as A0 by (apply Forall_app; split; [exact S0|constructor; [apply type_byte_range|constructor]]).
  assert (all_bytes (s1 ++ [t1])) as A1 by (apply Forall_app; split; [exact S1|constructor; [apply type_byte_range|constructor]]).
  pose proof (msig_length pk0 pk1) as Lb. assert (1 <= len (msig pk0 pk1)) as Lb' by (unfold msig, len; cbn; lia).
  assert (last_push (in_script i) = msig pk0 pk1) as Lp.
  { pose proof (msig_stack_standard name ND _ _ A0 A1 ltac:(lia) ltac:(lia)) as F. destruct (text_words name _ F) as [Wd Sp].
    destruct (make_script_sig_text_partial name net _ _ _ (msig_two_two (hex pk0) (hex pk1)) (msig pk0 pk1) En F Sp Wd Eb ltac:(lia)) as (sig & E1 & E2 & _).
    pose proof (eq_trans (eq_sym E1) Ei) as Q. apply Ok_inj in Q. rewrite <- Q, E2. apply last_push_wires.
    apply Forall_app. split; [apply (standard_codes name), F|]. constructor; [apply smallest_code; lia|constructor]. }
  assert (exists h, script = template P2SH h /\ len h = 20) as (h & Eh & Lh).
  { rewrite (make_p2sh_output_script_template H name net _ En), Eb in Es. apply Ok_inj in Es. eexists. split; [symmetry; exact Es|apply (key_hash_ok H name _ K)]. }
  assert (signed_script (has_segwit name) script (in_script i) (witness_of T n) = (msig pk0 pk1, false)) as Sc.
  { rewrite Eh, signed_p2sh; [rewrite Lp; reflexivity|exact Lh|intros _; rewrite Lp; apply msig_program]. }
  unfold accepted. rewrite E, Sc, Wt. set (cx := signing _ _ _ _ _ _ _ _). assert (hashing H cx) as Hc by (split; reflexivity).
  destruct (msig_two_two_spends H cx name net pk0 pk1 (s0 ++ [t0]) (s1 ++ [t1]) (has_segwit name) K Hc En ND B0 B1 A0 A1 L0 L1 ltac:(lia) ltac:(lia)) as (script' & sig' & E1 & E2 & E3).
  rewrite Es in E1. apply Ok_inj in E1. subst script'. rewrite Ei in E2. apply Ok_inj in E2. subst sig'. rewrite E3. unfold cx. cbn [cx_checksig signing].
  assert (forall s x pk ty a d, len (s ++ [x]) <= 520 -> ~ In (len (s ++ [x])) [len pk0; len pk1] -> x = type_byte name ty a ->
    digest H ty net t (Z.of_nat n) (string_wire (msig pk0 pk1)) value a = Ok d -> (ty = Single -> no_fork_id name -> S n = length (t_ins T)) ->
    check W name (network_digest W H name false T n i v) false (msig pk0 pk1) (s ++ [x]) pk = ecdsa W pk d s) as C.
  { intros s x pk ty a d Ls Nl Ex D Sn'. rewrite check_snoc.
    assert (match network_fork_id name with Some _ => msig pk0 pk1 | None => erase (push (smallest (s ++ [x])) (s ++ [x])) (msig pk0 pk1) end = msig pk0 pk1) as ->.
    { destruct (network_fork_id name); [reflexivity|]. unfold msig. apply erase_wires.
      - unfold len in *. rewrite app_length in *. cbn [length] in *. lia.
      - unfold msig_elements, data. constructor; [cbn; lia|]. constructor; [apply smallest_code; lia|]. constructor; [apply smallest_code; lia|]. repeat constructor; cbn; lia.
      - cbn [In] in Nl. unfold msig_elements, data. repeat constructor; cbn [unlike]; tauto. }
    rewrite Ex. rewrite (digest_checked W H name net En t T n i false value v (msig pk0 pk1) ty a d O R U E); try assumption; try reflexivity; auto.
    - right. lia.
    - lia. }
  rewrite (C s0 t0 pk0 ty0 a0 d0), (C s1 t1 pk1 ty1 a1 d1); try assumption; try reflexivity; try lia; try (rewrite ?Y0, ?Y1; assumption); auto.
Qed.
Print Assumptions msig_two_two_signed_partial.

(** * Wallets *)

(* every input of a transaction without witnesses spends a P2PKH output and is replaced by
   a copy that carries a signature of the library's digest *)
Theorem p2pkh_transaction_accepted : forall W H name net t spent ins,
  hashes_ok H -> get_network name = Ok net -> ~ In name decred_names -> tx_obj H net t -> plain t ->
  length spent = length (tx_tx_ins t) -> length ins = length (tx_tx_ins t) ->
  (forall n i o i', nth_error (tx_tx_ins t) n = Some i -> nth_error spent n = Some o -> nth_error ins n = Some i' -> p2pkh_signed_input W H name net t n i o i') ->
  exists t', Tx_copy H net t None None (Some ins) None None None = Ok t' /\ tx_obj H net t' /\ all_accepted W H name (the_tx t') spent.
Proof.
  intros W H name net t spent ins K En ND O P Ls Li F. pose proof O as O'. apply tx_obj_iff in O'. destruct O' as (Fi & _ & _).
  assert (forall n i', nth_error ins n = Some i' -> exists i o, nth_error (tx_tx_ins t) n = Some i /\ nth_error spent n = Some o /\ txin_obj i /\ p2pkh_signed_input W H name net t n i o i') as G.
  { intros n i' E. pose proof (nth_lt _ _ _ E) as Ln. destruct (nth_some (tx_tx_ins t) n ltac:(lia)) as [i Ei]. destruct (nth_some spent n ltac:(lia)) as [o Eo]. exists i, o.
    split; [exact Ei|]. split; [exact Eo|]. split; [rewrite Forall_forall in Fi; apply Fi, (nth_error_In _ _ Ei)|]. apply (F n i o i'); auto. }
  assert (forall n i', nth_error ins n = Some i' -> exists i, nth_error (tx_tx_ins t) n = Some i /\ txin_obj i' /\ same_signed (the_input i) (the_input i')) as G2.
  { intros n i' E. destruct (G n i' E) as (i & o & Ei & Eo & Oi & (key & sg & ty & a & d & text & sig & _ & _ & _ & _ & _ & _ & _ & _ & _ & _ & _ & _ & C)).
    exists i. split; [exact Ei|]. destruct (copy_txin i None (Some sig) None None Oi) as (_ & _ & X). destruct (X i' C) as (X1 & X2 & X3 & X4 & X5).
    split; [apply X5; exact I|]. unfold same_signed, the_input. cbn [in_txid in_index in_sequence]. rewrite X1, X4. auto. }
  destruct (plain_transaction H net t ins O P) as (t' & C & O' & E').
  { apply Forall_forall. intros i' I. apply In_nth_error in I. destruct I as [n E]. destruct (G2 n i' E) as (_ & _ & X & _). exact X. }
  { exact Li. }
  exists t'. split; [exact C|]. split; [exact O'|].
  assert (same_unsigned (the_tx t) (the_tx t')) as U.
  { rewrite E'. repeat split. cbn [t_ins the_tx]. clear - Li G2. revert Li G2. generalize (tx_tx_ins t) as l. induction ins as [|i' ins IH]; intros [|i l] L G; try discriminate L; [constructor|].
    cbn [map]. constructor; [destruct (G O i' eq_refl) as (x & X & _ & Y); injection X as <-; exact Y|]. apply IH; [injection L as L; exact L|]. intros n j E. exact (G (S n) j E). }
  split; [rewrite E'; cbn [t_ins]; rewrite map_length; lia|]. intros n o Eo. pose proof (nth_lt _ _ _ Eo) as Ln. destruct (nth_some ins n ltac:(lia)) as [i' Ei'].
  destruct (G n i' Ei') as (i & o' & Ei & Eo' & Oi & (key & sg & ty & a & d & text & sig & Es & D & Sn & Ec & B1 & L1 & L19 & B2 & L2 & Wd & Se & Rd & Cp)).
  assert (o' = o) as -> by congruence.
  assert (nth_error (t_ins (the_tx t')) n = Some (the_input i')) as En' by (rewrite E'; cbn [t_ins]; rewrite nth_error_map, Ei'; reflexivity).
  assert (witness_of (the_tx t') n = []) as Wt by (rewrite E'; reflexivity).
  assert (right_kind name t false (Some (out_value o)) (out_value o)) as R by (destruct (forked name) as [[id I]|N]; [left; eauto|right; auto]).
  assert (in_script (the_input i') = sig) as Ein.
  { destruct (copy_txin i None (Some sig) None None Oi) as (_ & _ & X). destruct (X i' Cp) as (X1 & X2 & X3 & X4 & X5). specialize (X5 I).
    apply txin_obj_iff in X5. destruct X5 as (_ & _ & _ & X5). cbn [the_input in_script]. rewrite X5. unfold txin_of. cbn [ti_script_sig]. rewrite X2, X3. cbn [updated]. rewrite Rd. apply app_nil_r. }
  assert (length (t_ins (the_tx t')) = length (tx_tx_ins t)) as Lt by (rewrite E'; cbn [t_ins]; rewrite map_length; exact Li).
  rewrite <- Ein in Se.
  apply (p2pkh_signed_partial W H name net t (the_tx t') n (the_input i') (Some (out_value o)) (out_value o) key (out_script o) sg key ty a d text K En ND O R U En' Wt Es D); auto.
  intros A B. rewrite Lt. auto.
Qed.
Print Assumptions p2pkh_transaction_accepted.

(* every input spends a P2WPKH output and has no script sig; the witnesses are replaced *)
Theorem p2wpkh_transaction_accepted : forall W H name net t spent ws,
  hashes_ok H -> get_network name = Ok net -> ~ In name decred_names -> tx_obj H net t -> tx_flag t <> None ->
  Forall (fun i => in_script (the_input i) = []) (tx_tx_ins t) ->
  length spent = length (tx_tx_ins t) -> length ws = length (tx_tx_ins t) ->
  (forall n o w, nth_error spent n = Some o -> nth_error ws n = Some w -> p2wpkh_signed_witness W H name net t n o w) ->
  exists t', Tx_copy H net t None None None None (Some ws) None = Ok t' /\ tx_obj H net t' /\ all_accepted W H name (the_tx t') spent.
Proof.
  intros W H name net t spent ws K En ND O P Fs Ls Lw F. destruct (tx_flag t) as [f|] eqn:Ef; [clear P|congruence].
  assert (forall n w, nth_error ws n = Some w -> exists o, nth_error spent n = Some o /\ p2wpkh_signed_witness W H name net t n o w) as G.
  { intros n w E. pose proof (nth_lt _ _ _ E) as Ln. destruct (nth_some spent n ltac:(lia)) as [o Eo]. exists o. split; [exact Eo|]. apply F; assumption. }
  assert (forall l w, Forall (fun d => len d < 2 ^ 64) l -> count l < 2 ^ 64 -> make_witness l = Ok w -> witness_obj w /\ the_stack w = l) as Mk.
  { intros l w A B C. destruct (proj1 (make_witness_stack l) A B) as (w' & C' & X). rewrite C in C'. apply Ok_inj in C'. subst w'. exact X. }
  assert (forall n w o key sg ty a, nth_error ws n = Some w -> nth_error spent n = Some o -> len sg <= 519 -> len key <= 520 ->
    make_witness [sg ++ [type_byte name ty a]; key] = Ok w -> witness_obj w /\ the_stack w = [sg ++ [type_byte name ty a]; key]) as Mk2.
  { intros n w o key sg ty a _ _ A B C. apply Mk; [|reflexivity|exact C]. constructor; [unfold len in *; rewrite app_length; cbn [length]; lia|]. constructor; [lia|constructor]. }
  destruct (witness_transaction H net t ws f O Ef) as (t' & C & O' & E').
  { apply Forall_forall. intros w I. apply In_nth_error in I. destruct I as [n E]. destruct (G n w E) as (o & Eo & (key & sg & ty & a & d & code & _ & _ & _ & _ & L1 & L2 & _ & M)).
    exact (proj1 (Mk2 n w o key sg ty a E Eo L1 L2 M)). }
  { exact Lw. }
  exists t'. split; [exact C|]. split; [exact O'|].
  assert (same_unsigned (the_tx t) (the_tx t')) as U.
  { rewrite E'. repeat split. cbn [t_ins the_tx]. generalize (map the_input (tx_tx_ins t)) as l. induction l; constructor; [repeat split|assumption]. }
  split; [rewrite E'; cbn [t_ins]; rewrite map_length; lia|]. intros n o Eo. pose proof (nth_lt _ _ _ Eo) as Ln.
  destruct (nth_some ws n ltac:(lia)) as [w Ew]. destruct (nth_some (tx_tx_ins t) n ltac:(lia)) as [i Ei].
  destruct (F n o w Eo Ew) as (key & sg & ty & a & d & code & Es & Ec & D & Ecd & L1 & L2 & Tr & M).
  assert (nth_error (t_ins (the_tx t')) n = Some (the_input i)) as En' by (rewrite E'; cbn [t_ins]; rewrite nth_error_map, Ei; reflexivity).
  assert (witness_of (the_tx t') n = [sg ++ [type_byte name ty a]; key]) as Wt.
  { rewrite E'. unfold witness_of. cbn [t_witness]. refine (eq_trans _ (proj2 (Mk2 n w o key sg ty a Ew Eo L1 L2 M))). apply nth_error_nth. rewrite nth_error_map, Ew. reflexivity. }
  assert (right_kind name t true (Some (out_value o)) (out_value o)) as R.
  { destruct (forked name) as [[id I]|N]; [left; eauto|right; split; [exact N|]]. split; [|reflexivity]. intros [X _]. congruence. }
  apply (p2wpkh_signed W H name net t (the_tx t') n (the_input i) (out_value o) key (out_script o) code sg key ty a d K En ND O R U En'); auto.
  rewrite Forall_forall in Fs. apply Fs, (nth_error_In _ _ Ei).
Qed.
Print Assumptions p2wpkh_transaction_accepted.

(* the transactions of simple.py are of these two kinds *)
Theorem simple_tx_kinds : forall H net ins outs version lock expiry js pk sg t,
  (simple_unsigned_legacy_tx H net ins outs version lock expiry js pk sg = Ok (AnyTx t) -> plain t) /\
  (simple_unsigned_witness_tx H net ins outs version lock = Ok (AnyTx t) -> tx_flag t <> None).
Proof. intros. split; [apply legacy_is_plain|apply witness_is_flagged]. Qed.
Print Assumptions simple_tx_kinds.

(** * Signatures that the network refuses *)

(* tx.py says that 0x01, 0x03, 0x81 or 0x83 is to be appended to a signature; where there
   is a fork id the network refuses it *)
Theorem documented_byte_refuted : forall W H name net id T n i value pubkey script signature key b text,
  hashes_ok H -> get_network name = Ok net -> In (name, id) fork_ids ->
  nth_error (t_ins T) n = Some i -> witness_of T n = [] ->
  make_p2pkh_output_script H net pubkey = Ok script ->
  In b [0x01; 0x03; 0x81; 0x83] ->
  all_bytes signature -> len signature <= 519 -> all_bytes key -> 1 <= len key <= 520 ->
  words [hex (signature ++ [b]); hex key] text -> serialize net text = Ok (in_script i) ->
  accepted W H name T n value script = false.
Proof.
  intros W H name net id T n i v pk script sg key b text K En I E Wt Es Ib B1 L1 B2 L2 Wd Ei.
  pose proof (make_p2pkh_output_script_template H name net pk En) as Et. rewrite Et in Es. apply Ok_inj in Es. destruct (key_hash_ok H name pk K) as [_ L].
  pose proof (fork_not_decred name id I) as ND.
  unfold accepted. rewrite E, Wt. rewrite <- Es. rewrite signed_p2pkh by exact L. set (cx := signing _ _ _ _ _ _ _ _).
  assert (hashing H cx) as Hc by (split; reflexivity). assert (0 <= len sg) by (unfold len; lia). assert (len (sg ++ [b]) = len sg + 1) as Ls by (unfold len; rewrite app_length; cbn; lia).
  destruct (p2pkh_input_spends H cx name net pk (template P2PKH (key_hash H name pk)) (has_segwit name) (sg ++ [b]) key text K Hc En ND Et) as (sig & E1 & E2).
  { apply Forall_app. split; [exact B1|]. constructor; [|constructor]. unfold is_byte. cbn [In] in Ib. intuition (subst; lia). }
  { exact B2. } { lia. } { lia. } { exact Wd. }
  rewrite E1 in Ei. apply Ok_inj in Ei. subst sig. apply not_true_iff_false. rewrite E2. unfold cx. cbn [cx_checksig signing]. rewrite check_snoc. unfold network_digest.
  rewrite (fork_id_some name id I). assert (Z.testbit b 6 = false) as -> by (cbn [In] in Ib; intuition (subst; reflexivity)). intuition discriminate.
Qed.
Print Assumptions documented_byte_refuted.

(* an input without a witness never spends a P2WPKH or P2WSH output *)
Theorem no_witness_refuted : forall W H name T n value h script,
  In name segwit_names -> witness_of T n = [] -> len h = 20 \/ len h = 32 -> script = 0 :: len h :: h ->
  accepted W H name T n value script = false.
Proof.
  intros W H name T n value h script Sg Wt L ->. unfold accepted. destruct (nth_error (t_ins T) n) as [i|]; [|reflexivity].
  destruct (signed_script _ _ _ _) as [code w]. rewrite (proj2 (segwit_mem name) Sg), Wt. set (cx := signing _ _ _ _ _ _ _ _).
  unfold spends. rewrite program_template by (destruct L; lia).
  assert (verify_program cx 0 h [] = false) as -> by (unfold verify_program; destruct L as [-> | ->]; reflexivity). rewrite !andb_false_r.
  destruct (run cx (in_script i) []) as [s1|]; [|reflexivity]. destruct (run cx _ s1); [apply andb_false_r|reflexivity].
Qed.
Print Assumptions no_witness_refuted.

(* SINGLE, in the original algorithm, for an input that is not the last one: if the network
   checks the library's digest, then there is a collision *)
Theorem single_digest_refuted : forall W H name net t n i code value v anyone d,
  get_network name = Ok net -> no_fork_id name -> tx_obj H net t -> plain t ->
  nth_error (t_ins (the_tx t)) n = Some i -> (S n < length (t_ins (the_tx t)))%nat -> (n < length (t_outs (the_tx t)))%nat ->
  readable_size name (len code) -> len code <= 1650 ->
  sighash_single H net t (Z.of_nat n) (string_wire code) value anyone = Ok d ->
  network_digest W H name false (the_tx t) n i v code (type_byte name Single anyone) = Some d ->
  collision (double_hash H name) [lib_preimage Single anyone n code (the_tx t); legacy_preimage Single anyone n code (the_tx t)].
Proof.
  intros W H name net t n i code value v anyone d En N O P E Ls Lo R L D X.
  apply (legacy_single_refuted H name net t n code value anyone En N O P Ls Lo R L). rewrite D. f_equal.
  unfold network_digest, type_byte in X. rewrite (fork_id_none name N), Z.add_0_r, hash_type_of in X. destruct (nth_some _ _ Lo) as [o Eo]. rewrite Eo in X. congruence.
Qed.
Print Assumptions single_digest_refuted.

(* the digests of a transaction with witnesses are all of the kind of BIP143.  A P2PKH input
   in it, next to inputs that have witnesses, can not be signed with them: only if the two
   kinds of digest coincide does the network accept all valid signatures of d *)
Theorem mixed_refuted : forall H name net t T n i v pubkey script signature ty anyone d text,
  hashes_ok H -> get_network name = Ok net -> ~ In name decred_names -> no_fork_id name -> tx_obj H net t -> ~ plain t ->
  same_unsigned (the_tx t) T -> nth_error (t_ins T) n = Some i -> witness_of T n = [] ->
  make_p2pkh_output_script H net pubkey = Ok script ->
  digest H ty net t (Z.of_nat n) (string_wire script) (Some v) anyone = Ok d ->
  all_bytes signature -> len signature <= 519 -> len signature <> 19 -> all_bytes pubkey -> 1 <= len pubkey <= 520 ->
  words [hex (signature ++ [type_byte name ty anyone]); hex pubkey] text -> serialize net text = Ok (in_script i) ->
  (forall W, ecdsa W pubkey d signature = Some true -> accepted W H name T n v script = true) ->
  double_hash H name (bip143_preimage (double_hash H name) ty anyone n i script v T) = double_hash H name (legacy_preimage ty anyone n script T).
Proof.
  intros H name net t T n i v key script sg ty anyone d text K En ND N O P U E Wt Es D B1 L1 L19 B2 L2 Wd Ei A.
  pose proof (make_p2pkh_output_script_template H name net key En) as Et. rewrite Et in Es. apply Ok_inj in Es. destruct (key_hash_ok H name key K) as [_ L].
  set (W := {| ecdsa := fun _ x _ => Some (same x d); other_digest := fun _ _ => []; other_opcode := fun _ _ => None |}).
  specialize (A W ltac:(cbn [ecdsa W]; rewrite same_refl; reflexivity)).
  unfold accepted in A. rewrite E, Wt in A. rewrite <- Es in A. rewrite signed_p2pkh in A by exact L. remember (signing _ _ _ _ _ _ _ _) as cx eqn:Ecx in A.
  assert (hashing H cx) as Hc by (rewrite Ecx; split; reflexivity).
  set (s' := sg ++ [type_byte name ty anyone]) in *. assert (len s' = len sg + 1) as Ls by (unfold s', len; rewrite app_length; cbn; lia). assert (0 <= len sg) by (unfold len; lia).
  destruct (p2pkh_input_spends H cx name net key (template P2PKH (key_hash H name key)) (has_segwit name) s' key text K Hc En ND Et) as (sig & E1 & E2).
  { apply Forall_app. split; [exact B1|]. constructor; [apply type_byte_range|constructor]. }
  { exact B2. } { lia. } { lia. } { exact Wd. }
  rewrite E1 in Ei. apply Ok_inj in Ei. subst sig. rewrite E2 in A. destruct A as (_ & _ & _ & A). rewrite Ecx in A. cbn [cx_checksig signing] in A. unfold s' in A. rewrite check_snoc in A. fold s' in A.
  rewrite (fork_id_none name N), erase_p2pkh in A by lia.
  pose proof (digest_checked W H name net En t T n i true (Some v) v script ty anyone d O (or_intror (conj N (conj P eq_refl))) U E) as Dn.
  assert (len script = 25) as L25. { rewrite <- Es. cbn [template]. unfold len in *. rewrite !app_length. cbn [length]. lia. }
  specialize (Dn ltac:(rewrite L25; right; lia) ltac:(rewrite L25; lia) ltac:(discriminate) D).
  unfold network_digest, type_byte in A, Dn. rewrite (fork_id_none name N), Z.add_0_r, hash_type_of in A, Dn. injection Dn as Dn. rewrite Dn. cbn [ecdsa W] in A.
  rewrite <- Es.
  assert (ty = Single -> nth_error (t_outs T) n <> None) as Lo.
  { intros ->. pose proof (single_ok_lt _ _ _ _ _ _ _ _ _ D eq_refl) as Lo. destruct U as (_ & _ & Uo & _). rewrite Uo in Lo. intros X. apply nth_error_None in X. lia. }
  destruct ty; [|specialize (Lo eq_refl); destruct (nth_error (t_outs T) n); [|congruence]]; injection A as A; apply same_true in A; exact (eq_sym A).
Qed.
Print Assumptions mixed_refuted.

(** * Examples *)

(* a signature is the key followed by four bytes of the digest *)
Definition toy_world : world :=
  {| ecdsa := fun key d sig => Some (same sig (key ++ firstn 4 d)); other_digest := fun _ _ => []; other_opcode := fun _ _ => None |}.
Definition ex_hash : bytes := [133; 202; 184; 179; 139; 249; 72; 54; 196; 91; 151; 90; 247; 194; 48; 66; 194; 58; 168; 58].
Definition ex_pkh : output := {| out_value := [9; 0; 0; 0; 0; 0; 0; 0]; out_script := template P2PKH ex_hash |}.
Definition ex_wpkh : output := {| out_value := [9; 0; 0; 0; 0; 0; 0; 0]; out_script := 0 :: 20 :: ex_hash |}.

Example p2pkh_transaction_ex : exists i0 i1 t',
  p2pkh_signed_input toy_world toy (lit "bitcoin_main") BitcoinMain ex_two 0 ex_input ex_pkh i0 /\
  p2pkh_signed_input toy_world toy (lit "bitcoin_main") BitcoinMain ex_two 1 ex_input2 ex_pkh i1 /\
  ti_script_sig i0 = [8; 2; 7; 9; 166; 58; 80; 124; 1; 3; 2; 7; 9] /\ ti_script_sig i1 = [8; 2; 7; 9; 223; 142; 177; 103; 131; 3; 2; 7; 9] /\
  Tx_copy toy BitcoinMain ex_two None None (Some [i0; i1]) None None None = Ok t' /\
  all_accepted toy_world toy (lit "bitcoin_main") (the_tx t') [ex_pkh; ex_pkh].
Proof.
  destruct bitcoin_main_ex as (En & _ & ND).
  assert (forall b, 1 <= len b -> all_bytes b -> word (hex b)) as Hw by (intros b A B; apply hex_is_word; assumption).
  assert (forall l, forallb (fun b => (0 <=? b) && (b <? 256)) l = true -> all_bytes l) as Hb.
  { intros l F. apply Forall_forall. intros x I. rewrite forallb_forall in F. specialize (F x I). unfold is_byte. lia. }
  assert (exists i, p2pkh_signed_input toy_world toy (lit "bitcoin_main") BitcoinMain ex_two 0 ex_input ex_pkh i /\ ti_script_sig i = [8; 2; 7; 9; 166; 58; 80; 124; 1; 3; 2; 7; 9]) as (i0 & I0 & S0).
  { eexists. split; [exists [2; 7; 9], [2; 7; 9; 166; 58; 80; 124], All, false; do 3 eexists|].
    - split; [vm_compute; reflexivity|]. split; [vm_compute; reflexivity|]. split; [discriminate|]. split; [vm_compute; reflexivity|].
      split; [apply Hb; reflexivity|]. split; [unfold len; cbn [length]; lia|]. split; [unfold len; cbn [length]; lia|]. split; [apply Hb; reflexivity|]. split; [unfold len; cbn [length]; lia|].
      split; [apply words_join; constructor; [apply Hw; [unfold len; cbn [length app]; lia|apply Hb; vm_compute; reflexivity]|constructor; [apply Hw; [unfold len; cbn [length]; lia|apply Hb; reflexivity]|constructor]]|].
      split; [vm_compute; reflexivity|]. split; [reflexivity|]. vm_compute. reflexivity.
    - reflexivity. }
  assert (exists i, p2pkh_signed_input toy_world toy (lit "bitcoin_main") BitcoinMain ex_two 1 ex_input2 ex_pkh i /\ ti_script_sig i = [8; 2; 7; 9; 223; 142; 177; 103; 131; 3; 2; 7; 9]) as (i1 & I1 & S1).
  { eexists. split; [exists [2; 7; 9], [2; 7; 9; 223; 142; 177; 103], Single, true; do 3 eexists|].
    - split; [vm_compute; reflexivity|]. split; [vm_compute; reflexivity|]. split; [reflexivity|]. split; [vm_compute; reflexivity|].
      split; [apply Hb; reflexivity|]. split; [unfold len; cbn [length]; lia|]. split; [unfold len; cbn [length]; lia|]. split; [apply Hb; reflexivity|]. split; [unfold len; cbn [length]; lia|].
      split; [apply words_join; constructor; [apply Hw; [unfold len; cbn [length app]; lia|apply Hb; vm_compute; reflexivity]|constructor; [apply Hw; [unfold len; cbn [length]; lia|apply Hb; reflexivity]|constructor]]|].
      split; [vm_compute; reflexivity|]. split; [reflexivity|]. vm_compute. reflexivity.
    - reflexivity. }
  destruct (p2pkh_transaction_accepted toy_world toy (lit "bitcoin_main") BitcoinMain ex_two [ex_pkh; ex_pkh] [i0; i1] toy_ok En ND (proj1 ex_two_objects) (proj1 (proj2 ex_two_objects)) eq_refl eq_refl) as (t' & C & _ & A).
  { intros [|[|[|n]]] i o i' E1 E2 E3; cbn [nth_error] in E2, E3; try discriminate; injection E2 as <-; injection E3 as <-; cbn [ex_two tx_of tx_tx_ins nth_error] in E1; injection E1 as <-; assumption. }
  exists i0, i1, t'. auto 10.
Qed.

Definition ex_unsigned : tx := tx_of toy BitcoinMain [2; 0; 0; 0] (Some [0; 1]) [ex_input2] [ex_output] (Some [{| wit_stack := []; wit_bytes := [0] |}]) [0; 0; 0; 0].
Example p2wpkh_transaction_ex : exists w t',
  p2wpkh_signed_witness toy_world toy (lit "bitcoin_main") BitcoinMain ex_unsigned 0 ex_wpkh w /\
  tx_obj toy BitcoinMain ex_unsigned /\ Forall (fun i => in_script (the_input i) = []) (tx_tx_ins ex_unsigned) /\
  Tx_copy toy BitcoinMain ex_unsigned None None None None (Some [w]) None = Ok t' /\
  all_accepted toy_world toy (lit "bitcoin_main") (the_tx t') [ex_wpkh] /\
  ~ all_accepted toy_world toy (lit "bitcoin_main") (the_tx ex_unsigned) [ex_wpkh].
Proof.
  destruct bitcoin_main_ex as (En & _ & ND).
  assert (truthy (key_hash toy (lit "bitcoin_main") [2; 7; 9]) = true) as Tr by (unfold key_hash; destruct (in_dec _ _ _); [contradiction|vm_compute; reflexivity]).
  assert (tx_obj toy BitcoinMain ex_unsigned) as O by (split; [constructor; [split; reflexivity|constructor]|split; [constructor; [reflexivity|constructor]|split; [constructor; [split; [constructor|reflexivity]|constructor]|reflexivity]]]).
  assert (exists w, p2wpkh_signed_witness toy_world toy (lit "bitcoin_main") BitcoinMain ex_unsigned 0 ex_wpkh w) as [w Iw].
  { pose (d := match digest toy All BitcoinMain ex_unsigned 0 (string_wire (template P2PKH ex_hash)) (Some (out_value ex_wpkh)) false with Ok d => d | Err _ => [] end).
    assert (digest toy All BitcoinMain ex_unsigned 0 (string_wire (template P2PKH ex_hash)) (Some (out_value ex_wpkh)) false = Ok d) as D by (vm_compute; reflexivity).
    eexists. exists [2; 7; 9], ([2; 7; 9] ++ firstn 4 d), All, false, d, (template P2PKH ex_hash). split; [vm_compute; reflexivity|]. split; [vm_compute; reflexivity|]. split; [exact D|].
    split; [cbn [ecdsa toy_world]; rewrite same_refl; reflexivity|]. split; [vm_compute; discriminate|]. split; [vm_compute; discriminate|]. split; [exact Tr|]. vm_compute. reflexivity. }
  assert (Forall (fun i => in_script (the_input i) = []) (tx_tx_ins ex_unsigned)) as F by (constructor; [reflexivity|constructor]).
  destruct (p2wpkh_transaction_accepted toy_world toy (lit "bitcoin_main") BitcoinMain ex_unsigned [ex_wpkh] [w] toy_ok En ND O ltac:(discriminate) F eq_refl eq_refl) as (t' & C & _ & A).
  { intros [|[|n]] o w' E1 E2; cbn [nth_error] in E1, E2; try discriminate. injection E1 as <-. injection E2 as <-. exact Iw. }
  exists w, t'. split; [exact Iw|]. split; [exact O|]. split; [exact F|]. split; [exact C|]. split; [exact A|].
  intros [_ B]. specialize (B 0%nat ex_wpkh eq_refl). rewrite (no_witness_refuted _ _ _ _ _ _ ex_hash) in B; [discriminate| |reflexivity|left; reflexivity|reflexivity]. vm_compute. tauto.
Qed.

(* the two kinds of digest differ *)
Example mixed_ex : tx_obj toy BitcoinMain ex_segwit /\ ~ plain ex_segwit /\
  double_hash toy (lit "bitcoin_main") (bip143_preimage (double_hash toy (lit "bitcoin_main")) All false 0 (the_input ex_input) (template P2PKH ex_hash) (repeat 0 8) (the_tx ex_segwit)) <>
  double_hash toy (lit "bitcoin_main") (legacy_preimage All false 0 (template P2PKH ex_hash) (the_tx ex_segwit)).
Proof.
  destruct bitcoin_main_ex as (_ & _ & ND). split; [apply ex_objects|]. split; [intros [X _]; discriminate|]. rewrite (double_sha toy _ ND). vm_compute. discriminate.
Qed.
Example single_digest_ex : (S 0 < length (t_ins (the_tx ex_two)))%nat /\ (0 < length (t_outs (the_tx ex_two)))%nat /\
  ~ collision (double_hash toy (lit "bitcoin_main")) [lib_preimage Single false 0 [118] (the_tx ex_two); legacy_preimage Single false 0 [118] (the_tx ex_two)].
Proof.
  destruct bitcoin_main_ex as (_ & _ & ND). split; [cbn; lia|]. split; [cbn; lia|]. rewrite (double_sha toy _ ND).
  intros (x & y & Ix & Iy & N & E). cbn [In] in Ix, Iy. destruct Ix as [<-|[<-|[]]], Iy as [<-|[<-|[]]]; try (apply N; reflexivity); revert E; vm_compute; discriminate.
Qed.
Example documented_byte_ex : In (lit "bitcoin_cash_main", 0) fork_ids /\ serialize BitcoinCashMain (lit "02070901 020709") = Ok [4; 2; 7; 9; 1; 3; 2; 7; 9].
Proof. split; [vm_compute; tauto|vm_compute; reflexivity]. Qed.

Definition with_sig (t : transaction) (sig : bytes) (w : option (list (list bytes))) : transaction :=
  {| t_version := t_version t; t_lock := t_lock t; t_outs := t_outs t; t_witness := w;
     t_ins := map (fun i => {| in_txid := in_txid i; in_index := in_index i; in_script := sig; in_sequence := in_sequence i |}) (t_ins t) |}.
Lemma with_sig_unsigned t sig w : same_unsigned t (with_sig t sig w).
Proof. repeat split. cbn [with_sig t_ins]. induction (t_ins t); constructor; [repeat split|assumption]. Qed.

Definition get (r : res bytes) : bytes := match r with Ok d => d | Err _ => [] end.
Example msig_two_two_signed_ex :
  let redeem := msig_two_two (hex [2; 7; 9]) (hex [3; 8; 8]) in
  let b := get (serialize BitcoinMain redeem) in
  let d := get (digest toy All BitcoinMain ex_legacy 0 (string_wire b) None false) in
  let e := get (digest toy Single BitcoinMain ex_legacy 0 (string_wire b) None true) in
  exists script sig, make_p2sh_output_script toy BitcoinMain redeem = Ok script /\
    make_script_sig BitcoinMain (msig_two_two_stack_script (hex (([2; 7; 9] ++ firstn 4 d) ++ [1])) (hex (([3; 8; 8] ++ firstn 4 e) ++ [131]))) redeem = Ok sig /\
    accepted toy_world toy (lit "bitcoin_main") (with_sig (the_tx ex_legacy) sig None) 0 (repeat 0 8) script = true.
Proof.
  intros redeem b d e. destruct bitcoin_main_ex as (En & N & ND). do 2 eexists. split; [vm_compute; reflexivity|]. split; [vm_compute; reflexivity|].
  assert (forall l, forallb (fun b => (0 <=? b) && (b <? 256)) l = true -> all_bytes l) as Hb.
  { intros l F. apply Forall_forall. intros x I. rewrite forallb_forall in F. specialize (F x I). unfold is_byte. lia. }
  eapply (msig_two_two_signed_partial toy_world toy (lit "bitcoin_main") BitcoinMain ex_legacy _ 0 _ None (repeat 0 8) [2; 7; 9] [3; 8; 8] b _ ([2; 7; 9] ++ firstn 4 d) ([3; 8; 8] ++ firstn 4 e) All Single false true d e
    toy_ok En ND (proj1 (proj2 ex_objects)) (or_intror (conj N (conj eq_refl eq_refl))) (with_sig_unsigned _ _ None) eq_refl eq_refl);
    try (apply Hb; vm_compute; reflexivity); try (vm_compute; split; discriminate); try (vm_compute; discriminate); try (vm_compute; reflexivity).
  - vm_compute. intuition discriminate.
  - vm_compute. intuition discriminate.
  - cbn [ecdsa toy_world]. rewrite !same_refl. split; reflexivity.
Qed.

Example p2sh_p2wpkh_signed_ex :
  let text := join (lit " ") [lit "OP_0"; hex ex_hash] in
  let d := get (digest toy All BitcoinMain ex_unsigned 0 (string_wire (template P2PKH ex_hash)) (Some (repeat 0 8)) false) in
  exists script sig, make_p2sh_output_script toy BitcoinMain text = Ok script /\ make_script_sig BitcoinMain [] text = Ok sig /\
    accepted toy_world toy (lit "bitcoin_main") (with_sig (the_tx ex_unsigned) sig (Some [[([2; 7; 9] ++ firstn 4 d) ++ [1]; [2; 7; 9]]])) 0 (repeat 0 8) script = true.
Proof.
  intros text d. destruct bitcoin_main_ex as (En & N & ND). do 2 eexists. split; [vm_compute; reflexivity|]. split; [vm_compute; reflexivity|].
  assert (key_hash toy (lit "bitcoin_main") [2; 7; 9] = ex_hash) as Kh by (unfold key_hash; destruct (in_dec _ _ _); [contradiction|vm_compute; reflexivity]).
  assert (tx_obj toy BitcoinMain ex_unsigned) as O by (split; [constructor; [split; reflexivity|constructor]|split; [constructor; [reflexivity|constructor]|split; [constructor; [split; [constructor|reflexivity]|constructor]|reflexivity]]]).
  assert (~ plain ex_unsigned) as NP by (intros [X _]; discriminate).
  eapply (p2sh_p2wpkh_signed toy_world toy (lit "bitcoin_main") BitcoinMain ex_unsigned _ 0 _ (repeat 0 8) [2; 7; 9] text _ (template P2PKH ex_hash) ([2; 7; 9] ++ firstn 4 d) [2; 7; 9] All false d
    toy_ok En ND ltac:(vm_compute; tauto) O (or_intror (conj N (conj NP eq_refl))) (with_sig_unsigned _ _ _) eq_refl).
  - rewrite Kh. apply words_join. constructor; [exact (opcode_words (lit "bitcoin_main") 0 (lit "OP_0") (zero_in _))|]. constructor; [|constructor]. apply hex_is_word; [repeat constructor; unfold is_byte; lia|vm_compute; discriminate].
  - vm_compute; reflexivity.
  - vm_compute; reflexivity.
  - vm_compute; reflexivity.
  - vm_compute; reflexivity.
  - reflexivity.
  - vm_compute; discriminate.
  - vm_compute; discriminate.
  - rewrite Kh. reflexivity.
  - rewrite Kh. split; [reflexivity|]. cbn [ecdsa toy_world]. rewrite same_refl. reflexivity.
Qed.

Example p2wsh_signed_ex :
  let text := lit "020709 OP_CHECKSIG" in
  let b := get (serialize BitcoinMain text) in
  let d := get (digest toy Single BitcoinMain ex_unsigned 0 (string_wire b) (Some (repeat 0 8)) true) in
  exists script, make_p2wsh_output_script toy BitcoinMain text = Ok script /\
    accepted toy_world toy (lit "bitcoin_main") (with_sig (the_tx ex_unsigned) [] (Some [[([2; 7; 9] ++ firstn 4 d) ++ [131]; b]])) 0 (repeat 0 8) script = true.
Proof.
  intros text b d. destruct bitcoin_main_ex as (En & N & ND). eexists. split; [vm_compute; reflexivity|].
  assert (tx_obj toy BitcoinMain ex_unsigned) as O by (split; [constructor; [split; reflexivity|constructor]|split; [constructor; [reflexivity|constructor]|split; [constructor; [split; [constructor|reflexivity]|constructor]|reflexivity]]]).
  assert (~ plain ex_unsigned) as NP by (intros [X _]; discriminate).
  eapply (p2wsh_signed toy_world toy (lit "bitcoin_main") BitcoinMain ex_unsigned _ 0 _ (repeat 0 8) text b _ [([2; 7; 9] ++ firstn 4 d) ++ [131]]
    toy_ok En O (or_intror (conj N (conj NP eq_refl))) eq_refl (with_sig_unsigned _ _ _) eq_refl).
  - cbn. lia.
  - reflexivity.
  - vm_compute; reflexivity.
  - vm_compute; reflexivity.
  - vm_compute; reflexivity.
  - reflexivity.
  - constructor; [vm_compute; discriminate|constructor].
  - exists [1]. split; [vm_compute; reflexivity|reflexivity].
Qed.
