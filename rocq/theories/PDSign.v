(* C71: a Decred transaction signed with the library's digests is accepted by the network.
   The network's verdict on inputs is in SDSign.v. *)
From Coq Require Import String.
From Verif Require Import Py SNum SNet SHash SScript SAddr SInterp STx SSig SCopy SDecred SSign SDSign MNet MUtils MScript MTx MDecred MBuilder
  LBase LBase58 LNet LTx LScript LAddr LBuilder LInterp LExamples LDecred LDecredTop LSign LDSign PScript PTx PBuilder PCopy PInterp PDecred PSign PZSign.
Open Scope list_scope.
Open Scope Z_scope.
Ltac Zify.zify_post_hook ::= idtac.

(** * Outputs *)

(* the scripts that the library makes for Decred are spent as their kind says, as C64 has it
   for the other networks *)
Theorem decred_p2pkh_output_spent : forall H cx name net pubkey script sig,
  hashes_ok H -> decred_hashing H cx -> get_network name = Ok net -> In name decred_names ->
  make_p2pkh_output_script H net pubkey = Ok script ->
  (spends cx false sig script [] = true <->
   exists key signature rest, run cx sig [] = Some (key :: signature :: rest) /\ count rest <= 996 /\
     key_hash H name key = key_hash H name pubkey /\ cx_checksig cx signature key = Some true).
Proof.
  intros H cx name net pk script sig K Hc En I Es. rewrite (make_p2pkh_output_script_template H name net pk En) in Es. apply Ok_inj in Es. subst script.
  destruct (key_hash_ok H name pk K) as [_ L]. rewrite (spends_p2pkh cx false sig _ [] L).
  split.
  - intros (key & sg & r & A & B & C & D & _). rewrite (dh160_key_hash H cx name _ Hc I) in C. exists key, sg, r. auto.
  - intros (key & sg & r & A & B & C & D). exists key, sg, r. rewrite (dh160_key_hash H cx name _ Hc I). repeat split; auto.
Qed.
Print Assumptions decred_p2pkh_output_spent.
Theorem decred_p2sh_output_spent : forall H cx name net text b script sig,
  hashes_ok H -> decred_hashing H cx -> get_network name = Ok net -> In name decred_names ->
  serialize net text = Ok b -> make_p2sh_output_script H net text = Ok script ->
  (spends cx false sig script [] = true <->
   pushes_only sig = true /\
   exists redeem before after, run cx sig [] = Some (redeem :: before) /\ count before <= 998 /\
     key_hash H name redeem = key_hash H name b /\ run cx redeem before = Some after /\ top_true after = true).
Proof.
  intros H cx name net text b script sig K Hc En I Eb Es. rewrite (make_p2sh_output_script_template H name net text En), Eb in Es. apply Ok_inj in Es. subst script.
  destruct (key_hash_ok H name b K) as [_ L]. rewrite (spends_p2sh cx false sig _ [] L).
  split.
  - intros (P & redeem & s1 & s3 & A & B & C & D & E & _). rewrite (dh160_key_hash H cx name _ Hc I) in C. split; [exact P|]. exists redeem, s1, s3. auto.
  - intros (P & redeem & s1 & s3 & A & B & C & D & E). split; [exact P|]. exists redeem, s1, s3. rewrite (dh160_key_hash H cx name _ Hc I). repeat split; auto.
Qed.
Print Assumptions decred_p2sh_output_spent.

(** * Digests *)

(* the digest computed from t is the one that the network checks, whatever the witnesses
   become.  C71, full statement: for every hash type.  Missing: those for which the digest
   is wrong (C47); NONE is refused *)
Theorem decred_digest_is_checked_partial : forall W H name net t t' n code ty anyone d,
  get_network name = Ok net -> In name decred_names -> dtx_obj H net t -> same_prefix (the_dtx t) t' ->
  length (dtx_tx_witnesses t) = length (dtx_tx_ins t) -> decred_right ty anyone n (length (dtx_tx_ins t)) ->
  ddigest H ty net t (Z.of_nat n) (Some code) anyone = Ok d ->
  decred_network_digest W H t' n code (type_number ty anyone) = Some d.
Proof.
  intros W H name net t t' n code ty anyone d En I O P L [R1 R2] D.
  pose proof (digest_cases H name net En I t n (Some code) ty anyone d O D) as (_ & _ & Sn & _).
  destruct (the_dlen t) as (T1 & T2 & T3).
  apply (decred_digest_partial H name net t n (Some code) ty anyone d En I O) in D; [|rewrite T1, T3; exact L|rewrite T1; exact R1|rewrite T1; exact R2].
  unfold decred_network_digest. rewrite hash_type_number, <- (dpreimage_same _ ty anyone n code _ _ P). change (h_blake256 H) with (blake256 H). rewrite <- D.
  destruct ty; [reflexivity|]. destruct P as (_ & _ & P & _). rewrite <- P. destruct (nth_has _ _ (proj2 (Sn eq_refl))) as [x ->]. reflexivity.
Qed.
Print Assumptions decred_digest_is_checked_partial.

(** * P2PKH inputs *)

(* a signed input is accepted exactly if the witness has the coin's value and place, the key
   is the coin's, and the signature is valid *)
Theorem decred_p2pkh_signed_partial : forall W H name net t t' n i s c pubkey signature key ty anyone d text,
  hashes_ok H -> get_network name = Ok net -> In name decred_names -> dtx_obj H net t -> same_prefix (the_dtx t) t' ->
  length (dtx_tx_witnesses t) = length (dtx_tx_ins t) -> decred_right ty anyone n (length (dtx_tx_ins t)) ->
  nth_error (d_ins t') n = Some i -> nth_error (d_spends t') n = Some s ->
  make_p2pkh_output_script H net pubkey = Ok (dc_script c) ->
  ddigest H ty net t (Z.of_nat n) (Some (dc_script c)) anyone = Ok d ->
  all_bytes signature -> len signature <= 519 -> all_bytes key -> 1 <= len key <= 520 ->
  words [hex (signature ++ [type_number ty anyone]); hex key] text -> serialize net text = Ok (ds_script s) ->
  (decred_accepted W H t' n c = true <->
   ds_value s = dc_value c /\ ds_height s = dc_height c /\ ds_index s = dc_index c /\
   key_hash H name key = key_hash H name pubkey /\ ecdsa W key d signature = Some true).
Proof.
  intros W H name net t t' n i s c pk sg key ty a d text K En I O P L R Ei Es Em D B1 L1 B2 L2 Wd Se.
  unfold decred_accepted. rewrite Ei, Es.
  pose proof (make_p2pkh_output_script_template H name net pk En) as Et. rewrite Et in Em. apply Ok_inj in Em. destruct (key_hash_ok H name pk K) as [_ Lk].
  rewrite <- Em. rewrite signed_p2pkh by exact Lk. cbn [fst]. set (cx := decred_context _ _ _ _ _ _).
  assert (len (sg ++ [type_number ty a]) = len sg + 1) as Ls by (unfold len; rewrite app_length; cbn [length]; lia). assert (0 <= len sg) by (unfold len; lia).
  destruct (decred_p2pkh_input H cx name net pk (template P2PKH (key_hash H name pk)) (sg ++ [type_number ty a]) key text K) as (sig & E1 & E2).
  { split; reflexivity. } { exact En. } { exact I. } { exact Et. }
  { apply Forall_app. split; [exact B1|]. constructor; [apply type_number_byte|constructor]. }
  { exact B2. } { lia. } { exact L2. } { exact Wd. }
  rewrite Se in E1. apply Ok_inj in E1. subst sig. rewrite !andb_true_iff, E2. unfold cx. cbn [cx_checksig decred_context]. rewrite dcheck_snoc, Em.
  rewrite (decred_digest_is_checked_partial W H name net t t' n (dc_script c) ty a d En I O P L R D).
  unfold same. destruct (list_eq_dec Z.eq_dec (ds_value s) (dc_value c)); [|intuition congruence].
  destruct (list_eq_dec Z.eq_dec (ds_height s) (dc_height c)); [|intuition congruence].
  destruct (list_eq_dec Z.eq_dec (ds_index s) (dc_index c)); [|intuition congruence]. tauto.
Qed.
Print Assumptions decred_p2pkh_signed_partial.
(* otherwise the network rejects it, unless BLAKE-256 has a collision among six messages *)
Theorem decred_p2pkh_signed_refuted : forall W H name net t t' n i s c pubkey signature key ty anyone d text,
  hashes_ok H -> one_digest W -> get_network name = Ok net -> In name decred_names -> dtx_obj H net t -> same_prefix (the_dtx t) t' ->
  ~ decred_right ty anyone n (length (dtx_tx_ins t)) ->
  nth_error (d_ins t') n = Some i -> nth_error (d_spends t') n = Some s ->
  make_p2pkh_output_script H net pubkey = Ok (dc_script c) ->
  ddigest H ty net t (Z.of_nat n) (Some (dc_script c)) anyone = Ok d -> ecdsa W key d signature = Some true ->
  all_bytes signature -> len signature <= 519 -> all_bytes key -> 1 <= len key <= 520 ->
  words [hex (signature ++ [type_number ty anyone]); hex key] text -> serialize net text = Ok (ds_script s) ->
  decred_accepted W H t' n c = false \/
  collision (h_blake256 H) (dmessages (h_blake256 H) ty anyone n (dc_script c) (the_dtx t) ++ dspec_messages (h_blake256 H) ty anyone n (dc_script c) (the_dtx t)).
Proof.
  intros W H name net t t' n i s c pk sg key ty a d text K U En I O P R Ei Es Em D V B1 L1 B2 L2 Wd Se.
  destruct (decred_accepted W H t' n c) eqn:A; [right|left; reflexivity]. unfold decred_accepted in A. rewrite Ei, Es in A.
  pose proof (make_p2pkh_output_script_template H name net pk En) as Et. rewrite Et in Em. apply Ok_inj in Em. destruct (key_hash_ok H name pk K) as [_ Lk].
  rewrite <- Em in A. rewrite signed_p2pkh in A by exact Lk. cbn [fst] in A. set (cx := decred_context _ _ _ _ _ _) in A.
  assert (len (sg ++ [type_number ty a]) = len sg + 1) as Ls by (unfold len; rewrite app_length; cbn [length]; lia). assert (0 <= len sg) by (unfold len; lia).
  destruct (decred_p2pkh_input H cx name net pk (template P2PKH (key_hash H name pk)) (sg ++ [type_number ty a]) key text K) as (sig & E1 & E2).
  { split; reflexivity. } { exact En. } { exact I. } { exact Et. }
  { apply Forall_app. split; [exact B1|]. constructor; [apply type_number_byte|constructor]. }
  { exact B2. } { lia. } { exact L2. } { exact Wd. }
  rewrite Se in E1. apply Ok_inj in E1. subst sig. rewrite !andb_true_iff, E2 in A. unfold cx in A. cbn [cx_checksig decred_context] in A. rewrite dcheck_snoc, Em in A.
  destruct A as (_ & _ & A). unfold decred_network_digest in A. rewrite hash_type_number, <- (dpreimage_same _ ty a n (dc_script c) _ _ P) in A.
  assert (d = h_blake256 H (dpreimage (h_blake256 H) ty a n (dc_script c) (the_dtx t))) as Ed.
  { apply (U key sg); [exact V|]. destruct ty; [exact A|]. destruct (nth_error (d_outs t') n); [exact A|discriminate]. }
  destruct (the_dlen t) as (T1 & _ & _).
  assert (n < length (d_ins (the_dtx t)))%nat as Ln by (rewrite (proj1 (proj2 P)); apply nth_error_Some; rewrite Ei; discriminate).
  apply (decred_digest_refuted H name net t n (Some (dc_script c)) ty a K En I O Ln); [|rewrite D; f_equal; exact Ed].
  unfold decred_right in R. rewrite <- T1 in R. destruct a, ty; try (exfalso; apply R; split; discriminate).
  - left. split; [reflexivity|]. destruct (Nat.eq_dec (length (d_ins (the_dtx t))) 1); [exfalso; apply R; split; [auto|discriminate]|lia].
  - destruct (Nat.eq_dec (length (d_ins (the_dtx t))) 1); [right|left; split; [reflexivity|lia]]. split; [reflexivity|]. intros X. apply R. split; auto.
  - right. split; [reflexivity|]. intros X. apply R. split; [discriminate|auto].
Qed.
Print Assumptions decred_p2pkh_signed_refuted.

(** * Whole transactions *)

(* each witness is copied with a script sig, and the list of them into the transaction *)
Theorem decred_transaction_accepted : forall W H name net t coins ws,
  hashes_ok H -> get_network name = Ok net -> In name decred_names -> dtx_obj H net t ->
  length (dtx_tx_witnesses t) = length (dtx_tx_ins t) -> length coins = length (dtx_tx_ins t) -> length ws = length (dtx_tx_ins t) ->
  (forall n c w w', nth_error coins n = Some c -> nth_error (dtx_tx_witnesses t) n = Some w -> nth_error ws n = Some w' ->
     decred_signed_witness W H net t n c w w') ->
  let r := DecredTx_copy H net t None None None None None (Some ws) in
  (forall t', r = Ok t' -> dtx_obj H net t' /\ same_prefix (the_dtx t) (the_dtx t') /\ dtx_tx_id t' = dtx_tx_id t /\
     decred_all_accepted W H (the_dtx t') coins) /\
  (len (d_version (the_dtx t) ++ dprefix_body (the_dtx t) ++ vector_wire dspend_wire (map the_dspend ws)) <= 100000 -> exists t', r = Ok t').
Proof.
  intros W H name net t coins ws K En I O Lw Lc Ls F r. pose proof O as (_ & _ & Ow & _). destruct (the_dlen t) as (T1 & T2 & T3).
  assert (forall n w', nth_error ws n = Some w' -> exists c w, nth_error coins n = Some c /\ nth_error (dtx_tx_witnesses t) n = Some w /\ dwitness_obj net w /\ decred_signed_witness W H net t n c w w') as G.
  { intros n w' E. assert (n < length ws)%nat as Ln by (apply nth_error_Some; rewrite E; discriminate).
    destruct (nth_has coins n ltac:(lia)) as [c Ec]. destruct (nth_has (dtx_tx_witnesses t) n ltac:(lia)) as [w Ew]. exists c, w.
    split; [exact Ec|]. split; [exact Ew|]. split; [rewrite Forall_forall in Ow; apply Ow, (nth_error_In _ _ Ew)|apply (F n); assumption]. }
  assert (Forall (dwitness_obj net) ws) as Ows.
  { apply Forall_forall. intros w' J. apply In_nth_error in J. destruct J as [n E]. destruct (G n w' E) as (c & w & _ & _ & Oww & key & sg & ty & a & d & text & sig & X). do 13 (destruct X as [_ X]).
    destruct (copy_decred_witness net w None None None (Some sig) (Some []) Oww) as (_ & _ & Y). exact (proj1 (Y w' X)). }
  destruct (copy_decred_tx H net t None None None None None (Some ws) O) as (_ & Er & X). cbn [updated if_given] in Er, X.
  split.
  - intros t' C. destruct (X t' C) as (X1 & X2 & X3 & X4 & X5 & X6 & Xo). pose proof (Xo Logic.I Logic.I Ows) as O'.
    assert (same_prefix (the_dtx t) (the_dtx t')) as P by (unfold same_prefix, the_dtx; cbn [d_version d_ins d_outs d_lock d_expiry]; rewrite X1, X2, X3, X4, X5; auto).
    split; [exact O'|]. split; [exact P|]. split.
    { destruct P as (P1 & P2 & P3 & P4 & P5). apply (decred_id_ignores H name net t' t En I O' O); congruence. }
    destruct (the_dlen t') as (U1 & _ & U3). split; [rewrite U1, U3, X2, X6; exact Ls|]. split; [rewrite U1, X2; exact Lc|].
    intros n c Ec. assert (n < length coins)%nat as Ln by (apply nth_error_Some; rewrite Ec; discriminate).
    destruct (nth_has ws n ltac:(lia)) as [w' Ew']. destruct (G n w' Ew') as (c' & w & Ec' & Ew & Oww & key & sg & ty & a & d & text & sig & Em & D & R & V & B1 & L1 & B2 & L2 & Wd & Se & V1 & V2 & V3 & Cp).
    assert (c' = c) as -> by congruence.
    destruct (nth_has (d_ins (the_dtx t')) n ltac:(rewrite U1, X2; lia)) as [i Ei].
    assert (nth_error (d_spends (the_dtx t')) n = Some (the_dspend w')) as Es by (unfold the_dtx; cbn [d_spends]; rewrite nth_error_map, X6, Ew'; reflexivity).
    destruct (copy_decred_witness net w None None None (Some sig) (Some []) Oww) as (_ & _ & Y). destruct (Y w' Cp) as (Y0 & Y1 & Y2 & Y3 & Y4 & Y5). cbn [updated] in Y1, Y2, Y3, Y4, Y5.
    assert (ds_script (the_dspend w') = sig) as Esig.
    { apply (dwitness_obj_iff net (decred_only_Ok name net En I)) in Y0. cbn [the_dspend ds_script]. decompose [and] Y0. match goal with E : w' = _ |- _ => rewrite E end. unfold dwitness_of. cbn [dw_script_sig]. rewrite Y4, Y5. apply app_nil_r. }
    apply (decred_p2pkh_signed_partial W H name net t (the_dtx t') n i (the_dspend w') c key sg key ty a d text K En I O P Lw R Ei Es Em D B1 L1 B2 L2 Wd); [rewrite Esig; exact Se|].
    cbn [the_dspend ds_value ds_height ds_index]. rewrite Y1, Y2, Y3. auto.
  - intros L. fold r in Er. rewrite Er. pose proof O as (Oi & Oo & _ & _).
    destruct (decred_accepts H name net (dtx_version t) (dtx_tx_ins t) (dtx_tx_outs t) (dtx_lock_time t) (dtx_expiry t) ws En I Oi Oo Ows) as [(_ & t' & E & _)|(N & _)]; [eauto|].
    exfalso. apply N. destruct (decred_format H name net t En I O) as (_ & _ & _ & A). destruct A as (A1 & A2 & A3 & A4 & A5 & A6 & A7 & A8 & A9).
    unfold dtransaction_ok. cbn [d_version d_ins d_outs d_lock d_expiry d_spends]. repeat (split; [assumption|]). split; [|exact L].
    apply Forall_forall. intros x J. apply in_map_iff in J. destruct J as (w' & <- & J). rewrite Forall_forall in Ows. apply (dwitness_wire' net (decred_only_Ok name net En I)), Ows, J.
Qed.
Print Assumptions decred_transaction_accepted.

(** * Examples *)

Definition ex_dins : list dtxin := map mk_dtxin (d_ins ex_dtx).
Definition ex_douts : list dtxout := map mk_dtxout (d_outs ex_dtx).
Definition ex_dwits : list dwitness := map mk_dwitness (d_spends ex_dtx).
Definition ex_dt : dtx := dtx_of small (d_version ex_dtx) ex_dins ex_douts (d_lock ex_dtx) (d_expiry ex_dtx) ex_dwits.
Lemma ex_dt_obj : dtx_obj small DecredMain ex_dt /\ the_dtx ex_dt = ex_dtx.
Proof.
  split; [|reflexivity]. split; [repeat (constructor; [split; vm_compute; reflexivity|]); constructor|].
  split; [repeat (constructor; [vm_compute; reflexivity|]); constructor|]. split; [repeat (constructor; [vm_compute; reflexivity|]); constructor|].
  rewrite (DecredTx_spec small DecredMain (decred_only_Ok (lit "decred_main") DecredMain (proj1 decred_main_ex) (proj2 decred_main_ex))). vm_compute. reflexivity.
Qed.
(* a signature is its key and the digest *)
Definition exact_world : world :=
  {| ecdsa := fun key d sig => Some (same sig (key ++ d)); other_digest := fun _ _ => []; other_opcode := fun _ _ => None |}.
Lemma exact_one_digest : one_digest exact_world.
Proof.
  intros key sig d d'. cbn [ecdsa exact_world]. unfold same. intros E1 E2.
  destruct (list_eq_dec Z.eq_dec sig (key ++ d)) as [->|]; [|discriminate]. destruct (list_eq_dec Z.eq_dec (key ++ d) (key ++ d')) as [E|]; [|discriminate]. exact (app_inv_head _ _ _ E).
Qed.
Definition ex_dnone : dspend := {| ds_value := []; ds_height := []; ds_index := []; ds_script := [] |}.
(* the coins that the witnesses of ex_dtx describe, for the key [2; 7; 9] *)
Definition ex_dscript : bytes := template P2PKH (h_rmd160 small (h_blake256 small [2; 7; 9])).
Definition ex_dcoin (s : dspend) : dcoin := {| dc_value := ds_value s; dc_height := ds_height s; dc_index := ds_index s; dc_script := ex_dscript |}.
Definition ex_dtext (n : Z) (ty : sigtype) (anyone : bool) : str :=
  join (lit " ") [hex (([2; 7; 9] ++ get (ddigest small ty DecredMain ex_dt n (Some ex_dscript) anyone)) ++ [type_number ty anyone]); hex [2; 7; 9]].
Definition ex_dsigned (w : dwitness) (n : Z) (ty : sigtype) (anyone : bool) : dwitness :=
  match DecredInputWitness_copy DecredMain w None None None (Some (get (serialize DecredMain (ex_dtext n ty anyone)))) (Some []) with Ok w' => w' | Err _ => w end.
Lemma ex_dsigned_ok : forall (n : nat) w c ty anyone,
  let d := get (ddigest small ty DecredMain ex_dt (Z.of_nat n) (Some ex_dscript) anyone) in
  let w' := ex_dsigned w (Z.of_nat n) ty anyone in
  dc_script c = ex_dscript -> dw_value w = dc_value c -> dw_height w = dc_height c -> dw_index w = dc_index c ->
  decred_right ty anyone n 2 ->
  forallb (fun b => (0 <=? b) && (b <? 256)) d = true -> length d = 32%nat ->
  ddigest small ty DecredMain ex_dt (Z.of_nat n) (Some ex_dscript) anyone = Ok d ->
  serialize DecredMain (ex_dtext (Z.of_nat n) ty anyone) = Ok (dw_stack_script w') ->
  DecredInputWitness_copy DecredMain w None None None (Some (dw_stack_script w')) (Some []) = Ok w' ->
  decred_signed_witness exact_world small DecredMain ex_dt n c w w'.
Proof.
  intros n w c ty a d w' Es E1 E2 E3 R B4 L4 D Se C.
  assert (forall l, forallb (fun b => (0 <=? b) && (b <? 256)) l = true -> all_bytes l) as Hb.
  { intros l F. apply Forall_forall. intros x I. rewrite forallb_forall in F. specialize (F x I). unfold is_byte. lia. }
  assert (all_bytes ([2; 7; 9] ++ d)) as B by (apply Forall_app; split; [apply Hb; reflexivity|apply Hb, B4]).
  assert (len ([2; 7; 9] ++ d) = 35) as L by (unfold len; rewrite app_length, L4; reflexivity).
  exists [2; 7; 9], ([2; 7; 9] ++ d), ty, a, d. do 2 eexists. rewrite Es.
  split; [vm_compute; reflexivity|]. split; [exact D|]. split; [exact R|]. split; [cbn [ecdsa exact_world]; rewrite same_refl; reflexivity|].
  split; [exact B|]. split; [lia|]. split; [apply Hb; reflexivity|]. split; [unfold len; cbn [length]; lia|].
  split; [apply words_join; constructor; [apply hex_is_word; [apply Forall_app; split; [exact B|constructor; [apply type_number_byte|constructor]]|cbn [app]; unfold len; cbn [length]; lia]|constructor; [apply hex_is_word; [apply Hb; reflexivity|unfold len; cbn [length]; lia]|constructor]]|].
  split; [exact Se|]. do 3 (split; [assumption|]). exact C.
Qed.
(* two inputs, signed with ALL and with SINGLE *)
Example decred_transaction_ex : exists w0 w1 t', dtx_obj small DecredMain ex_dt /\
  DecredTx_copy small DecredMain ex_dt None None None None None (Some [w0; w1]) = Ok t' /\
  decred_all_accepted exact_world small (the_dtx t') (map ex_dcoin (d_spends ex_dtx)).
Proof.
  pose (w0 := nth 0 ex_dwits (mk_dwitness ex_dnone)).
  pose (w1 := nth 1 ex_dwits (mk_dwitness ex_dnone)).
  exists (ex_dsigned w0 0 All false), (ex_dsigned w1 1 Single false).
  destruct (decred_transaction_accepted exact_world small (lit "decred_main") DecredMain ex_dt (map ex_dcoin (d_spends ex_dtx)) [ex_dsigned w0 0 All false; ex_dsigned w1 1 Single false]
    small_ok (proj1 decred_main_ex) (proj2 decred_main_ex) (proj1 ex_dt_obj) eq_refl eq_refl eq_refl) as [A B].
  - intros n c w w'. apply (two_inputs _ _ _ (fun n c w w' => decred_signed_witness exact_world small DecredMain ex_dt n c w w')).
    + apply (ex_dsigned_ok 0 w0 (ex_dcoin (nth 0 (d_spends ex_dtx) ex_dnone)) All false); [reflexivity|reflexivity|reflexivity|reflexivity|split; discriminate|vm_compute; reflexivity|vm_compute; reflexivity|vm_compute; reflexivity|vm_compute; reflexivity|vm_compute; reflexivity].
    + apply (ex_dsigned_ok 1 w1 (ex_dcoin (nth 1 (d_spends ex_dtx) ex_dnone)) Single false); [reflexivity|reflexivity|reflexivity|reflexivity|split; [discriminate|reflexivity]|vm_compute; reflexivity|vm_compute; reflexivity|vm_compute; reflexivity|vm_compute; reflexivity|vm_compute; reflexivity].
  - destruct B as [t' C]; [vm_compute; discriminate|]. exists t'. split; [apply ex_dt_obj|]. split; [exact C|]. exact (proj2 (proj2 (proj2 (A t' C)))).
Qed.
(* SINGLE on the first input, and ANYONECANPAY, are rejected *)
Example decred_signed_wrong_ex :
  let w := mk_dwitness (nth 0 (d_spends ex_dtx) ex_dnone) in
  let t' ty anyone := {| d_version := d_version ex_dtx; d_ins := d_ins ex_dtx; d_outs := d_outs ex_dtx; d_lock := d_lock ex_dtx; d_expiry := d_expiry ex_dtx;
                         d_spends := map the_dspend [ex_dsigned w 0 ty anyone; w] |} in
  let c := ex_dcoin (the_dspend w) in
  decred_accepted exact_world small (t' All false) 0 c = true /\
  decred_accepted exact_world small (t' Single false) 0 c = false /\ decred_accepted exact_world small (t' All true) 0 c = false /\
  decred_accepted exact_world small (t' All false) 0 {| dc_value := repeat 9 8; dc_height := dc_height c; dc_index := dc_index c; dc_script := dc_script c |} = false.
Proof. vm_compute. repeat split. Qed.
