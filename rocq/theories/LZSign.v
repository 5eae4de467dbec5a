(* Lemmas about signed Zcash transactions *)
From Coq Require Import String.
From Verif Require Import Py LBase MNet MUtils MAddr MShared MScript MTx MZcash MBuilder SNum SNet SHash SScript SAddr STx SSig SCopy SZcash SInterp SSign SZSign
  LNet LUtils LTx LTxParse LTxWire LCopy LSig LSigBind LSigTop LAddr LBuilder LBuilderTx LInterp LExamples LSign PBuilder PCopy PInterp PZip.
Open Scope list_scope.
Open Scope Z_scope.
Ltac Zify.zify_post_hook ::= idtac.

Lemma zcash_plain name : In name zcash_names -> no_fork_id name /\ ~ In name decred_names.
Proof.
  intros I. assert (forallb (fun a => forallb (fun p => negb (leqb (fst p) a)) fork_ids && forallb (fun d => negb (leqb d a)) decred_names) zcash_names = true) as F by (vm_compute; reflexivity).
  rewrite forallb_forall in F. specialize (F name I). rewrite andb_true_iff, !forallb_forall in F. destruct F as [F G]. split.
  - intros id J. specialize (F _ J). cbn [fst] in F. rewrite leqb_refl in F. discriminate.
  - intros J. specialize (G _ J). rewrite leqb_refl in G. discriminate.
Qed.
Lemma zhash_type_byte ty anyone : zhash_type (ztype_byte ty anyone) = Some (ty, anyone).
Proof. destruct ty, anyone; reflexivity. Qed.
Lemma ztype_byte_range ty anyone : is_byte (ztype_byte ty anyone).
Proof. unfold is_byte. destruct ty, anyone; cbn; lia. Qed.

(** * Digests do not see script sigs *)

Lemma same_outpoints l l' : Forall2 same_signed l l' -> map outpoint_wire l = map outpoint_wire l' /\ map in_sequence l = map in_sequence l'.
Proof. induction 1 as [|i j l l' (A & B & C) F [E1 E2]]; [auto|]. cbn [map]. unfold outpoint_wire. rewrite A, B, C. split; f_equal; assumption. Qed.
Lemma zip_signed_same s i j : same_signed i j -> zip_signed s i = zip_signed s j.
Proof. intros (A & B & C). unfold zip_signed, outpoint_wire. rewrite A, B, C. reflexivity. Qed.
Lemma zip_prevouts_same H a l l' : Forall2 same_signed (map the_input l) (map the_input l') -> zip_prevouts H a l = zip_prevouts H a l'.
Proof. intros F. unfold zip_prevouts. destruct (same_outpoints _ _ F) as [-> _]. reflexivity. Qed.
Lemma zip_sequence_same H ty a l l' : Forall2 same_signed (map the_input l) (map the_input l') -> zip_sequence H ty a l = zip_sequence H ty a l'.
Proof. intros F. unfold zip_sequence. destruct (same_outpoints _ _ F) as [_ ->]. reflexivity. Qed.
Lemma with_script_same c l l' : Forall2 same_signed l l' -> map (with_script c) l = map (with_script c) l'.
Proof. induction 1 as [|i j l l' (A & B & C) F E]; [auto|]. cbn [map]. unfold with_script. rewrite A, B, C. f_equal. exact E. Qed.
Lemma F2_firstn {A B} (R : A -> B -> Prop) n : forall l l', Forall2 R l l' -> Forall2 R (firstn n l) (firstn n l').
Proof. induction n; intros l l' F; [constructor|]. destruct F; [constructor|]. cbn [firstn]. constructor; auto. Qed.
Lemma F2_skipn {A B} (R : A -> B -> Prop) n : forall l l', Forall2 R l l' -> Forall2 R (skipn n l) (skipn n l').
Proof. induction n; intros l l' F; [exact F|]. destruct F; [constructor|]. cbn [skipn]. auto. Qed.

(** * P2PKH *)

Lemma zcash_p2pkh W H name net D T i pk script sg key b d text :
  hashes_ok H -> get_network name = Ok net -> In name zcash_names -> make_p2pkh_output_script H net pk = Ok script ->
  D script b = Some d -> is_byte b ->
  all_bytes sg -> len sg <= 519 -> len sg <> 19 -> all_bytes key -> 1 <= len key <= 520 ->
  words [hex (sg ++ [b]); hex key] text -> serialize net text = Ok (in_script i) ->
  (spends (signing W H name D false T i (fst (signed_script false script (in_script i) []))) false (in_script i) script [] = true <->
   key_hash H name key = key_hash H name pk /\ ecdsa W key d sg = Some true).
Proof.
  intros K En Z Es Dd Bb B1 L1 L19 B2 L2 Wd Ei. destruct (zcash_plain name Z) as [Nf ND].
  pose proof (make_p2pkh_output_script_template H name net pk En) as Et. rewrite Et in Es. apply Ok_inj in Es. destruct (key_hash_ok H name pk K) as [_ L].
  rewrite <- Es. rewrite signed_p2pkh by exact L. cbn [fst]. set (cx := signing _ _ _ _ _ _ _ _).
  assert (hashing H cx) as Hc by (split; reflexivity).
  set (s' := sg ++ [b]). assert (len s' = len sg + 1) as Ls by (unfold s', len; rewrite app_length; cbn; lia). assert (0 <= len sg) by (unfold len; lia).
  destruct (p2pkh_input_spends H cx name net pk (template P2PKH (key_hash H name pk)) false s' key text K Hc En ND Et) as (sig & E1 & E2).
  { apply Forall_app. split; [exact B1|]. constructor; [exact Bb|constructor]. }
  { exact B2. } { lia. } { lia. } { exact Wd. }
  rewrite E1 in Ei. apply Ok_inj in Ei. subst sig. rewrite E2. unfold cx. cbn [cx_checksig signing]. unfold s'. rewrite check_snoc. fold s'.
  rewrite (fork_id_none name Nf), erase_p2pkh by lia. rewrite Es, Dd. assert (len s' <= 520) by lia. tauto.
Qed.

Lemma signed_inputs W H net dig old spent ins : Forall txin_obj old -> length spent = length old -> length ins = length old ->
  (forall n i o i', nth_error old n = Some i -> nth_error spent n = Some o -> nth_error ins n = Some i' -> zcash_signed_input W H net dig n i o i') ->
  Forall txin_obj ins /\ Forall2 same_signed (map the_input old) (map the_input ins) /\
  forall n o, nth_error spent n = Some o -> exists i' key sg ty anyone d text, nth_error ins n = Some i' /\
    make_p2pkh_output_script H net key = Ok (out_script o) /\
    dig (Z.of_nat n) (string_wire (out_script o)) (out_value o) ty anyone = Ok d /\ (ty = ZNone -> anyone = true) /\ ecdsa W key d sg = Some true /\
    all_bytes sg /\ len sg <= 519 /\ len sg <> 19 /\ all_bytes key /\ 1 <= len key <= 520 /\
    words [hex (sg ++ [ztype_byte ty anyone]); hex key] text /\ serialize net text = Ok (in_script (the_input i')).
Proof.
  intros Fi Ls Li F.
  assert (forall n i', nth_error ins n = Some i' -> exists i o, nth_error old n = Some i /\ nth_error spent n = Some o /\ txin_obj i /\ zcash_signed_input W H net dig n i o i') as G.
  { intros n i' E. pose proof (nth_lt _ _ _ E) as Ln. destruct (nth_some old n ltac:(lia)) as [i Ei]. destruct (nth_some spent n ltac:(lia)) as [o Eo]. exists i, o.
    split; [exact Ei|]. split; [exact Eo|]. split; [rewrite Forall_forall in Fi; apply Fi, (nth_error_In _ _ Ei)|]. apply (F n i o i'); auto. }
  assert (forall n i', nth_error ins n = Some i' -> exists i, nth_error old n = Some i /\ txin_obj i' /\ same_signed (the_input i) (the_input i')) as G2.
  { intros n i' E. destruct (G n i' E) as (i & o & Ei & Eo & Oi & (key & sg & ty & a & d & text & sig & _ & _ & _ & _ & _ & _ & _ & _ & _ & _ & _ & _ & C)).
    exists i. split; [exact Ei|]. destruct (copy_txin i None (Some sig) None None Oi) as (_ & _ & X). destruct (X i' C) as (X1 & X2 & X3 & X4 & X5).
    split; [apply X5; exact I|]. unfold same_signed, the_input. cbn [in_txid in_index in_sequence]. rewrite X1, X4. auto. }
  split; [apply Forall_forall; intros i' J; apply In_nth_error in J; destruct J as [n E]; destruct (G2 n i' E) as (_ & _ & X & _); exact X|]. split.
  { clear - Li G2. revert old Li G2. induction ins as [|i' ins IH]; intros [|i l] L G; try discriminate L; [constructor|].
    cbn [map]. constructor; [destruct (G 0%nat i' eq_refl) as (x & X & _ & Y); injection X as <-; exact Y|]. apply IH; [injection L as L; exact L|]. intros n j E. exact (G (S n) j E). }
  intros n o Eo. pose proof (nth_lt _ _ _ Eo) as Ln. destruct (nth_some ins n ltac:(lia)) as [i' Ei'].
  destruct (G n i' Ei') as (i & o' & Ei & Eo' & Oi & (key & sg & ty & a & d & text & sig & Es & D & Sn & Ec & B1 & L1 & L19 & B2 & L2 & Wd & Se & Rd & Cp)).
  assert (o' = o) as -> by congruence.
  assert (in_script (the_input i') = sig) as Ein.
  { destruct (copy_txin i None (Some sig) None None Oi) as (_ & _ & X). destruct (X i' Cp) as (X1 & X2 & X3 & X4 & X5). specialize (X5 I).
    apply txin_obj_iff in X5. destruct X5 as (_ & _ & _ & X5). cbn [the_input in_script]. rewrite X5. unfold txin_of. cbn [ti_script_sig]. rewrite X2, X3. cbn [updated]. rewrite Rd. apply app_nil_r. }
  rewrite <- Ein in Se. exists i', key, sg, ty, a, d, text. auto 20.
Qed.

Lemma inputs_accepted W H name net dig D old spent ins outs lock : hashes_ok H -> get_network name = Ok net -> In name zcash_names ->
  Forall txin_obj old -> length spent = length old -> length ins = length old ->
  (forall n i o i', nth_error old n = Some i -> nth_error spent n = Some o -> nth_error ins n = Some i' -> zcash_signed_input W H net dig n i o i') ->
  (forall n i' value code ty anyone d, nth_error ins n = Some i' -> len code = 25 -> dig (Z.of_nat n) (string_wire code) value ty anyone = Ok d -> (ty = ZNone -> anyone = true) ->
     D n (the_input i') value code (ztype_byte ty anyone) = Some d) ->
  accepts_all (zcash_accepted W H name D (transparent_part ins outs lock)) spent.
Proof.
  intros K En Z Fi Ls Li F Dg n o Eo. destruct (signed_inputs W H net dig old spent ins Fi Ls Li F) as (_ & _ & G).
  destruct (G n o Eo) as (i' & key & sg & ty & a & d & text & Ei & Es & Ed & Sn & Ec & B1 & L1 & L19 & B2 & L2 & Wd & Se).
  unfold zcash_accepted. cbn [transparent_part t_ins]. rewrite nth_error_map, Ei. cbn [option_map].
  assert (len (out_script o) = 25) as L25.
  { rewrite (make_p2pkh_output_script_template H name net key En) in Es. apply Ok_inj in Es. rewrite <- Es. destruct (key_hash_ok H name key K) as [_ L]. cbn [template]. unfold len in *. rewrite !app_length. cbn [length]. lia. }
  apply (zcash_p2pkh W H name net _ _ _ key (out_script o) sg key (ztype_byte ty a) d text K En Z Es); auto. apply ztype_byte_range.
Qed.

Lemma resigned_nth l l' n i : Forall2 same_signed (map the_input l) (map the_input l') -> nth_error l' n = Some i ->
  exists j, nth_error l n = Some j /\ same_signed (the_input j) (the_input i).
Proof.
  revert l n. induction l' as [|a l' IH]; intros l n F E; [destruct n; discriminate|]. destruct l as [|b l]; [inversion F|]. cbn [map] in F. inversion F; subst.
  destruct n as [|n]; [injection E as <-; exists b; auto|]. exact (IH l n H4 E).
Qed.
Lemma overwinter_zcash name : In name overwinter_names -> In name zcash_names.
Proof. intros I. unfold zcash_names. apply in_or_app. right. apply in_or_app. left. exact I. Qed.
Lemma sapling_zcash name : In name sapling_names -> In name zcash_names.
Proof. intros I. unfold zcash_names. apply in_or_app. right. apply in_or_app. right. exact I. Qed.
Lemma sprout_zcash name : In name sprout_names -> In name zcash_names.
Proof. intros I. unfold zcash_names. apply in_or_app. left. exact I. Qed.
Lemma p2pkh_len H name net pk script : hashes_ok H -> get_network name = Ok net -> make_p2pkh_output_script H net pk = Ok script -> len script = 25.
Proof.
  intros K En Es. rewrite (make_p2pkh_output_script_template H name net pk En) in Es. apply Ok_inj in Es. rewrite <- Es. destruct (key_hash_ok H name pk K) as [_ L]. cbn [template]. unfold len in *. rewrite !app_length. cbn [length]. lia.
Qed.
Lemma overwinter_needed H net t : overwinter_obj H net t ->
  ow_joinsplit_pubkey t = needed (ow_tx_joinsplits t) (ow_joinsplit_pubkey t) /\ ow_joinsplit_sig t = needed (ow_tx_joinsplits t) (ow_joinsplit_sig t).
Proof. intros O. destruct (copy_overwinter H net t None None None None None None None O) as (C & _ & X). destruct (X t C) as (_ & _ & _ & _ & _ & A & B & _). split; assumption. Qed.
Lemma sapling_needed H net t : sapling_obj H net t ->
  sa_joinsplit_pubkey t = needed (sa_tx_joinsplits t) (sa_joinsplit_pubkey t) /\ sa_joinsplit_sig t = needed (sa_tx_joinsplits t) (sa_joinsplit_sig t) /\
  sa_binding_sig t = match sa_tx_shielded_spends t, sa_tx_shielded_outputs t with [], [] => None | _, _ => sa_binding_sig t end.
Proof.
  intros O. destruct (copy_sapling H net t None None None None None None None None None None None O) as (C & _ & X).
  destruct (X t C) as (_ & _ & _ & _ & _ & _ & _ & _ & A & B & D & _). split; [exact A|]. split; [exact B|exact D].
Qed.
