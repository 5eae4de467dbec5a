(* Lemmas: what Zcash signature digests commit to *)
From Coq Require Import String.
From Verif Require Import Py LBase MNet MUtils MShared MScript MTx MZcash SNum SNet SHash SScript STx SSig SZcash SZBind LNet LUtils LTx LTxWire LSigBind LBip143 LZcash LZcashTx LZTrunc LZip LSapling LZip243 LZipTop.
Open Scope list_scope.
Open Scope Z_scope.
Ltac Zify.zify_post_hook ::= idtac.

(** * descriptions are determined by their bytes *)
Lemma layout_inj l l' : widths_ok l -> widths_ok l' -> map snd l = map snd l' -> fields_wire l = fields_wire l' -> map fst l = map fst l'.
Proof. intros W W' S E. rewrite <- (cuts_wire l [] W), <- (cuts_wire l' [] W'), E, S. reflexivity. Qed.
Ltac pieces E := cbn [map fst snd app] in E; injection E; clear E; intros; subst.

Lemma sprout_proof_inj net net' p p' : sprout_proof_obj net p -> sprout_proof_obj net' p' -> sprout_proof_wire p = sprout_proof_wire p' -> p = p'.
Proof.
  intros O O' E. apply sprout_proof_obj_iff in O, O'. destruct O as [_ [W B]], O' as [_ [W' B']].
  pose proof (layout_inj _ _ W W' eq_refl E) as X. rewrite E in B. clear W W' E. unfold sprout_proof_fields in X. destruct p as [x0 x1 x2 x3 x4 x5 x6 x7 x8], p' as [y0 y1 y2 y3 y4 y5 y6 y7 y8].
  cbn [zk_pi_sub_a zk_pi_prime_sub_a zk_pi_sub_b zk_pi_prime_sub_b zk_pi_sub_c zk_pi_prime_sub_c zk_pi_sub_k zk_pi_sub_h zk_bytes] in *. rewrite <- B' in B. pieces X. reflexivity.
Qed.
Lemma sapling_proof_inj net net' p p' : sapling_proof_obj net p -> sapling_proof_obj net' p' -> sapling_proof_wire p = sapling_proof_wire p' -> p = p'.
Proof.
  intros O O' E. apply sapling_proof_obj_iff in O, O'. destruct O as [_ [W B]], O' as [_ [W' B']].
  pose proof (layout_inj _ _ W W' eq_refl E) as X. rewrite E in B. clear W W' E. unfold sapling_proof_fields in X. destruct p as [x0 x1 x2 x3], p' as [y0 y1 y2 y3].
  cbn [szk_pi_sub_a szk_pi_sub_b szk_pi_sub_c szk_bytes] in *. rewrite <- B' in B. pieces X. reflexivity.
Qed.
Lemma sprout_joinsplit_inj net net' j j' : sprout_joinsplit_obj net j -> sprout_joinsplit_obj net' j' -> sprout_joinsplit_wire j = sprout_joinsplit_wire j' -> j = j'.
Proof.
  intros O O' E. apply sprout_joinsplit_obj_iff in O, O'. destruct O as [P [_ [W B]]], O' as [P' [_ [W' B']]].
  pose proof (layout_inj _ _ W W' eq_refl E) as X. rewrite E in B. rewrite <- B' in B. clear W W' E B'. unfold sprout_joinsplit_fields, joinsplit_fields in X.
  cbn [map fst] in X. injection X; clear X; intros. assert (js_zkproof j = js_zkproof j') as Z by (eapply sprout_proof_inj; eassumption).
  destruct j as [x0 x1 x2 x3 x4 x5 x6 x7 x8 x9 x10], j' as [y0 y1 y2 y3 y4 y5 y6 y7 y8 y9 y10]. cbn [js_vpub_old js_vpub_new js_anchor js_nullifiers js_commitments js_ephemeral_key js_random_seed js_vmacs js_zkproof js_encoded_notes js_bytes] in *. congruence.
Qed.
Lemma sapling_joinsplit_inj net net' j j' : sapling_joinsplit_obj net j -> sapling_joinsplit_obj net' j' -> sapling_joinsplit_wire j = sapling_joinsplit_wire j' -> j = j'.
Proof.
  intros O O' E. apply sapling_joinsplit_obj_iff in O, O'. destruct O as [P [_ [W B]]], O' as [P' [_ [W' B']]].
  pose proof (layout_inj _ _ W W' eq_refl E) as X. rewrite E in B. rewrite <- B' in B. clear W W' E B'. unfold sapling_joinsplit_fields, joinsplit_fields in X.
  cbn [map fst] in X. injection X; clear X; intros. assert (js_zkproof j = js_zkproof j') as Z by (eapply sapling_proof_inj; eassumption).
  destruct j as [x0 x1 x2 x3 x4 x5 x6 x7 x8 x9 x10], j' as [y0 y1 y2 y3 y4 y5 y6 y7 y8 y9 y10]. cbn [js_vpub_old js_vpub_new js_anchor js_nullifiers js_commitments js_ephemeral_key js_random_seed js_vmacs js_zkproof js_encoded_notes js_bytes] in *. congruence.
Qed.
Lemma spend_body_widths net s : spend_obj net s -> widths_ok (spend_body_fields s) /\ sapling_proof_obj net (ss_zkproof s).
Proof. intros O. apply spend_obj_iff in O. destruct O as [P [W _]]. split; [|exact P]. unfold spend_fields, widths_ok in W. apply Forall_app in W. apply W. Qed.
Lemma spend_body_inj net net' s s' : spend_obj net s -> spend_obj net' s' -> spend_body_wire s = spend_body_wire s' -> unsigned_spend s = unsigned_spend s'.
Proof.
  intros O O' E. apply spend_body_widths in O, O'. destruct O as [W P], O' as [W' P'].
  pose proof (layout_inj _ _ W W' eq_refl E) as X. unfold spend_body_fields in X. cbn [map fst] in X. injection X; clear X; intros.
  assert (ss_zkproof s = ss_zkproof s') as Z by (eapply sapling_proof_inj; eassumption). unfold unsigned_spend. congruence.
Qed.
Lemma shielded_output_inj net net' o o' : shielded_output_obj net o -> shielded_output_obj net' o' -> shielded_output_wire o = shielded_output_wire o' -> o = o'.
Proof.
  intros O O' E. apply shielded_output_obj_iff in O, O'. destruct O as [P [W B]], O' as [P' [W' B']].
  pose proof (layout_inj _ _ W W' eq_refl E) as X. rewrite E in B. rewrite <- B' in B. clear W W' E B'. unfold output_fields in X.
  cbn [map fst] in X. injection X; clear X; intros. assert (so_zkproof o = so_zkproof o') as Z by (eapply sapling_proof_inj; eassumption).
  destruct o as [x0 x1 x2 x3 x4 x5 x6], o' as [y0 y1 y2 y3 y4 y5 y6]. cbn [so_cv so_cmu so_ephemeral_key so_enc_ciphertext so_out_ciphertext so_zkproof so_bytes] in *. congruence.
Qed.

(* lists of descriptions of one length *)
Lemma fixed_inj {A B C} (w : A -> bytes) (w' : B -> bytes) (f : A -> C) (g : B -> C) (P : A -> Prop) (Q : B -> Prop) k : 0 < k ->
  (forall a, P a -> zlen (w a) = k) -> (forall b, Q b -> zlen (w' b) = k) -> (forall a b, P a -> Q b -> w a = w' b -> f a = g b) ->
  forall l m r s, Forall P l -> Forall Q m -> zlen r = zlen s -> concat (map w l) ++ r = concat (map w' m) ++ s -> map f l = map g m /\ r = s.
Proof.
  intros K La Lb I. induction l as [|a l IH]; intros [|b m] r s Fl Fm Lr E.
  - split; [reflexivity|exact E].
  - exfalso. inversion Fm; subst. cbn [map concat app] in E. apply (f_equal zlen) in E. rewrite !zlen_app, (Lb b) in E by assumption.
    pose proof (zlen_nonneg (concat (map w' m))). lia.
  - exfalso. inversion Fl; subst. cbn [map concat app] in E. apply (f_equal zlen) in E. rewrite !zlen_app, (La a) in E by assumption.
    pose proof (zlen_nonneg (concat (map w l))). lia.
  - inversion Fl; inversion Fm; subst. cbn [map concat] in E. rewrite <- !app_assoc in E. apply app_inj_zlen in E; [|rewrite La, Lb by assumption; reflexivity].
    destruct E as [E1 E2]. destruct (IH m r s) as [X Y]; try assumption. split; [|exact Y]. cbn [map]. rewrite X, (I a b) by assumption. reflexivity.
Qed.

(** * hashes *)
Section Hash.
Context (H : hashes) (Hok : hashes_ok H).
Lemma blake_len m : zlen (blake_of H m) = 32.
Proof using Hok. destruct Hok as [_ [_ [_ B]]]. unfold blake_of. apply B. lia. Qed.
Lemma personal_of p m : personal H p m = blake_of H (lit p, m).
Proof. reflexivity. Qed.
Lemma same_or_blake l a b : blake_of H a = blake_of H b -> In a l -> In b l -> a = b \/ blake_collision H l.
Proof.
  intros E A B. destruct a as [p m], b as [p' m']. destruct (list_eq_dec_Z p p') as [<-|N]; [|right; exists (p, m), (p', m'); repeat split; try assumption; congruence].
  destruct (list_eq_dec_Z m m') as [<-|N]; [auto|]. right. exists (p, m), (p, m'). repeat split; try assumption. congruence.
Qed.
Lemma blake_incl l l' : incl l l' -> blake_collision H l -> blake_collision H l'.
Proof. intros I [a [b [A [B C]]]]. exists a, b. auto. Qed.
Lemma blake_zero_incl l l' : incl l l' -> blake_zero H l -> blake_zero H l'.
Proof. intros I [a [A C]]. exists a. auto. Qed.
End Hash.

(** * requests *)
Lemma signed_part_nth r ins i script value : zr_signed r = Some (script, value) -> nth_error ins (zr_place r) = Some i ->
  signed_part r ins = the_signed (zr_place r) script value i.
Proof.
  intros S E. unfold signed_part, seen_input, the_signed, zip_signed. rewrite S, nth_error_map, E. cbn [option_map si_script si_value].
  unfold outpoint_wire. rewrite <- app_assoc. reflexivity.
Qed.
Lemma sequences_hash_code H r ins : sequences_hash H r ins = code_sequence H (zr_type r) (zr_anyone r) ins.
Proof. unfold sequences_hash, seen_sequences, code_sequence, zip_sequence, blake_of, sequences_message, personal. destruct (zr_type r), (zr_anyone r); reflexivity. Qed.
Lemma nth_error_lt {A} (l : list A) n : (n < length l)%nat -> exists x, nth_error l n = Some x.
Proof. intros L. destruct (nth_error l n) eqn:E; [eauto|]. apply nth_error_None in E. lia. Qed.

Section Requests.
Context (H : hashes).
Lemma input_part_request ins outs r : Forall txin_obj ins -> answerable ins outs r ->
  z_input_part ins (negb (is_input r)) (Z.of_nat (zr_place r)) (option_map (fun s => string_wire (fst s)) (zr_signed r)) (option_map snd (zr_signed r)) =
  Ok (signed_part r ins).
Proof.
  intros F [A [B C]]. unfold is_input in *. destruct (zr_signed r) as [[script value]|] eqn:S.
  - destruct (nth_error_lt ins (zr_place r) (A eq_refl)) as [i E]. cbn [negb option_map fst snd].
    rewrite (signed_part_nth r ins i script value S E). rewrite (input_part_spec ins _ i script value F E). reflexivity.
  - unfold signed_part, seen_input. rewrite S. reflexivity.
Qed.
Lemma fails_request ins outs r : answerable ins outs r -> zip_fails (zr_type r) (zr_place r) outs = None /\ negb (is_input r) && zr_anyone r = false.
Proof. intros [_ [B C]]. split; [apply zip_fails_none, C|]. destruct (is_input r); [reflexivity|]. rewrite B by reflexivity. reflexivity. Qed.

Lemma request_ok ins outs r f (x : bytes) :
  (if negb (is_input r) && zr_anyone r then Err ValueError
   else match zip_fails (zr_type r) (zr_place r) outs with
        | Some e => Err e
        | None => signed <- z_input_part ins (negb (is_input r)) (Z.of_nat (zr_place r)) (option_map (fun s => string_wire (fst s)) (zr_signed r)) (option_map snd (zr_signed r)) ;; Ok (f signed)
        end) = Ok x -> answerable ins outs r.
Proof.
  intros E. unfold answerable, is_input in *. destruct (zr_signed r) as [[script value]|] eqn:S.
  - cbn [negb andb] in E. destruct (zip_fails (zr_type r) (zr_place r) outs) eqn:Z; [discriminate|]. split; [|split; [discriminate|]].
    + intros _. destruct (nth_error ins (zr_place r)) as [i|] eqn:N; [apply nth_error_Some; congruence|]. rewrite input_part_index in E by exact N. discriminate.
    + intros T. rewrite T in Z. cbn [zip_fails] in Z. destruct (Nat.ltb_spec (zr_place r) (length outs)); [assumption|discriminate].
  - cbn [negb andb] in E. destruct (zr_anyone r); [discriminate|]. destruct (zip_fails (zr_type r) (zr_place r) outs) eqn:Z; [discriminate|].
    split; [discriminate|]. split; [reflexivity|]. intros T. rewrite T in Z. cbn [zip_fails] in Z. destruct (Nat.ltb_spec (zr_place r) (length outs)); [assumption|discriminate].
Qed.

Lemma ow_request_top net t r : overwinter_obj H net t -> answerable (ow_tx_ins t) (ow_tx_outs t) r ->
  overwinter_request H net t r = Ok (blake_of H (overwinter_top H t r)).
Proof.
  intros O A. unfold overwinter_request. rewrite (overwinter_digest H net t _ _ _ _ _ _ O). destruct (fails_request _ _ _ A) as [-> ->].
  rewrite (input_part_request _ _ r ltac:(apply O) A). cbn [bind]. unfold code143, overwinter_top, blake_of, zip143_hash. rewrite sequences_hash_code. reflexivity.
Qed.
Lemma ow_request_ok net t r d : overwinter_obj H net t -> overwinter_request H net t r = Ok d -> answerable (ow_tx_ins t) (ow_tx_outs t) r.
Proof. intros O E. unfold overwinter_request in E. rewrite (overwinter_digest H net t _ _ _ _ _ _ O) in E. eapply request_ok. exact E. Qed.
Lemma sa_request_top net t r : sapling_obj H net t -> answerable (sa_tx_ins t) (sa_tx_outs t) r ->
  sapling_request H net t r = Ok (blake_of H (sapling_top H t r)).
Proof.
  intros O A. unfold sapling_request. rewrite (sapling_digest H net t _ _ _ _ _ _ O). destruct (fails_request _ _ _ A) as [-> ->].
  rewrite (input_part_request _ _ r ltac:(apply O) A). cbn [bind]. unfold code243, sapling_top, blake_of, zip243_hash. rewrite sequences_hash_code. reflexivity.
Qed.
Lemma sa_request_ok net t r d : sapling_obj H net t -> sapling_request H net t r = Ok d -> answerable (sa_tx_ins t) (sa_tx_outs t) r.
Proof. intros O E. unfold sapling_request in E. rewrite (sapling_digest H net t _ _ _ _ _ _ O) in E. eapply request_ok. exact E. Qed.
End Requests.

(** * the parts *)
Section Parts.
Context (H : hashes) (Hok : hashes_ok H).
Lemma the_inputs_ok ins : Forall txin_obj ins -> Forall input_ok (map the_input ins).
Proof. intros F. apply Forall_map. eapply Forall_impl; [|exact F]. intros i O. apply txin_wire, O. Qed.
Lemma the_outputs_ok outs : Forall txout_obj outs -> Forall output_ok (map the_output outs).
Proof. intros F. apply Forall_map. eapply Forall_impl; [|exact F]. intros i O. apply txout_wire, O. Qed.

Lemma prevouts_bind l r r' ins ins' : Forall txin_obj ins -> Forall txin_obj ins' -> zr_anyone r = zr_anyone r' ->
  zip_prevouts H (zr_anyone r) ins = zip_prevouts H (zr_anyone r') ins' ->
  In (outpoints_message ins) l -> In (outpoints_message ins') l -> blake_collision H l \/ seen_outpoints r ins = seen_outpoints r' ins'.
Proof.
  intros F F' Ea E I I'. unfold zip_prevouts, seen_outpoints in *. rewrite <- Ea in *. destruct (zr_anyone r); [auto|]. rewrite !personal_of in E.
  apply (same_or_blake H l) in E; [|assumption|assumption]. destruct E as [E|E]; [right|auto]. injection E as E.
  apply the_inputs_ok in F, F'. apply outpoints_inj in E; [|assumption|assumption]. f_equal. revert F F' E. clear. generalize (map the_input ins), (map the_input ins').
  induction l as [|i l IH]; intros [|j m] F F' E; try discriminate; [reflexivity|]. inversion F; inversion F'; subst. cbn [map] in *. injection E as E1 E2.
  apply outpoint_inj in E1; [|assumption|assumption]. destruct E1 as [-> ->]. f_equal. apply IH; assumption.
Qed.
Lemma sequences_bind l r r' ins ins' : Forall txin_obj ins -> Forall txin_obj ins' -> zr_type r = zr_type r' -> zr_anyone r = zr_anyone r' ->
  sequences_hash H r ins = sequences_hash H r' ins' ->
  In (sequences_message ins) l -> In (sequences_message ins') l -> blake_collision H l \/ seen_sequences r ins = seen_sequences r' ins'.
Proof.
  intros F F' Et Ea E I I'. unfold sequences_hash, seen_sequences in *. rewrite <- Et, <- Ea in *. apply the_inputs_ok in F, F'.
  destruct (zr_type r), (zr_anyone r); auto; apply (same_or_blake H l) in E; try assumption; (destruct E as [E|E]; [right|auto]); injection E as E;
    apply sequences_inj in E; try assumption; rewrite E; reflexivity.
Qed.
Lemma nth_first {A} (l : list A) n x : nth_error l n = Some x -> firstn 1 (skipn n l) = [x].
Proof. revert n. induction l as [|a l IH]; intros [|n] E; try discriminate; [injection E as ->; reflexivity|]. cbn [skipn]. apply IH, E. Qed.
Lemma outputs_hash ins outs r : answerable ins outs r ->
  zip_outputs H (zr_type r) (zr_place r) outs = match zr_type r with ZNone => zero32 | _ => blake_of H (outputs_message (seen_outputs r outs)) end.
Proof.
  intros [_ [_ A]]. unfold zip_outputs, seen_outputs. destruct (zr_type r); try reflexivity. destruct (nth_error_lt outs _ (A eq_refl)) as [o E]. rewrite E.
  rewrite (nth_first (map the_output outs) _ (the_output o)) by (rewrite nth_error_map, E; reflexivity). unfold outputs_message, personal, blake_of. cbn [map concat fst snd]. rewrite app_nil_r. reflexivity.
Qed.
Lemma seen_outputs_ok r outs : Forall txout_obj outs -> Forall output_ok (seen_outputs r outs).
Proof.
  intros F. apply the_outputs_ok in F. unfold seen_outputs. destruct (zr_type r); [exact F|constructor|]. apply Forall_forall. intros o I.
  rewrite Forall_forall in F. apply F. rewrite <- (firstn_skipn (zr_place r) (map the_output outs)). apply in_or_app. right.
  rewrite <- (firstn_skipn 1 (skipn (zr_place r) (map the_output outs))). apply in_or_app. left. exact I.
Qed.
Lemma outputs_bind l r r' ins ins' outs outs' : Forall txout_obj outs -> Forall txout_obj outs' -> answerable ins outs r -> answerable ins' outs' r' ->
  zr_type r = zr_type r' -> zip_outputs H (zr_type r) (zr_place r) outs = zip_outputs H (zr_type r') (zr_place r') outs' ->
  In (outputs_message (seen_outputs r outs)) l -> In (outputs_message (seen_outputs r' outs')) l ->
  blake_collision H l \/ seen_outputs r outs = seen_outputs r' outs'.
Proof.
  intros F F' A A' Et E I I'. rewrite (outputs_hash _ _ _ A), (outputs_hash _ _ _ A') in E. pose proof (seen_outputs_ok r _ F) as G. pose proof (seen_outputs_ok r' _ F') as G'.
  rewrite <- Et in E. destruct (zr_type r) eqn:T.
  2: { right. unfold seen_outputs. rewrite <- Et, T. reflexivity. }
  all: apply (same_or_blake H l) in E; try assumption; (destruct E as [E|E]; [right|auto]); injection E as E;
    (eapply concat_pfx; [exact pfx_output|exact output_wire_pos|assumption|assumption|exact E]).
Qed.
Lemma signed_bind r r' ins ins' outs outs' : Forall txin_obj ins -> Forall txin_obj ins' -> answerable ins outs r -> answerable ins' outs' r' ->
  (forall s v, zr_signed r = Some (s, v) -> len s < 2 ^ 64) -> (forall s v, zr_signed r' = Some (s, v) -> len s < 2 ^ 64) ->
  signed_part r ins = signed_part r' ins' -> seen_input r ins = seen_input r' ins'.
Proof.
  intros F F' [A _] [A' _] C C' E. apply the_inputs_ok in F, F'. unfold signed_part, seen_input, is_input in *.
  destruct (zr_signed r) as [[s v]|], (zr_signed r') as [[s' v']|].
  - specialize (A eq_refl). specialize (A' eq_refl). rewrite <- (map_length the_input) in A, A'.
    destruct (nth_error_lt _ _ A) as [i N]. destruct (nth_error_lt _ _ A') as [i' N']. rewrite N, N' in *.
    assert (input_ok i) as O by (rewrite Forall_forall in F; apply F; eapply nth_error_In; exact N).
    assert (input_ok i') as O' by (rewrite Forall_forall in F'; apply F'; eapply nth_error_In; exact N').
    destruct O as [O1 [O2 [O3 _]]], O' as [O1' [O2' [O3' _]]]. specialize (C _ _ eq_refl). specialize (C' _ _ eq_refl). norm_spec.
    apply app_inj_zlen in E; [|lia]. destruct E as [-> E]. apply app_inj_zlen in E; [|lia]. destruct E as [-> E].
    apply pfx_string in E; [|assumption|assumption]. destruct E as [-> E].
    apply app_inj_tail_len in E; [|unfold zlen in O3, O3'; lia]. destruct E as [-> ->]. reflexivity.
  - exfalso. specialize (A eq_refl). rewrite <- (map_length the_input) in A. destruct (nth_error_lt _ _ A) as [i N]. rewrite N in *.
    assert (input_ok i) as O by (rewrite Forall_forall in F; apply F; eapply nth_error_In; exact N). destruct O as [O1 _]. norm_spec.
    apply (f_equal zlen) in E. rewrite zlen_app in E. change (zlen []) with 0 in E. pose proof (zlen_nonneg (in_index i ++ string_wire s ++ v ++ in_sequence i)). lia.
  - exfalso. specialize (A' eq_refl). rewrite <- (map_length the_input) in A'. destruct (nth_error_lt _ _ A') as [i N]. rewrite N in *.
    assert (input_ok i) as O by (rewrite Forall_forall in F'; apply F'; eapply nth_error_In; exact N). destruct O as [O1 _]. norm_spec.
    apply (f_equal zlen) in E. rewrite zlen_app in E. change (zlen []) with 0 in E. pose proof (zlen_nonneg (in_index i ++ string_wire s' ++ v' ++ in_sequence i)). lia.
  - reflexivity.
Qed.
(* lists that are not hashed when empty *)
Lemma list_hash_bind {A B} (m : list A -> bytes * bytes) (m' : list B -> bytes * bytes) l z (x : list A) (y : list B) :
  match x with [] => zero32 | _ => blake_of H (m x) end = match y with [] => zero32 | _ => blake_of H (m' y) end ->
  (x <> [] -> In (m x) l /\ In (m x) z) -> (y <> [] -> In (m' y) l /\ In (m' y) z) ->
  (blake_collision H l \/ blake_zero H z) \/ (x = [] /\ y = [] \/ x <> [] /\ y <> [] /\ m x = m' y).
Proof.
  intros E I I'. destruct x as [|a x], y as [|b y].
  - auto.
  - left. right. exists (m' (b :: y)). split; [apply I'; discriminate|]. symmetry. exact E.
  - left. right. exists (m (a :: x)). split; [apply I; discriminate|exact E].
  - apply (same_or_blake H l) in E; [|apply I; discriminate|apply I'; discriminate]. destruct E as [E|E]; [|auto]. right. right. split; [discriminate|]. split; [discriminate|exact E].
Qed.
End Parts.
Lemma zip_type_inj ty a ty' a' : zip_type ty a = zip_type ty' a' -> ty = ty' /\ a = a'.
Proof. destruct ty, a, ty', a'; intros E; try discriminate E; auto. Qed.

Section Bind.
Context (H : hashes) (Hok : hashes_ok H).
Definition short_script (r : zrequest) : Prop := forall s v, zr_signed r = Some (s, v) -> len s < 2 ^ 64.

Lemma sequences_hash_len r ins : zlen (sequences_hash H r ins) = 32.
Proof using Hok. unfold sequences_hash. destruct (seen_sequences r ins); [apply blake_len, Hok|reflexivity]. Qed.
Lemma prevouts_len a ins : zlen (zip_prevouts H a ins) = 32.
Proof using Hok. unfold zip_prevouts. destruct a; [reflexivity|]. rewrite personal_of. apply blake_len, Hok. Qed.
Lemma outputs_len ty n outs : zlen (zip_outputs H ty n outs) = 32.
Proof using Hok. unfold zip_outputs. destruct ty; [|reflexivity|destruct (nth_error outs n); [|reflexivity]]; rewrite personal_of; apply blake_len, Hok. Qed.
Lemma joinsplits_len {A} (w : A -> bytes) l key : zlen (zip_joinsplits H w l key) = 32.
Proof using Hok. unfold zip_joinsplits. destruct l; [reflexivity|]. rewrite personal_of. apply blake_len, Hok. Qed.
Lemma spends_len l : zlen (zip_spends H l) = 32.
Proof using Hok. unfold zip_spends. destruct l; [reflexivity|]. rewrite personal_of. apply blake_len, Hok. Qed.
Lemma shielded_len l : zlen (zip_shielded_outputs H l) = 32.
Proof using Hok. unfold zip_shielded_outputs. destruct l; [reflexivity|]. rewrite personal_of. apply blake_len, Hok. Qed.

Lemma sprout_js_len net j : sprout_joinsplit_obj net j -> zlen (sprout_joinsplit_wire j) = 1802.
Proof. intros O. apply sprout_joinsplit_obj_iff in O. destruct O as [_ [_ [W _]]]. apply (fields_len _ W). Qed.
Lemma sapling_js_len net j : sapling_joinsplit_obj net j -> zlen (sapling_joinsplit_wire j) = 1698.
Proof. intros O. apply sapling_joinsplit_obj_iff in O. destruct O as [_ [_ [W _]]]. apply (fields_len _ W). Qed.
Lemma spend_body_len net s : spend_obj net s -> zlen (spend_body_wire s) = 320.
Proof. intros O. apply spend_body_widths in O. destruct O as [W _]. apply (fields_len _ W). Qed.
Lemma shielded_out_len net o : shielded_output_obj net o -> zlen (shielded_output_wire o) = 948.
Proof. intros O. apply shielded_output_obj_iff in O. destruct O as [_ [W _]]. apply (fields_len _ W). Qed.

Lemma key_some (k k' : option bytes) : zlen (opt k) = 32 -> zlen (opt k') = 32 -> opt k = opt k' -> k = k'.
Proof. destruct k, k'; cbn [opt]; change (zlen []) with 0; intros A B E; try lia; congruence. Qed.

Lemma ow_binds net net' t t' r r' d : overwinter_obj H net t -> overwinter_obj H net' t' -> short_script r -> short_script r' ->
  overwinter_request H net t r = Ok d -> overwinter_request H net' t' r' = Ok d ->
  (blake_collision H (overwinter_hashed H t r ++ overwinter_hashed H t' r') \/ blake_zero H (overwinter_lists t ++ overwinter_lists t')) \/
  overwinter_seen t r = overwinter_seen t' r'.
Proof using Hok.
  intros O O' C C' D D'. pose proof (ow_request_ok H net t r d O D) as A. pose proof (ow_request_ok H net' t' r' d O' D') as A'.
  rewrite (ow_request_top H net t r O A) in D. rewrite (ow_request_top H net' t' r' O' A') in D'. rewrite <- D in D'. apply Ok_inj in D'. clear D d.
  destruct (overwinter_keys H net t O) as [K0 K1]. destruct (overwinter_keys H net' t' O') as [K0' K1'].
  assert (zlen (ow_lock_time t) = 4 /\ zlen (ow_expiry_height t) = 4 /\ zlen (ow_lock_time t') = 4 /\ zlen (ow_expiry_height t') = 4) as [L1 [L2 [L3 L4]]].
  { pose proof O as Q. pose proof O' as Q'. apply overwinter_obj_iff in Q, Q'. destruct Q as [_ [_ [_ [Q _]]]], Q' as [_ [_ [_ [Q' _]]]].
    unfold ow_args_ok in Q, Q'. rewrite !andb_true_iff, !Z.eqb_eq in Q, Q'. tauto. }
  destruct O as [Fi [Fo [Fj _]]], O' as [Fi' [Fo' [Fj' _]]].
  set (L := overwinter_hashed H t r ++ overwinter_hashed H t' r'). set (Z := overwinter_lists t ++ overwinter_lists t').
  assert (forall x, In x (overwinter_hashed H t r) -> In x L) as IL by (intros x I; apply in_or_app; auto).
  assert (forall x, In x (overwinter_hashed H t' r') -> In x L) as IL' by (intros x I; apply in_or_app; auto).
  apply (same_or_blake H L) in D'; [|apply IL'; left; reflexivity|apply IL; left; reflexivity].
  destruct D' as [E|E]; [|left; left; exact E]. apply (f_equal snd) in E. cbn [overwinter_top snd] in E. unfold zip143_with in E.
  apply app_inv_head in E.
  apply app_inj_zlen in E; [|rewrite !prevouts_len; reflexivity]. destruct E as [E1 E].
  apply app_inj_zlen in E; [|rewrite !sequences_hash_len; reflexivity]. destruct E as [E2 E].
  apply app_inj_zlen in E; [|rewrite !outputs_len; reflexivity]. destruct E as [E3 E].
  apply app_inj_zlen in E; [|rewrite !joinsplits_len; reflexivity]. destruct E as [E4 E].
  apply app_inj_zlen in E; [|lia]. destruct E as [E5 E]. apply app_inj_zlen in E; [|lia]. destruct E as [E6 E].
  apply app_inj_zlen in E; [|reflexivity]. destruct E as [E7 E]. apply zip_type_inj in E7. destruct E7 as [T1 T2].
  destruct (prevouts_bind H L r' r _ _ Fi' Fi T2 E1) as [B|B1]; [apply IL'; right; left; reflexivity|apply IL; right; left; reflexivity|left; left; exact B|].
  destruct (sequences_bind H L r' r _ _ Fi' Fi T1 T2 E2) as [B|B2]; [apply IL'; do 2 right; left; reflexivity|apply IL; do 2 right; left; reflexivity|left; left; exact B|].
  destruct (outputs_bind H L r' r _ _ _ _ Fo' Fo A' A T1 E3) as [B|B3]; [apply IL'; do 3 right; left; reflexivity|apply IL; do 3 right; left; reflexivity|left; left; exact B|].
  pose proof (signed_bind r' r _ _ _ _ Fi' Fi A' A C' C E) as B4.
  unfold zip_joinsplits in E4.
  destruct (list_hash_bind H (fun l => joinsplits_message sprout_joinsplit_wire l (ow_joinsplit_pubkey t')) (fun l => joinsplits_message sprout_joinsplit_wire l (ow_joinsplit_pubkey t)) L Z _ _ E4) as [B|B].
  { intros N. assert (In (joinsplits_message sprout_joinsplit_wire (ow_tx_joinsplits t') (ow_joinsplit_pubkey t')) (overwinter_lists t')) as I.
    { unfold overwinter_lists. destruct (ow_tx_joinsplits t'); [contradiction|left; reflexivity]. }
    split; [apply IL'; do 4 right; exact I|apply in_or_app; right; exact I]. }
  { intros N. assert (In (joinsplits_message sprout_joinsplit_wire (ow_tx_joinsplits t) (ow_joinsplit_pubkey t)) (overwinter_lists t)) as I.
    { unfold overwinter_lists. destruct (ow_tx_joinsplits t); [contradiction|left; reflexivity]. }
    split; [apply IL; do 4 right; exact I|apply in_or_app; left; exact I]. }
  { left; exact B. }
  assert (ow_tx_joinsplits t' = ow_tx_joinsplits t /\ ow_joinsplit_pubkey t' = ow_joinsplit_pubkey t) as [B5 B6].
  { destruct B as [[X Y]|[X [Y B]]].
    - split; [congruence|]. destruct (K0 Y) as [-> _]. destruct (K0' X) as [-> _]. reflexivity.
    - destruct (K1 Y) as [K _]. destruct (K1' X) as [K' _]. apply (f_equal snd) in B. cbn [joinsplits_message snd] in B.
      destruct (fixed_inj sprout_joinsplit_wire sprout_joinsplit_wire (fun j => j) (fun j => j) (sprout_joinsplit_obj net') (sprout_joinsplit_obj net) 1802 ltac:(lia)
        (sprout_js_len net') (sprout_js_len net) (sprout_joinsplit_inj net' net) _ _ _ _ Fj' Fj (eq_trans K' (eq_sym K)) B) as [M K2].
      rewrite !map_id in M. split; [exact M|]. apply key_some; assumption. }
  right. unfold overwinter_seen. rewrite B1, B2, B3, B4, B5, B6, E5, E6, T1, T2. reflexivity.
Qed.

Lemma sa_binds net net' t t' r r' d : sapling_obj H net t -> sapling_obj H net' t' -> short_script r -> short_script r' ->
  sapling_request H net t r = Ok d -> sapling_request H net' t' r' = Ok d ->
  (blake_collision H (sapling_hashed H t r ++ sapling_hashed H t' r') \/ blake_zero H (sapling_lists t ++ sapling_lists t')) \/
  sapling_seen t r = sapling_seen t' r'.
Proof using Hok.
  intros O O' C C' D D'. pose proof (sa_request_ok H net t r d O D) as A. pose proof (sa_request_ok H net' t' r' d O' D') as A'.
  rewrite (sa_request_top H net t r O A) in D. rewrite (sa_request_top H net' t' r' O' A') in D'. rewrite <- D in D'. apply Ok_inj in D'. clear D d.
  destruct (sapling_keys H net t O) as [K0 [K1 _]]. destruct (sapling_keys H net' t' O') as [K0' [K1' _]].
  assert (zlen (sa_lock_time t) = 4 /\ zlen (sa_expiry_height t) = 4 /\ zlen (sa_lock_time t') = 4 /\ zlen (sa_expiry_height t') = 4 /\
          zlen (sa_value_balance t) = 8 /\ zlen (sa_value_balance t') = 8) as [L1 [L2 [L3 [L4 [L5 L6]]]]].
  { pose proof O as Q. pose proof O' as Q'. apply sapling_obj_iff in Q, Q'. destruct Q as [_ [_ [_ [_ [_ [Q _]]]]]], Q' as [_ [_ [_ [_ [_ [Q' _]]]]]].
    unfold sa_args_ok in Q, Q'. rewrite !andb_true_iff, !Z.eqb_eq in Q, Q'. tauto. }
  destruct O as [Fi [Fo [Fs [Fu [Fj _]]]]], O' as [Fi' [Fo' [Fs' [Fu' [Fj' _]]]]].
  set (L := sapling_hashed H t r ++ sapling_hashed H t' r'). set (Z := sapling_lists t ++ sapling_lists t').
  assert (forall x, In x (sapling_hashed H t r) -> In x L) as IL by (intros x I; apply in_or_app; auto).
  assert (forall x, In x (sapling_hashed H t' r') -> In x L) as IL' by (intros x I; apply in_or_app; auto).
  assert (forall x, In x (sapling_lists t) -> In x L /\ In x Z) as IZ by (intros x I; split; [apply IL; do 4 right; exact I|apply in_or_app; auto]).
  assert (forall x, In x (sapling_lists t') -> In x L /\ In x Z) as IZ' by (intros x I; split; [apply IL'; do 4 right; exact I|apply in_or_app; auto]).
  apply (same_or_blake H L) in D'; [|apply IL'; left; reflexivity|apply IL; left; reflexivity].
  destruct D' as [E|E]; [|left; left; exact E]. apply (f_equal snd) in E. cbn [sapling_top snd] in E. unfold zip243_with in E.
  apply app_inv_head in E.
  apply app_inj_zlen in E; [|rewrite !prevouts_len; reflexivity]. destruct E as [E1 E].
  apply app_inj_zlen in E; [|rewrite !sequences_hash_len; reflexivity]. destruct E as [E2 E].
  apply app_inj_zlen in E; [|rewrite !outputs_len; reflexivity]. destruct E as [E3 E].
  apply app_inj_zlen in E; [|rewrite !joinsplits_len; reflexivity]. destruct E as [E4 E].
  apply app_inj_zlen in E; [|rewrite !spends_len; reflexivity]. destruct E as [E8 E].
  apply app_inj_zlen in E; [|rewrite !shielded_len; reflexivity]. destruct E as [E9 E].
  apply app_inj_zlen in E; [|lia]. destruct E as [E5 E]. apply app_inj_zlen in E; [|lia]. destruct E as [E6 E].
  apply app_inj_zlen in E; [|lia]. destruct E as [E10 E].
  apply app_inj_zlen in E; [|reflexivity]. destruct E as [E7 E]. apply zip_type_inj in E7. destruct E7 as [T1 T2].
  destruct (prevouts_bind H L r' r _ _ Fi' Fi T2 E1) as [B|B1]; [apply IL'; right; left; reflexivity|apply IL; right; left; reflexivity|left; left; exact B|].
  destruct (sequences_bind H L r' r _ _ Fi' Fi T1 T2 E2) as [B|B2]; [apply IL'; do 2 right; left; reflexivity|apply IL; do 2 right; left; reflexivity|left; left; exact B|].
  destruct (outputs_bind H L r' r _ _ _ _ Fo' Fo A' A T1 E3) as [B|B3]; [apply IL'; do 3 right; left; reflexivity|apply IL; do 3 right; left; reflexivity|left; left; exact B|].
  pose proof (signed_bind r' r _ _ _ _ Fi' Fi A' A C' C E) as B4.
  unfold zip_joinsplits in E4.
  destruct (list_hash_bind H (fun l => joinsplits_message sapling_joinsplit_wire l (sa_joinsplit_pubkey t')) (fun l => joinsplits_message sapling_joinsplit_wire l (sa_joinsplit_pubkey t)) L Z _ _ E4) as [B|B].
  { intros N. apply IZ'. unfold sapling_lists. apply in_or_app. left. destruct (sa_tx_joinsplits t'); [contradiction|left; reflexivity]. }
  { intros N. apply IZ. unfold sapling_lists. apply in_or_app. left. destruct (sa_tx_joinsplits t); [contradiction|left; reflexivity]. }
  { left; exact B. }
  assert (sa_tx_joinsplits t' = sa_tx_joinsplits t /\ sa_joinsplit_pubkey t' = sa_joinsplit_pubkey t) as [B5 B6].
  { destruct B as [[X Y]|[X [Y B]]].
    - split; [congruence|]. destruct (K0 Y) as [-> _]. destruct (K0' X) as [-> _]. reflexivity.
    - destruct (K1 Y) as [k [sg [Ek [_ [Wk _]]]]]. destruct (K1' X) as [k' [sg' [Ek' [_ [Wk' _]]]]]. apply (f_equal snd) in B. cbn [joinsplits_message snd] in B.
      rewrite Ek, Ek' in *. cbn [opt] in B.
      destruct (fixed_inj sapling_joinsplit_wire sapling_joinsplit_wire (fun j => j) (fun j => j) (sapling_joinsplit_obj net') (sapling_joinsplit_obj net) 1698 ltac:(lia)
        (sapling_js_len net') (sapling_js_len net) (sapling_joinsplit_inj net' net) _ _ _ _ Fj' Fj (eq_trans Wk' (eq_sym Wk)) B) as [M K2].
      rewrite !map_id in M. split; [exact M|]. congruence. }
  unfold zip_spends in E8.
  destruct (list_hash_bind H spends_message spends_message L Z _ _ E8) as [Bs|Bs].
  { intros N. apply IZ'. unfold sapling_lists. apply in_or_app. right. apply in_or_app. left. destruct (sa_tx_shielded_spends t'); [contradiction|left; reflexivity]. }
  { intros N. apply IZ. unfold sapling_lists. apply in_or_app. right. apply in_or_app. left. destruct (sa_tx_shielded_spends t); [contradiction|left; reflexivity]. }
  { left; exact Bs. }
  assert (map unsigned_spend (sa_tx_shielded_spends t') = map unsigned_spend (sa_tx_shielded_spends t)) as B7.
  { destruct Bs as [[-> ->]|[_ [_ Bs]]]; [reflexivity|]. apply (f_equal snd) in Bs. cbn [spends_message snd] in Bs. apply (f_equal (fun l => l ++ [])) in Bs.
    apply (fixed_inj spend_body_wire spend_body_wire unsigned_spend unsigned_spend (spend_obj net') (spend_obj net) 320 ltac:(lia)
        (spend_body_len net') (spend_body_len net) (spend_body_inj net' net) _ _ [] [] Fs' Fs eq_refl Bs). }
  unfold zip_shielded_outputs in E9.
  destruct (list_hash_bind H shielded_message shielded_message L Z _ _ E9) as [Bu|Bu].
  { intros N. apply IZ'. unfold sapling_lists. apply in_or_app. right. apply in_or_app. right. destruct (sa_tx_shielded_outputs t'); [contradiction|left; reflexivity]. }
  { intros N. apply IZ. unfold sapling_lists. apply in_or_app. right. apply in_or_app. right. destruct (sa_tx_shielded_outputs t); [contradiction|left; reflexivity]. }
  { left; exact Bu. }
  assert (sa_tx_shielded_outputs t' = sa_tx_shielded_outputs t) as B8.
  { destruct Bu as [[-> ->]|[_ [_ Bu]]]; [reflexivity|]. apply (f_equal snd) in Bu. cbn [shielded_message snd] in Bu. apply (f_equal (fun l => l ++ [])) in Bu.
    destruct (fixed_inj shielded_output_wire shielded_output_wire (fun j => j) (fun j => j) (shielded_output_obj net') (shielded_output_obj net) 948 ltac:(lia)
        (shielded_out_len net') (shielded_out_len net) (shielded_output_inj net' net) _ _ [] [] Fu' Fu eq_refl Bu) as [M _]. rewrite !map_id in M. exact M. }
  right. unfold sapling_seen. rewrite B1, B2, B3, B4, B5, B6, B7, B8, E5, E6, E10, T1, T2. reflexivity.
Qed.
End Bind.

(** * nothing else matters *)
Section Ignore.
Context (H : hashes).
Lemma prevouts_seen r r' ins ins' : zr_anyone r = zr_anyone r' -> seen_outpoints r ins = seen_outpoints r' ins' ->
  zip_prevouts H (zr_anyone r) ins = zip_prevouts H (zr_anyone r') ins'.
Proof.
  intros A E. unfold zip_prevouts, seen_outpoints in *. rewrite <- A in *. destruct (zr_anyone r); [reflexivity|]. injection E as E. do 2 f_equal.
  apply (f_equal (map (fun p => fst p ++ snd p))) in E. rewrite !map_map. repeat rewrite map_map in E. exact E.
Qed.
Lemma sequences_seen r r' ins ins' : seen_sequences r ins = seen_sequences r' ins' -> sequences_hash H r ins = sequences_hash H r' ins'.
Proof.
  intros E. unfold sequences_hash. rewrite <- E. destruct (seen_sequences r ins) as [s|] eqn:X; [|reflexivity]. symmetry in E.
  assert (forall r ins s, seen_sequences r ins = Some s -> s = map in_sequence (map the_input ins)) as F.
  { intros q i u Y. unfold seen_sequences in Y. destruct (zr_type q), (zr_anyone q); congruence. }
  apply F in X, E. unfold sequences_message. rewrite <- X, <- E. reflexivity.
Qed.
Lemma outputs_seen r r' ins ins' outs outs' : answerable ins outs r -> answerable ins' outs' r' -> zr_type r = zr_type r' -> seen_outputs r outs = seen_outputs r' outs' ->
  zip_outputs H (zr_type r) (zr_place r) outs = zip_outputs H (zr_type r') (zr_place r') outs'.
Proof. intros A A' T E. rewrite (outputs_hash H _ _ _ A), (outputs_hash H _ _ _ A'), <- T, E. reflexivity. Qed.
Lemma signed_seen r r' ins ins' : seen_input r ins = seen_input r' ins' -> signed_part r ins = signed_part r' ins'.
Proof. intros E. unfold signed_part. rewrite E. reflexivity. Qed.
Lemma spends_seen l l' : map unsigned_spend l = map unsigned_spend l' -> zip_spends H l = zip_spends H l'.
Proof.
  intros E. assert (map spend_body_wire l = map spend_body_wire l') as W.
  { apply (f_equal (map (fun p => let '(a, b, c, d, z) := p in fields_wire [(a, 32); (b, 32); (c, 32); (d, 32); (sapling_proof_wire z, 192)]))) in E.
    rewrite !map_map in E. exact E. }
  unfold zip_spends. rewrite W. destruct l, l'; try discriminate; reflexivity.
Qed.

Lemma ow_ignores net net' t t' r r' : overwinter_obj H net t -> overwinter_obj H net' t' ->
  answerable (ow_tx_ins t) (ow_tx_outs t) r -> answerable (ow_tx_ins t') (ow_tx_outs t') r' ->
  overwinter_seen t r = overwinter_seen t' r' -> overwinter_request H net t r = overwinter_request H net' t' r'.
Proof.
  intros O O' A A' E. rewrite (ow_request_top H net t r O A), (ow_request_top H net' t' r' O' A'). f_equal. unfold overwinter_top. f_equal. f_equal.
  unfold overwinter_seen in E. injection E as E1 E2 E3 E4 E5 E6 E7 E8 E9 E10. unfold zip143_with.
  rewrite (prevouts_seen r r' _ _ E2 E3), (sequences_seen r r' _ _ E4), (outputs_seen r r' _ _ _ _ A A' E1 E5), (signed_seen r r' _ _ E10), E1, E2, E6, E7, E8, E9. reflexivity.
Qed.
Lemma sa_ignores net net' t t' r r' : sapling_obj H net t -> sapling_obj H net' t' ->
  answerable (sa_tx_ins t) (sa_tx_outs t) r -> answerable (sa_tx_ins t') (sa_tx_outs t') r' ->
  sapling_seen t r = sapling_seen t' r' -> sapling_request H net t r = sapling_request H net' t' r'.
Proof.
  intros O O' A A' E. rewrite (sa_request_top H net t r O A), (sa_request_top H net' t' r' O' A'). f_equal. unfold sapling_top. f_equal. f_equal.
  unfold sapling_seen in E. injection E as E1 E2 E3 E4 E5 E6 E7 E8 E9 E10 E11 E12 E13. unfold zip243_with.
  rewrite (prevouts_seen r r' _ _ E2 E3), (sequences_seen r r' _ _ E4), (outputs_seen r r' _ _ _ _ A A' E1 E5), (signed_seen r r' _ _ E13), (spends_seen _ _ E11), E1, E2, E6, E7, E8, E9, E10, E12. reflexivity.
Qed.

Lemma eras_differ net net' t t' r r' d : overwinter_obj H net t -> sapling_obj H net' t' -> overwinter_request H net t r = Ok d -> sapling_request H net' t' r' = Ok d ->
  blake_collision H [overwinter_top H t r; sapling_top H t' r'].
Proof.
  intros O O' D D'. rewrite (ow_request_top H net t r O (ow_request_ok H net t r d O D)) in D. rewrite (sa_request_top H net' t' r' O' (sa_request_ok H net' t' r' d O' D')) in D'.
  exists (overwinter_top H t r), (sapling_top H t' r'). split; [left; reflexivity|]. split; [right; left; reflexivity|]. split; [|congruence].
  intros E. apply (f_equal fst) in E. discriminate E.
Qed.
End Ignore.
