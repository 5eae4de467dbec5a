(* Lemmas about MZcash.v: shielded parts *)
From Coq Require Import String.
From Verif Require Import Py LBase MNet MUtils MShared MScript MTx MZcash SNum SNet SHash SScript STx SZcash LNet LUtils LVarint LTx LTxParse.
Open Scope list_scope.
Open Scope Z_scope.
Ltac Zify.zify_post_hook ::= idtac.

(** * names *)

Lemma net_has_names (s : str) (l : list str) :
  forallb (fun p => Bool.eqb (contains (get_current_network_name (snd p)) s) (str_mem (fst p) l)) SUPPORTED = true ->
  forall name net, get_network name = Ok net -> net_has net s = true <-> In name l.
Proof.
  intros F name net E. rewrite <- str_mem_In. unfold net_has.
  rewrite (Bool.eqb_prop _ _ (supported_forall (fun n t => Bool.eqb (contains (get_current_network_name t) s) (str_mem n l)) F name net E)).
  tauto.
Qed.
Lemma zcash_has name net : get_network name = Ok net -> net_has net (lit "zcash") = true <-> In name zcash_names.
Proof. revert name net. apply net_has_names. vm_compute. reflexivity. Qed.
Lemma sprout_has name net : get_network name = Ok net -> net_has net (lit "sprout") = true <-> In name sprout_names.
Proof. revert name net. apply net_has_names. vm_compute. reflexivity. Qed.
Lemma overwinter_has name net : get_network name = Ok net -> net_has net (lit "overwinter") = true <-> In name overwinter_names.
Proof. revert name net. apply net_has_names. vm_compute. reflexivity. Qed.
Lemma sapling_has name net : get_network name = Ok net -> net_has net (lit "sapling") = true <-> In name sapling_names.
Proof. revert name net. apply net_has_names. vm_compute. reflexivity. Qed.

(** * layouts *)

Fixpoint cuts (o : Z) (ws : list Z) (s : bytes) : list bytes :=
  match ws with [] => [] | w :: ws => slice s o (o + w) :: cuts (o + w) ws s end.

Lemma cuts_from pre l rest : widths_ok l -> cuts (zlen pre) (map snd l) (pre ++ fields_wire l ++ rest) = map fst l.
Proof.
  intros W. revert pre. induction W as [|[b w] l E W IH]; intros pre; [reflexivity|].
  cbn [fst snd] in E. norm_spec. unfold fields_wire. cbn [map fst snd cuts concat]. fold (fields_wire l). rewrite <- app_assoc. f_equal.
  - apply slice_app; [reflexivity|]. rewrite E. lia.
  - rewrite app_assoc, <- E, <- zlen_app. apply IH.
Qed.
Lemma cuts_wire l rest : widths_ok l -> cuts 0 (map snd l) (fields_wire l ++ rest) = map fst l.
Proof. intros W. apply (cuts_from [] l rest W). Qed.

Lemma firstn_plus {A} (l : list A) m k : firstn (m + k) l = firstn m l ++ firstn k (skipn m l).
Proof. revert l. induction m as [|m IH]; intros [|x l]; cbn; rewrite ?firstn_nil; try reflexivity. rewrite IH. reflexivity. Qed.

Lemma slice_slice_app (s : bytes) a b c : 0 <= a <= b -> b <= c -> slice s a b ++ slice s b c = slice s a c.
Proof.
  intros A B. rewrite !slice_firstn by lia.
  replace (Z.to_nat (c - a)) with (Z.to_nat (b - a) + Z.to_nat (c - b))%nat by lia.
  rewrite firstn_plus, skipn_skipn. replace (Z.to_nat a + Z.to_nat (b - a))%nat with (Z.to_nat b) by lia. reflexivity.
Qed.

Lemma concat_cuts ws : forall o s, 0 <= o -> Forall (fun w => 0 <= w) ws ->
  concat (cuts o ws s) = slice s o (o + fold_right Z.add 0 ws).
Proof.
  induction ws as [|w ws IH]; intros o s O F; cbn [cuts concat fold_right].
  - rewrite Z.add_0_r, slice_firstn by lia. rewrite Z.sub_diag. reflexivity.
  - inversion F as [|? ? Fw Fs]; subst. rewrite IH by (assumption || lia).
    assert (0 <= fold_right Z.add 0 ws) by (clear -Fs; induction Fs; cbn [fold_right]; lia).
    rewrite slice_slice_app by lia. f_equal. lia.
Qed.

Lemma fields_len l : widths_ok l -> zlen (fields_wire l) = width l.
Proof.
  unfold fields_wire, width. induction 1 as [|[b w] l E W IH]; [reflexivity|].
  cbn [map concat fst snd fold_right] in *. norm_spec. rewrite zlen_app, IH, E. reflexivity.
Qed.

(** * parts: constructors and parsers *)

Ltac nonneg := match goal with |- Forall _ _ => repeat (constructor; [lia|]); constructor end.
(* all the slices that a parser takes, at once *)
Ltac cut_all ws s E := pose proof (concat_cuts ws 0 s) as E; cbn [cuts map snd Z.add Pos.add Pos.succ Pos.add_carry fold_right concat] in E;
  specialize (E ltac:(lia) ltac:(nonneg)); rewrite ?app_nil_r in E.

Lemma rest_of (s : bytes) b w : slice s 0 w = b -> zlen b = w -> exists rest, s = b ++ rest.
Proof.
  intros E L. exists (skipn (Z.to_nat w) s). pose proof (zlen_nonneg b).
  rewrite <- (firstn_skipn (Z.to_nat w) s) at 1. f_equal. rewrite <- E, slice_firstn by lia. rewrite Z.sub_0_r. reflexivity.
Qed.

Ltac all_widths := repeat match goal with |- context [zlen ?x =? ?n] => destruct (zlen x =? n); [|reflexivity]; cbn [negb bind andb] end.
Ltac all_widths_spec := repeat match goal with |- context [zlen ?x =? ?n] => destruct (Z.eqb_spec (zlen x) n); [|discriminate]; cbn [andb] end.
Ltac use_widths := repeat match goal with W : Forall _ (_ :: _) |- _ => inversion W; clear W; subst end; cbn [fst snd] in *;
  repeat match goal with E : ?x = ?n |- context [?x =? ?n] => rewrite E at 1; rewrite Z.eqb_refl end.
Ltac give_widths := repeat (constructor; [assumption|]); constructor.
Ltac proj := cbn [zk_pi_sub_a zk_pi_prime_sub_a zk_pi_sub_b zk_pi_prime_sub_b zk_pi_sub_c
    zk_pi_prime_sub_c zk_pi_sub_k zk_pi_sub_h zk_bytes szk_pi_sub_a szk_pi_sub_b szk_pi_sub_c szk_bytes
    js_vpub_old js_vpub_new js_anchor js_nullifiers js_commitments js_ephemeral_key js_random_seed js_vmacs js_zkproof
    js_encoded_notes js_bytes ss_cv ss_anchor ss_nullifier ss_rk ss_zkproof ss_spend_auth_sig ss_bytes
    so_cv so_cmu so_ephemeral_key so_enc_ciphertext so_out_ciphertext so_zkproof so_bytes map fst snd concat app].

Section Parts.
Context (net : network).
Let zc : bool := net_has net (lit "zcash").

Lemma SproutZkproof_spec a b c d e f g h : SproutZkproof net a b c d e f g h =
  if zc && (zlen a =? 33) && (zlen b =? 33) && (zlen c =? 65) && (zlen d =? 33) && (zlen e =? 33) && (zlen f =? 33)
     && (zlen g =? 33) && (zlen h =? 33)
  then Ok {| zk_pi_sub_a := a; zk_pi_prime_sub_a := b; zk_pi_sub_b := c; zk_pi_prime_sub_b := d; zk_pi_sub_c := e;
             zk_pi_prime_sub_c := f; zk_pi_sub_k := g; zk_pi_sub_h := h;
             zk_bytes := a ++ b ++ c ++ d ++ e ++ f ++ g ++ h |}
  else Err ValueError.
Proof.
  unfold SproutZkproof, zcash_only, vb, validate_bytes, guard. fold zc. destruct zc; [|reflexivity]. all_widths. reflexivity.
Qed.

Lemma sprout_proof_obj_iff p : sprout_proof_obj net p <->
  zc = true /\ widths_ok (sprout_proof_fields p) /\ zk_bytes p = sprout_proof_wire p.
Proof.
  unfold sprout_proof_obj. rewrite SproutZkproof_spec. unfold widths_ok, sprout_proof_wire, fields_wire, sprout_proof_fields.
  destruct p as [a b c d e f g h bs]. proj. rewrite app_nil_r. norm_spec. split.
  - destruct zc; [|discriminate]. all_widths_spec.
    intros E. apply Ok_inj in E. injection E as <-. split; [reflexivity|]. split; [give_widths|reflexivity].
  - intros [-> [W ->]]. use_widths. reflexivity.
Qed.

Lemma SproutZkproof_obj a b c d e f g h p : SproutZkproof net a b c d e f g h = Ok p ->
  sprout_proof_obj net p /\ map fst (sprout_proof_fields p) = [a; b; c; d; e; f; g; h].
Proof.
  intros E. unfold sprout_proof_obj. pose proof E as E'. rewrite SproutZkproof_spec in E'.
  destruct (_ && _) in E'; [|discriminate]. apply Ok_inj in E'. subst p. split; [exact E|reflexivity].
Qed.

Lemma sprout_proof_parse p rest : sprout_proof_obj net p -> SproutZkproof_from_bytes net (zk_bytes p ++ rest) = Ok p.
Proof.
  intros O. pose proof O as O'. apply sprout_proof_obj_iff in O'. destruct O' as [_ [W ->]].
  pose proof (cuts_wire _ rest W) as E. fold (sprout_proof_wire p) in E.
  cbn [map snd sprout_proof_fields cuts Z.add Pos.add Pos.succ Pos.add_carry fst] in E.
  injection E; intros. unfold SproutZkproof_from_bytes.
  repeat match goal with E : slice _ _ _ = _ |- _ => rewrite E; clear E end. exact O.
Qed.

Lemma sprout_proof_parse_inv s p : SproutZkproof_from_bytes net s = Ok p ->
  sprout_proof_obj net p /\ exists rest, s = zk_bytes p ++ rest.
Proof.
  intros E. apply SproutZkproof_obj in E. destruct E as [O E]. split; [exact O|].
  apply sprout_proof_obj_iff in O. destruct O as [_ [W ->]]. apply (rest_of s _ 296); [|apply (fields_len _ W)].
  unfold sprout_proof_wire, fields_wire. rewrite E. cut_all [33; 33; 65; 33; 33; 33; 33; 33] s C.
  cbn [concat]. rewrite app_nil_r. symmetry. exact C.
Qed.

Lemma SaplingZkproof_spec a b c : SaplingZkproof net a b c =
  if zc && (zlen a =? 48) && (zlen b =? 96) && (zlen c =? 48)
  then Ok {| szk_pi_sub_a := a; szk_pi_sub_b := b; szk_pi_sub_c := c; szk_bytes := a ++ b ++ c |}
  else Err ValueError.
Proof.
  unfold SaplingZkproof, zcash_only, vb, validate_bytes, guard. fold zc. destruct zc; [|reflexivity]. all_widths. reflexivity.
Qed.

Lemma sapling_proof_obj_iff p : sapling_proof_obj net p <->
  zc = true /\ widths_ok (sapling_proof_fields p) /\ szk_bytes p = sapling_proof_wire p.
Proof.
  unfold sapling_proof_obj. rewrite SaplingZkproof_spec. unfold widths_ok, sapling_proof_wire, fields_wire, sapling_proof_fields.
  destruct p as [a b c bs]. proj. rewrite app_nil_r. norm_spec. split.
  - destruct zc; [|discriminate]. all_widths_spec.
    intros E. apply Ok_inj in E. injection E as <-. split; [reflexivity|]. split; [give_widths|reflexivity].
  - intros [-> [W ->]]. use_widths. reflexivity.
Qed.

Lemma SaplingZkproof_obj a b c p : SaplingZkproof net a b c = Ok p ->
  sapling_proof_obj net p /\ map fst (sapling_proof_fields p) = [a; b; c].
Proof.
  intros E. unfold sapling_proof_obj. pose proof E as E'. rewrite SaplingZkproof_spec in E'.
  destruct (_ && _) in E'; [|discriminate]. apply Ok_inj in E'. subst p. split; [exact E|reflexivity].
Qed.

Lemma sapling_proof_parse p rest : sapling_proof_obj net p -> SaplingZkproof_from_bytes net (szk_bytes p ++ rest) = Ok p.
Proof.
  intros O. pose proof O as O'. apply sapling_proof_obj_iff in O'. destruct O' as [_ [W ->]].
  pose proof (cuts_wire _ rest W) as E. fold (sapling_proof_wire p) in E.
  cbn [map snd sapling_proof_fields cuts Z.add Pos.add Pos.succ Pos.add_carry fst] in E.
  injection E; intros. unfold SaplingZkproof_from_bytes.
  repeat match goal with E : slice _ _ _ = _ |- _ => rewrite E; clear E end. exact O.
Qed.

Lemma sapling_proof_parse_inv s p : SaplingZkproof_from_bytes net s = Ok p ->
  sapling_proof_obj net p /\ exists rest, s = szk_bytes p ++ rest.
Proof.
  intros E. apply SaplingZkproof_obj in E. destruct E as [O E]. split; [exact O|].
  apply sapling_proof_obj_iff in O. destruct O as [_ [W ->]]. apply (rest_of s _ 192); [|apply (fields_len _ W)].
  unfold sapling_proof_wire, fields_wire. rewrite E. cut_all [48; 96; 48] s C.
  cbn [concat]. rewrite app_nil_r. symmetry. exact C.
Qed.

(* joinsplits *)
Definition vpubs (o n : bytes) : bool := (le_value o =? 0) || (le_value n =? 0).
Lemma Joinsplit_spec {P} (pb : P -> bytes) o n a nf cm ek rs vm zk en : Joinsplit net pb o n a nf cm ek rs vm zk en =
  if zc && vpubs o n && (zlen o =? 8) && (zlen n =? 8) && (zlen a =? 32) && (zlen nf =? 64) && (zlen cm =? 64)
     && (zlen ek =? 32) && (zlen rs =? 32) && (zlen vm =? 64) && (zlen en =? 1202)
  then Ok {| js_vpub_old := o; js_vpub_new := n; js_anchor := a; js_nullifiers := nf; js_commitments := cm;
             js_ephemeral_key := ek; js_random_seed := rs; js_vmacs := vm; js_zkproof := zk; js_encoded_notes := en;
             js_bytes := o ++ n ++ a ++ nf ++ cm ++ ek ++ rs ++ vm ++ pb zk ++ en |}
  else Err ValueError.
Proof.
  unfold Joinsplit, zcash_only, vb, validate_bytes, guard. fold zc. destruct zc; [|reflexivity]. cbn [negb bind andb].
  unfold vpubs, le2i. change (from_bytes false false o) with (from_le o). change (from_bytes false false n) with (from_le n).
  norm_spec. destruct (from_le o =? 0), (from_le n =? 0); try reflexivity; cbn [negb bind andb orb]; all_widths; reflexivity.
Qed.

Lemma one_way_vpubs {P} (j : joinsplit P) : one_way j <-> vpubs (js_vpub_old j) (js_vpub_new j) = true.
Proof. unfold one_way, vpubs. rewrite orb_true_iff, !Z.eqb_eq. tauto. Qed.

Lemma joinsplit_iff {P} (pb : P -> bytes) (w : Z) (j : joinsplit P) : zlen (pb (js_zkproof j)) = w ->
  (Joinsplit net pb (js_vpub_old j) (js_vpub_new j) (js_anchor j) (js_nullifiers j) (js_commitments j)
      (js_ephemeral_key j) (js_random_seed j) (js_vmacs j) (js_zkproof j) (js_encoded_notes j) = Ok j <->
   zc = true /\ one_way j /\ widths_ok (joinsplit_fields (fun p => (pb p, w)) j) /\
   js_bytes j = fields_wire (joinsplit_fields (fun p => (pb p, w)) j)).
Proof.
  intros L. rewrite one_way_vpubs, Joinsplit_spec. unfold widths_ok, fields_wire, joinsplit_fields.
  destruct j as [o n a nf cm ek rs vm zk en bs]. proj. cbn [js_zkproof] in L. rewrite app_nil_r. norm_spec. split.
  - destruct zc; [|discriminate]. destruct (vpubs o n); [|discriminate]. all_widths_spec.
    intros E. apply Ok_inj in E. injection E as <-. split; [reflexivity|]. split; [reflexivity|]. split; [give_widths|reflexivity].
  - intros [-> [-> [W ->]]]. use_widths. reflexivity.
Qed.

Lemma sprout_joinsplit_obj_iff j : sprout_joinsplit_obj net j <->
  sprout_proof_obj net (js_zkproof j) /\ one_way j /\ widths_ok (sprout_joinsplit_fields j) /\ js_bytes j = sprout_joinsplit_wire j.
Proof.
  unfold sprout_joinsplit_obj. split; intros [O E]; (split; [exact O|]).
  all: apply sprout_proof_obj_iff in O; destruct O as [Z [W B]].
  all: assert (zlen (zk_bytes (js_zkproof j)) = 296) as L by (rewrite B; apply (fields_len _ W)).
  - apply (joinsplit_iff _ _ _ L) in E. unfold sprout_joinsplit_wire, sprout_joinsplit_fields, joinsplit_fields in *.
    cbv beta in *. rewrite <- B. tauto.
  - apply (joinsplit_iff _ _ _ L). unfold sprout_joinsplit_wire, sprout_joinsplit_fields, joinsplit_fields in *.
    cbv beta in *. rewrite B. tauto.
Qed.
Lemma sapling_joinsplit_obj_iff j : sapling_joinsplit_obj net j <->
  sapling_proof_obj net (js_zkproof j) /\ one_way j /\ widths_ok (sapling_joinsplit_fields j) /\ js_bytes j = sapling_joinsplit_wire j.
Proof.
  unfold sapling_joinsplit_obj. split; intros [O E]; (split; [exact O|]).
  all: apply sapling_proof_obj_iff in O; destruct O as [Z [W B]].
  all: assert (zlen (szk_bytes (js_zkproof j)) = 192) as L by (rewrite B; apply (fields_len _ W)).
  - apply (joinsplit_iff _ _ _ L) in E. unfold sapling_joinsplit_wire, sapling_joinsplit_fields, joinsplit_fields in *.
    cbv beta in *. rewrite <- B. tauto.
  - apply (joinsplit_iff _ _ _ L). unfold sapling_joinsplit_wire, sapling_joinsplit_fields, joinsplit_fields in *.
    cbv beta in *. rewrite B. tauto.
Qed.

Lemma Joinsplit_fields {P} (pb : P -> bytes) o n a nf cm ek rs vm zk en j : Joinsplit net pb o n a nf cm ek rs vm zk en = Ok j ->
  js_vpub_old j = o /\ js_vpub_new j = n /\ js_anchor j = a /\ js_nullifiers j = nf /\ js_commitments j = cm /\
  js_ephemeral_key j = ek /\ js_random_seed j = rs /\ js_vmacs j = vm /\ js_zkproof j = zk /\ js_encoded_notes j = en.
Proof.
  rewrite Joinsplit_spec. destruct (_ && _); [|discriminate]. intros E. apply Ok_inj in E. subst j. proj. tauto.
Qed.

Ltac use_cuts := repeat match goal with E : slice _ _ _ = _ |- _ => rewrite E; clear E end.

Lemma sprout_joinsplit_parse j rest : sprout_joinsplit_obj net j -> SproutJoinsplit_from_bytes net (js_bytes j ++ rest) = Ok j.
Proof.
  intros O. pose proof O as O'. apply sprout_joinsplit_obj_iff in O'. destruct O' as [Op [_ [W ->]]].
  pose proof (cuts_wire _ rest W) as E. fold (sprout_joinsplit_wire j) in E. unfold sprout_joinsplit_fields, joinsplit_fields in E.
  cbn [map snd cuts Z.add Pos.add Pos.succ Pos.add_carry fst] in E.
  injection E; intros. unfold SproutJoinsplit_from_bytes. use_cuts.
  pose proof Op as Op'. apply sprout_proof_obj_iff in Op'. destruct Op' as [_ [_ B]]. rewrite <- B.
  rewrite <- (app_nil_r (zk_bytes _)), sprout_proof_parse by exact Op. cbn [bind]. apply O.
Qed.
Lemma sapling_joinsplit_parse j rest : sapling_joinsplit_obj net j -> SaplingJoinsplit_from_bytes net (js_bytes j ++ rest) = Ok j.
Proof.
  intros O. pose proof O as O'. apply sapling_joinsplit_obj_iff in O'. destruct O' as [Op [_ [W ->]]].
  pose proof (cuts_wire _ rest W) as E. fold (sapling_joinsplit_wire j) in E. unfold sapling_joinsplit_fields, joinsplit_fields in E.
  cbn [map snd cuts Z.add Pos.add Pos.succ Pos.add_carry fst] in E.
  injection E; intros. unfold SaplingJoinsplit_from_bytes. use_cuts.
  pose proof Op as Op'. apply sapling_proof_obj_iff in Op'. destruct Op' as [_ [_ B]]. rewrite <- B.
  rewrite <- (app_nil_r (szk_bytes _)), sapling_proof_parse by exact Op. cbn [bind]. apply O.
Qed.

(* a proof parsed from a slice of its width is that slice *)
Lemma proof_slice (s b rest : bytes) i j : slice s i j = b ++ rest -> 0 <= i <= j -> zlen b = j - i -> slice s i j = b.
Proof.
  intros E I L. pose proof (zlen_slice s i j) as Z. rewrite E in *. rewrite zlen_app in Z. pose proof (zlen_nonneg rest).
  assert (zlen rest = 0) by lia. assert (rest = []) as -> by (apply zlen_0; assumption). apply app_nil_r.
Qed.

Lemma sprout_joinsplit_parse_inv s j : SproutJoinsplit_from_bytes net s = Ok j ->
  sprout_joinsplit_obj net j /\ exists rest, s = js_bytes j ++ rest.
Proof.
  unfold SproutJoinsplit_from_bytes. intros E. destruct (SproutZkproof_from_bytes net (slice s 304 600)) as [zk|] eqn:Z; [|discriminate].
  cbn [bind] in E. apply sprout_proof_parse_inv in Z. destruct Z as [Op [r R]].
  pose proof (Joinsplit_fields _ _ _ _ _ _ _ _ _ _ _ _ E) as [F1 [F2 [F3 [F4 [F5 [F6 [F7 [F8 [F9 F10]]]]]]]]].
  assert (sprout_joinsplit_obj net j) as O.
  { split; rewrite F9; [exact Op|]. rewrite F1, F2, F3, F4, F5, F6, F7, F8, F10. exact E. }
  split; [exact O|]. apply sprout_joinsplit_obj_iff in O. destruct O as [_ [_ [W ->]]].
  apply (rest_of s _ 1802); [|apply (fields_len _ W)].
  pose proof Op as Op'. apply sprout_proof_obj_iff in Op'. destruct Op' as [_ [Wp B]].
  apply proof_slice in R; [|lia|rewrite B; apply (fields_len _ Wp)].
  unfold sprout_joinsplit_wire, sprout_joinsplit_fields, joinsplit_fields, fields_wire.
  rewrite F1, F2, F3, F4, F5, F6, F7, F8, F9, F10. cbn [map fst concat]. rewrite <- B, <- R, app_nil_r.
  cut_all [8; 8; 32; 64; 64; 32; 32; 64; 296; 1202] s C. symmetry. exact C.
Qed.
Lemma sapling_joinsplit_parse_inv s j : SaplingJoinsplit_from_bytes net s = Ok j ->
  sapling_joinsplit_obj net j /\ exists rest, s = js_bytes j ++ rest.
Proof.
  unfold SaplingJoinsplit_from_bytes. intros E. destruct (SaplingZkproof_from_bytes net (slice s 304 496)) as [zk|] eqn:Z; [|discriminate].
  cbn [bind] in E. apply sapling_proof_parse_inv in Z. destruct Z as [Op [r R]].
  pose proof (Joinsplit_fields _ _ _ _ _ _ _ _ _ _ _ _ E) as [F1 [F2 [F3 [F4 [F5 [F6 [F7 [F8 [F9 F10]]]]]]]]].
  assert (sapling_joinsplit_obj net j) as O.
  { split; rewrite F9; [exact Op|]. rewrite F1, F2, F3, F4, F5, F6, F7, F8, F10. exact E. }
  split; [exact O|]. apply sapling_joinsplit_obj_iff in O. destruct O as [_ [_ [W ->]]].
  apply (rest_of s _ 1698); [|apply (fields_len _ W)].
  pose proof Op as Op'. apply sapling_proof_obj_iff in Op'. destruct Op' as [_ [Wp B]].
  apply proof_slice in R; [|lia|rewrite B; apply (fields_len _ Wp)].
  unfold sapling_joinsplit_wire, sapling_joinsplit_fields, joinsplit_fields, fields_wire.
  rewrite F1, F2, F3, F4, F5, F6, F7, F8, F9, F10. cbn [map fst concat]. rewrite <- B, <- R, app_nil_r.
  cut_all [8; 8; 32; 64; 64; 32; 32; 64; 192; 1202] s C. symmetry. exact C.
Qed.

(* shielded spends and outputs *)
Lemma Spend_spec cv an nf rk zk sg : SaplingShieldedSpend net cv an nf rk zk sg =
  if zc && (zlen cv =? 32) && (zlen an =? 32) && (zlen nf =? 32) && (zlen rk =? 32) && (zlen sg =? 64)
  then Ok {| ss_cv := cv; ss_anchor := an; ss_nullifier := nf; ss_rk := rk; ss_zkproof := zk; ss_spend_auth_sig := sg;
             ss_bytes := cv ++ an ++ nf ++ rk ++ szk_bytes zk ++ sg |}
  else Err ValueError.
Proof.
  unfold SaplingShieldedSpend, zcash_only, vb, validate_bytes, guard. fold zc. destruct zc; [|reflexivity]. all_widths. reflexivity.
Qed.
Lemma spend_obj_iff s : spend_obj net s <->
  sapling_proof_obj net (ss_zkproof s) /\ widths_ok (spend_fields s) /\ ss_bytes s = spend_wire s.
Proof.
  unfold spend_obj. rewrite Spend_spec. unfold widths_ok, spend_wire, fields_wire, spend_fields, spend_body_fields.
  destruct s as [cv an nf rk zk sg bs]. proj. rewrite app_nil_r. norm_spec.
  split; intros [O E]; (split; [exact O|]); pose proof O as O'; apply sapling_proof_obj_iff in O'; destruct O' as [Z [W B]];
    pose proof (fields_len _ W) as L; fold (sapling_proof_wire zk) in L; change (width (sapling_proof_fields zk)) with 192 in L; revert E.
  - destruct zc; [|discriminate]. all_widths_spec.
    intros E. apply Ok_inj in E. injection E as <-. rewrite B. split; [give_widths|reflexivity].
  - intros [F ->]. rewrite Z, B. use_widths. reflexivity.
Qed.
Lemma Spend_fields cv an nf rk zk sg s : SaplingShieldedSpend net cv an nf rk zk sg = Ok s ->
  ss_cv s = cv /\ ss_anchor s = an /\ ss_nullifier s = nf /\ ss_rk s = rk /\ ss_zkproof s = zk /\ ss_spend_auth_sig s = sg.
Proof. rewrite Spend_spec. destruct (_ && _); [|discriminate]. intros E. apply Ok_inj in E. subst s. proj. tauto. Qed.
Lemma spend_parse s rest : spend_obj net s -> SaplingShieldedSpend_from_bytes net (ss_bytes s ++ rest) = Ok s.
Proof.
  intros O. pose proof O as O'. apply spend_obj_iff in O'. destruct O' as [Op [W ->]].
  pose proof (cuts_wire _ rest W) as E. fold (spend_wire s) in E. unfold spend_fields, spend_body_fields in E.
  cbn [map snd cuts Z.add Pos.add Pos.succ Pos.add_carry fst app] in E.
  injection E; intros. unfold SaplingShieldedSpend_from_bytes. use_cuts.
  pose proof Op as Op'. apply sapling_proof_obj_iff in Op'. destruct Op' as [_ [_ B]]. rewrite <- B.
  rewrite <- (app_nil_r (szk_bytes _)), sapling_proof_parse by exact Op. cbn [bind]. apply O.
Qed.
Lemma spend_parse_inv b s : SaplingShieldedSpend_from_bytes net b = Ok s -> spend_obj net s /\ exists rest, b = ss_bytes s ++ rest.
Proof.
  unfold SaplingShieldedSpend_from_bytes. intros E. destruct (SaplingZkproof_from_bytes net (slice b 128 320)) as [zk|] eqn:Z; [|discriminate].
  cbn [bind] in E. apply sapling_proof_parse_inv in Z. destruct Z as [Op [r R]].
  pose proof (Spend_fields _ _ _ _ _ _ _ E) as [F1 [F2 [F3 [F4 [F5 F6]]]]].
  assert (spend_obj net s) as O.
  { split; rewrite F5; [exact Op|]. rewrite F1, F2, F3, F4, F6. exact E. }
  split; [exact O|]. apply spend_obj_iff in O. destruct O as [_ [W ->]].
  apply (rest_of b _ 384); [|apply (fields_len _ W)].
  pose proof Op as Op'. apply sapling_proof_obj_iff in Op'. destruct Op' as [_ [Wp B]].
  apply proof_slice in R; [|lia|rewrite B; apply (fields_len _ Wp)].
  unfold spend_wire, spend_fields, spend_body_fields, fields_wire.
  rewrite F1, F2, F3, F4, F5, F6. cbn [map fst concat app]. rewrite <- B, <- R, app_nil_r.
  cut_all [32; 32; 32; 32; 192; 64] b C. symmetry. exact C.
Qed.

Lemma Output_spec cv cm ek ec oc zk : SaplingShieldedOutput net cv cm ek ec oc zk =
  if zc && (zlen cv =? 32) && (zlen cm =? 32) && (zlen ek =? 32) && (zlen ec =? 580) && (zlen oc =? 80)
  then Ok {| so_cv := cv; so_cmu := cm; so_ephemeral_key := ek; so_enc_ciphertext := ec; so_out_ciphertext := oc; so_zkproof := zk;
             so_bytes := cv ++ cm ++ ek ++ ec ++ oc ++ szk_bytes zk |}
  else Err ValueError.
Proof.
  unfold SaplingShieldedOutput, zcash_only, vb, validate_bytes, guard. fold zc. destruct zc; [|reflexivity]. all_widths. reflexivity.
Qed.
Lemma shielded_output_obj_iff o : shielded_output_obj net o <->
  sapling_proof_obj net (so_zkproof o) /\ widths_ok (output_fields o) /\ so_bytes o = shielded_output_wire o.
Proof.
  unfold shielded_output_obj. rewrite Output_spec. unfold widths_ok, shielded_output_wire, fields_wire, output_fields.
  destruct o as [cv cm ek ec oc zk bs]. proj. rewrite app_nil_r. norm_spec.
  split; intros [O E]; (split; [exact O|]); pose proof O as O'; apply sapling_proof_obj_iff in O'; destruct O' as [Z [W B]];
    pose proof (fields_len _ W) as L; fold (sapling_proof_wire zk) in L; change (width (sapling_proof_fields zk)) with 192 in L; revert E.
  - destruct zc; [|discriminate]. all_widths_spec.
    intros E. apply Ok_inj in E. injection E as <-. rewrite B. split; [give_widths|reflexivity].
  - intros [F ->]. rewrite Z, B. use_widths. reflexivity.
Qed.
Lemma Output_fields cv cm ek ec oc zk o : SaplingShieldedOutput net cv cm ek ec oc zk = Ok o ->
  so_cv o = cv /\ so_cmu o = cm /\ so_ephemeral_key o = ek /\ so_enc_ciphertext o = ec /\ so_out_ciphertext o = oc /\ so_zkproof o = zk.
Proof. rewrite Output_spec. destruct (_ && _); [|discriminate]. intros E. apply Ok_inj in E. subst o. proj. tauto. Qed.
Lemma shielded_output_parse o rest : shielded_output_obj net o -> SaplingShieldedOutput_from_bytes net (so_bytes o ++ rest) = Ok o.
Proof.
  intros O. pose proof O as O'. apply shielded_output_obj_iff in O'. destruct O' as [Op [W ->]].
  pose proof (cuts_wire _ rest W) as E. fold (shielded_output_wire o) in E. unfold output_fields in E.
  cbn [map snd cuts Z.add Pos.add Pos.succ Pos.add_carry fst app] in E.
  injection E; intros. unfold SaplingShieldedOutput_from_bytes. use_cuts.
  pose proof Op as Op'. apply sapling_proof_obj_iff in Op'. destruct Op' as [_ [_ B]]. rewrite <- B.
  rewrite <- (app_nil_r (szk_bytes _)), sapling_proof_parse by exact Op. cbn [bind]. apply O.
Qed.
Lemma shielded_output_parse_inv b o : SaplingShieldedOutput_from_bytes net b = Ok o ->
  shielded_output_obj net o /\ exists rest, b = so_bytes o ++ rest.
Proof.
  unfold SaplingShieldedOutput_from_bytes. intros E. destruct (SaplingZkproof_from_bytes net (slice b 756 948)) as [zk|] eqn:Z; [|discriminate].
  cbn [bind] in E. apply sapling_proof_parse_inv in Z. destruct Z as [Op [r R]].
  pose proof (Output_fields _ _ _ _ _ _ _ E) as [F1 [F2 [F3 [F4 [F5 F6]]]]].
  assert (shielded_output_obj net o) as O.
  { split; rewrite F6; [exact Op|]. rewrite F1, F2, F3, F4, F5. exact E. }
  split; [exact O|]. apply shielded_output_obj_iff in O. destruct O as [_ [W ->]].
  apply (rest_of b _ 948); [|apply (fields_len _ W)].
  pose proof Op as Op'. apply sapling_proof_obj_iff in Op'. destruct Op' as [_ [Wp B]].
  apply proof_slice in R; [|lia|rewrite B; apply (fields_len _ Wp)].
  unfold shielded_output_wire, output_fields, fields_wire.
  rewrite F1, F2, F3, F4, F5, F6. cbn [map fst concat app]. rewrite <- B, <- R, app_nil_r.
  cut_all [32; 32; 32; 580; 80; 192] b C. symmetry. exact C.
Qed.

(* parsers fail with ValueError only *)
Lemma part_errors (s : bytes) e :
  (SproutZkproof_from_bytes net s = Err e -> e = ValueError) /\
  (SaplingZkproof_from_bytes net s = Err e -> e = ValueError) /\
  (SproutJoinsplit_from_bytes net s = Err e -> e = ValueError) /\
  (SaplingJoinsplit_from_bytes net s = Err e -> e = ValueError) /\
  (SaplingShieldedSpend_from_bytes net s = Err e -> e = ValueError) /\
  (SaplingShieldedOutput_from_bytes net s = Err e -> e = ValueError).
Proof.
  unfold SproutJoinsplit_from_bytes, SaplingJoinsplit_from_bytes, SaplingShieldedSpend_from_bytes, SaplingShieldedOutput_from_bytes,
    SproutZkproof_from_bytes, SaplingZkproof_from_bytes, SproutJoinsplit, SaplingJoinsplit.
  rewrite SproutZkproof_spec, SaplingZkproof_spec. repeat split.
  all: repeat match goal with
    | |- context [if ?c then Ok _ else Err ValueError] => destruct c; cbn [bind]
    | |- context [SproutZkproof ?n ?a ?b ?c ?d ?e ?f ?g ?h] => rewrite (SproutZkproof_spec a b c d e f g h)
    | |- context [SaplingZkproof ?n ?a ?b ?c] => rewrite (SaplingZkproof_spec a b c)
    | |- context [Joinsplit ?n ?p _ _ _ _ _ _ _ _ _ _] => rewrite (Joinsplit_spec p)
    | |- context [SaplingShieldedSpend _ _ _ _ _ _ _] => rewrite Spend_spec
    | |- context [SaplingShieldedOutput _ _ _ _ _ _ _] => rewrite Output_spec
    end; congruence.
Qed.
End Parts.
