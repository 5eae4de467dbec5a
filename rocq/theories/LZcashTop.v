(* Lemmas about MZcash.v: the three transaction types, in the terms of SZcash.v *)
From Coq Require Import String.
From Verif Require Import Py LBase MNet MUtils MShared MScript MTx MZcash SNum SNet SHash SScript STx SSig SZcash LNet LUtils LVarint LTx LTxParse LSig LBase58 LZcash LZcashTx LZip LSapling LSprout LZip243.
Open Scope list_scope.
Open Scope Z_scope.
Ltac Zify.zify_post_hook ::= idtac.

Lemma names_zcash l : l = sprout_names \/ l = overwinter_names \/ l = sapling_names -> forall n, In n l -> In n zcash_names.
Proof. unfold zcash_names. intros C n I. rewrite !in_app_iff. destruct C as [->|[->| ->]]; auto. Qed.
Lemma zcash_not_decred n : In n zcash_names -> ~ In n decred_names.
Proof.
  intros I J. apply str_mem_In in J. revert n I J.
  assert (forallb (fun n => negb (str_mem n decred_names)) zcash_names = true) as F by (vm_compute; reflexivity).
  intros n I J. rewrite forallb_forall in F. specialize (F n I). rewrite J in F. discriminate.
Qed.
Lemma wopt_iff x w : wopt x w = true <-> has_width x w.
Proof.
  unfold wopt, has_width. norm_spec. destruct x as [b|].
  - rewrite Z.eqb_eq. split; [intros E; exists b; auto|intros [b' [E E']]; injection E as <-; exact E'].
  - split; [discriminate|intros [b [E _]]; discriminate].
Qed.
Lemma zlen_eqb_nil {A} (l : list A) : zlen l =? 0 = true <-> l = [].
Proof. rewrite Z.eqb_eq. split; [apply zlen_0|intros ->; reflexivity]. Qed.
Lemma zlen_neqb_nil {A} (l : list A) : zlen l =? 0 = false <-> l <> [].
Proof. rewrite <- not_true_iff_false, zlen_eqb_nil. tauto. Qed.
Lemma ti_bytes_pos i : txin_obj i -> 1 <= zlen (ti_bytes i).
Proof.
  intros O. pose proof (txin_wire i O) as [E [L _]]. change (zlen (in_txid (the_input i)) = 32) in L.
  rewrite E. unfold input_wire, outpoint_wire. rewrite !zlen_app.
  repeat match goal with |- context [zlen ?x] => lazymatch goal with _ : 0 <= zlen x |- _ => fail | _ => pose proof (zlen_nonneg x) end end. lia.
Qed.
Lemma to_bytes_pos o : txout_obj o -> 1 <= zlen (to_bytes_ o).
Proof.
  intros O. apply txout_obj_iff in O. destruct O as [L [_ E]]. rewrite E, !zlen_app.
  repeat match goal with |- context [zlen ?x] => lazymatch goal with _ : 0 <= zlen x |- _ => fail | _ => pose proof (zlen_nonneg x) end end. lia.
Qed.
Lemma concat_ge {A} (P : A -> Prop) (w : A -> bytes) l : (forall x, P x -> 1 <= zlen (w x)) -> Forall P l -> zlen l <= zlen (concat (map w l)).
Proof. intros W F. rewrite Forall_forall in F. unfold zlen at 1. pose proof (length_concat_ge w l (fun x I => W x (F x I))). unfold zlen. lia. Qed.
Lemma transparent_ge ins outs : Forall txin_obj ins -> Forall txout_obj outs -> zlen ins + zlen outs <= zlen (transparent ins outs).
Proof.
  intros Fi Fo. unfold transparent. rewrite !zlen_app.
  pose proof (concat_ge _ _ _ ti_bytes_pos Fi). pose proof (concat_ge _ _ _ to_bytes_pos Fo).
  repeat match goal with |- context [zlen (compactsize ?x)] => lazymatch goal with _ : 0 <= zlen (compactsize x) |- _ => fail | _ => pose proof (zlen_nonneg (compactsize x)) end end. lia.
Qed.
Lemma transparent_wire ins outs : Forall txin_obj ins -> Forall txout_obj outs -> transparent ins outs = inputs_wire ins ++ outputs_wire outs.
Proof. intros Fi Fo. unfold transparent. rewrite (inputs_wire_bytes _ Fi), (outputs_wire_bytes _ Fo), <- !app_assoc. reflexivity. Qed.
Ltac nonneg_in A := repeat match type of A with context [zlen ?x] => lazymatch goal with _ : 0 <= zlen x |- _ => fail | _ => pose proof (zlen_nonneg x) end end.

Section Top.
Context (H : hashes) (name : str) (net : network) (En : get_network name = Ok net).
Let zc : bool := net_has net (lit "zcash").

(** * Overwinter *)
Lemma ow_layout ins outs lock expiry js key sig : Forall txin_obj ins -> Forall txout_obj outs -> Forall (sprout_joinsplit_obj net) js ->
  ow_body ins outs lock expiry js key sig = overwinter_layout ins outs lock expiry js (needed js key) (needed js sig).
Proof.
  intros Fi Fo Fj. unfold ow_body, overwinter_layout, joinsplits_wire. change overwinter_header with ([3; 0; 0; 0x80] ++ [0x70; 0x82; 0xc4; 0x03]). rewrite (js_wire_bytes net _ Fj), (transparent_wire _ _ Fi Fo), <- !app_assoc.
  do 7 f_equal. destruct js as [|j js]; [reflexivity|]. destruct (Z.eqb_spec (zlen (j :: js)) 0) as [Z0|_]; [apply zlen_0 in Z0; discriminate|]. reflexivity.
Qed.
Lemma ow_rules_iff ins outs lock expiry js key sig : Forall txin_obj ins -> Forall txout_obj outs -> Forall (sprout_joinsplit_obj net) js ->
  ow_args_ok net ins outs lock expiry js key sig = true <-> overwinter_rules name ins outs lock expiry js key sig.
Proof.
  intros Fi Fo Fj. unfold ow_args_ok, overwinter_rules. rewrite (ow_layout _ _ _ _ _ _ _ Fi Fo Fj). norm_spec. norm_count.
  pose proof (transparent_ge _ _ Fi Fo) as G. rewrite (transparent_wire _ _ Fi Fo) in G.
  rewrite !andb_true_iff, !Z.eqb_eq, !Z.leb_le, !Z.ltb_lt, negb_true_iff, orb_true_iff, andb_true_iff, !wopt_iff, andb_false_iff, !zlen_eqb_nil, !zlen_neqb_nil.
  rewrite <- (overwinter_has name net En).
  set (X := overwinter_layout _ _ _ _ _ _ _).
  assert (zlen X <= 100000 -> zlen ins < 2 ^ 64 /\ zlen outs < 2 ^ 64) as B.
  { intros LX. unfold X, overwinter_layout in LX. rewrite zlen_app in G. rewrite !zlen_app in LX. nonneg_in LX. pose proof (zlen_nonneg ins). pose proof (zlen_nonneg outs). lia. }
  assert (net_has net (lit "overwinter") = true -> net_has net (lit "zcash") = true) as Z.
  { intros O. apply (zcash_has name net En). apply (names_zcash overwinter_names); [auto|]. apply (overwinter_has name net En), O. }
  assert (le_value expiry <= 499999999 <-> le_value expiry < 500000000) as -> by lia.
  destruct js as [|j js]; split.
  - intuition discriminate.
  - intros [A1 [A2 [A3 [A4 [A5 [A6 [A7 A8]]]]]]]. specialize (B A8). specialize (Z A1). tauto.
  - intuition discriminate.
  - intros [A1 [A2 [A3 [A4 [A5 [A6 [A7 A8]]]]]]]. specialize (B A8). specialize (Z A1). specialize (A6 ltac:(discriminate)).
    assert (j :: js <> []) by discriminate. tauto.
Qed.

Lemma overwinter_ctor ins outs lock expiry js key sig : Forall txin_obj ins -> Forall txout_obj outs -> Forall (sprout_joinsplit_obj net) js ->
  (overwinter_rules name ins outs lock expiry js key sig ->
   exists t, OverwinterTx H net ins outs lock expiry js key sig = Ok t /\ overwinter_obj H net t /\
     ow_tx_ins t = ins /\ ow_tx_outs t = outs /\ ow_lock_time t = lock /\ ow_expiry_height t = expiry /\
     ow_tx_joinsplits t = js /\ ow_joinsplit_pubkey t = needed js key /\ ow_joinsplit_sig t = needed js sig) /\
  (~ overwinter_rules name ins outs lock expiry js key sig -> OverwinterTx H net ins outs lock expiry js key sig = Err ValueError).
Proof.
  intros Fi Fo Fj. rewrite <- (ow_rules_iff _ _ _ _ _ _ _ Fi Fo Fj). rewrite (OverwinterTx_spec H net). split.
  - intros A. rewrite A. eexists. split; [reflexivity|]. split.
    + split; [exact Fi|]. split; [exact Fo|]. split; [exact Fj|]. apply (overwinter_idem H net ins outs lock expiry js key sig). apply OverwinterTx_Ok. auto.
    + repeat split; cbn [ow_of ow_joinsplit_pubkey ow_joinsplit_sig]; destruct js; reflexivity.
  - intros N. destruct (ow_args_ok _ _ _ _ _ _ _ _); [destruct (N eq_refl)|reflexivity].
Qed.

Lemma hash256_zcash m : In name zcash_names -> hash256 H net m = sha256d H m.
Proof. intros I. apply (hash256_by_name H name net m En). apply zcash_not_decred, I. Qed.

Lemma overwinter_format t : overwinter_obj H net t -> ow_bytes t = overwinter_wire t /\ ow_tx_id_le t = sha256d H (overwinter_wire t) /\ ow_tx_id t = rev (sha256d H (overwinter_wire t)) /\
  ow_hsigs t = map (hsig_of H (opt (ow_joinsplit_pubkey t))) (ow_tx_joinsplits t) /\
  ow_primary_inputs t = map (primary_of H (opt (ow_joinsplit_pubkey t))) (ow_tx_joinsplits t).
Proof.
  intros O. pose proof (overwinter_bytes H net t O) as B. split; [exact B|]. rewrite <- B. pose proof (overwinter_net H net t O) as Z. apply (zcash_has name net En) in Z.
  apply overwinter_obj_iff in O. destruct O as [_ [_ [_ [A E]]]]. rewrite E. cbn [ow_of ow_tx_id_le ow_tx_id ow_bytes ow_hsigs ow_primary_inputs ow_joinsplit_pubkey ow_tx_joinsplits].
  rewrite hash256_zcash by exact Z. split; [reflexivity|]. split; [reflexivity|].
  destruct (ow_tx_joinsplits t); split; reflexivity.
Qed.

(** * Sapling *)
Lemma sa_layout ins outs lock expiry vb sp so js key sig bs : Forall txin_obj ins -> Forall txout_obj outs -> Forall (spend_obj net) sp ->
  Forall (shielded_output_obj net) so -> Forall (sapling_joinsplit_obj net) js ->
  sa_body ins outs lock expiry vb sp so js key sig bs = sapling_layout ins outs lock expiry vb sp so js (needed js key) (needed js sig)
         (match sp, so with [], [] => None | _, _ => bs end).
Proof.
  intros Fi Fo Fs Fu Fj. unfold sa_body, sapling_layout, joinsplits_wire. change sapling_header with ([4; 0; 0; 0x80] ++ [0x85; 0x20; 0x2f; 0x89]).
  rewrite (sjs_wire_bytes net _ Fj), (spends_wire_bytes net _ Fs), (souts_wire_bytes net _ Fu), (transparent_wire _ _ Fi Fo), <- !app_assoc.
  do 12 f_equal.
  assert ((if zlen so + zlen sp =? 0 then [] else opt bs) = opt match sp, so with [], [] => None | _, _ => bs end) as ->.
  { destruct (Z.eqb_spec (zlen so + zlen sp) 0) as [Z0|Z0].
    - assert (sp = [] /\ so = []) as [-> ->] by (pose proof (zlen_nonneg so); pose proof (zlen_nonneg sp); split; apply zlen_0; lia). reflexivity.
    - destruct sp, so; try reflexivity. destruct Z0. reflexivity. }
  destruct js as [|j js]; [reflexivity|]. destruct (Z.eqb_spec (zlen (j :: js)) 0) as [Z0|_]; [apply zlen_0 in Z0; discriminate|]. rewrite <- !app_assoc. reflexivity.
Qed.

Lemma sa_rules_iff ins outs lock expiry vb sp so js key sig bs : Forall txin_obj ins -> Forall txout_obj outs -> Forall (spend_obj net) sp ->
  Forall (shielded_output_obj net) so -> Forall (sapling_joinsplit_obj net) js ->
  sa_args_ok net ins outs lock expiry vb sp so js key sig bs = true <-> sapling_rules name ins outs lock expiry vb sp so js key sig bs.
Proof.
  intros Fi Fo Fs Fu Fj. unfold sa_args_ok, sapling_rules. rewrite (sa_layout _ _ _ _ _ _ _ _ _ _ _ Fi Fo Fs Fu Fj). norm_spec. norm_count.
  pose proof (transparent_ge _ _ Fi Fo) as G. rewrite (transparent_wire _ _ Fi Fo) in G.
  set (X := sapling_layout _ _ _ _ _ _ _ _ _ _ _).
  assert (zlen (concat (map ss_bytes sp)) = zlen sp * 384) as L1 by (apply (concat_len _ ss_bytes 384 _ (spend_len net) Fs)).
  assert (zlen (concat (map so_bytes so)) = zlen so * 948) as L2 by (apply (concat_len _ so_bytes 948 _ (sout_len net) Fu)).
  pose proof (zlen_nonneg ins) as Z1. pose proof (zlen_nonneg outs) as Z2. pose proof (zlen_nonneg sp) as Z3. pose proof (zlen_nonneg so) as Z4. pose proof (zlen_nonneg js) as Z5.
  assert (zlen X <= 100000 -> zlen ins < 2 ^ 64 /\ zlen outs < 2 ^ 64 /\ zlen sp < 2 ^ 64 /\ zlen so < 2 ^ 64) as B.
  { intros LX. unfold X, sapling_layout in LX. rewrite (spends_wire_bytes net _ Fs), (souts_wire_bytes net _ Fu) in LX.
    rewrite zlen_app in G. rewrite !zlen_app, L1, L2 in LX. nonneg_in LX. lia. }
  assert (net_has net (lit "sapling") = true -> net_has net (lit "zcash") = true) as Z.
  { intros O. apply (zcash_has name net En). apply (names_zcash sapling_names); [auto|]. apply (sapling_has name net En), O. }
  assert (zlen sp + zlen so =? 0 = true <-> sp = [] /\ so = []) as T.
  { rewrite Z.eqb_eq. split; [intros E; split; apply zlen_0; lia|intros [-> ->]; reflexivity]. }
  assert (zlen js + zlen ins + zlen sp =? 0 = false <-> (ins <> [] \/ sp <> [] \/ js <> [])) as T2.
  { rewrite Z.eqb_neq. rewrite <- !zlen_neqb_nil, !Z.eqb_neq. lia. }
  rewrite !andb_true_iff, !Z.eqb_eq, !Z.leb_le, !Z.ltb_lt, negb_true_iff, T2, !orb_true_iff, andb_true_iff, !wopt_iff, zlen_eqb_nil.
  rewrite negb_true_iff. rewrite <- (sapling_has name net En).
  assert (le_value expiry <= 499999999 <-> le_value expiry < 500000000) as -> by lia.
  assert ((zlen sp + zlen so =? 0 = false \/ leqb vb (zrepeat 0 8) = true) <-> (sp = [] -> so = [] -> vb = repeat 0 8)) as ->.
  { rewrite <- not_true_iff_false, T. change (zrepeat 0 8) with (repeat 0 8). destruct (leqb_spec vb (repeat 0 8)) as [->|N]; [tauto|].
    split; [intros [A|A]; [|discriminate]; intros; destruct A; auto|]. intros A. left. intros [U V]. auto. }
  assert (sa_binding bs (negb (zlen sp + zlen so =? 0)) = true <-> (~ (sp = [] /\ so = []) -> has_width bs 64) /\ (bs = None \/ has_width bs 64)) as ->.
  { unfold sa_binding. destruct bs as [b|].
    - change (zlen b =? 64) with (wopt (Some b) 64). rewrite wopt_iff. split; [tauto|]. intros [_ [X0|X0]]; [discriminate|exact X0].
    - rewrite negb_involutive, T. split; [intros A; split; [tauto|auto]|]. intros [A _].
      destruct (zlen sp + zlen so =? 0) eqn:E; [tauto|]. assert (~ (sp = [] /\ so = [])) as N by (intros U; apply T in U; discriminate).
      destruct (A N) as [b [U _]]. discriminate. }
  split.
  - intros A. repeat match goal with A : _ /\ _ |- _ => destruct A end. repeat match goal with |- _ /\ _ => split end; auto; tauto.
  - intros A. repeat match goal with A : _ /\ _ |- _ => destruct A end. destruct B as [? [? [? ?]]]; [assumption|].
    repeat match goal with |- _ /\ _ => split end; auto. destruct js; [auto|right]. match goal with K : _ -> has_width key 32 /\ _ |- _ => apply K; discriminate end.
Qed.

Lemma sapling_ctor ins outs lock expiry vb sp so js key sig bs : Forall txin_obj ins -> Forall txout_obj outs -> Forall (spend_obj net) sp ->
  Forall (shielded_output_obj net) so -> Forall (sapling_joinsplit_obj net) js ->
  (sapling_rules name ins outs lock expiry vb sp so js key sig bs ->
   exists t, SaplingTx H net ins outs lock expiry vb (Some sp) (Some so) (Some js) key sig bs = Ok t /\ sapling_obj H net t /\
     sa_tx_ins t = ins /\ sa_tx_outs t = outs /\ sa_lock_time t = lock /\ sa_expiry_height t = expiry /\ sa_value_balance t = vb /\
     sa_tx_shielded_spends t = sp /\ sa_tx_shielded_outputs t = so /\
     sa_tx_joinsplits t = js /\ sa_joinsplit_pubkey t = needed js key /\ sa_joinsplit_sig t = needed js sig /\
     sa_binding_sig t = match sp, so with [], [] => None | _, _ => bs end) /\
  (~ sapling_rules name ins outs lock expiry vb sp so js key sig bs ->
   SaplingTx H net ins outs lock expiry vb (Some sp) (Some so) (Some js) key sig bs = Err ValueError \/
   SaplingTx H net ins outs lock expiry vb (Some sp) (Some so) (Some js) key sig bs = Err TypeError /\ bs = None /\ ~ (sp = [] /\ so = [])).
Proof.
  intros Fi Fo Fs Fu Fj. rewrite <- (sa_rules_iff _ _ _ _ _ _ _ _ _ _ _ Fi Fo Fs Fu Fj).
  destruct (SaplingTx_cases H net ins outs lock expiry vb sp so js key sig bs) as [[A E]|[A E]].
  - rewrite A. split; [intros _|intros N; destruct (N eq_refl)]. eexists. split; [exact E|]. split.
    + repeat (split; [assumption|]). eapply sapling_idem. exact E.
    + repeat split; cbn [sa_of sa_joinsplit_pubkey sa_joinsplit_sig sa_binding_sig]; try (destruct js; reflexivity).
      pose proof (zlen_nonneg so). pose proof (zlen_nonneg sp).
      destruct (Z.eqb_spec (zlen so + zlen sp) 0) as [Z0|Z0]; cbn [negb].
      * assert (sp = [] /\ so = []) as [-> ->] by (split; apply zlen_0; lia). reflexivity.
      * destruct sp, so; try reflexivity. destruct Z0. reflexivity.
  - rewrite A. split; [discriminate|]. intros _. exact E.
Qed.

Lemma sapling_format t : sapling_obj H net t -> sa_bytes t = sapling_wire t /\ sa_tx_id_le t = sha256d H (sapling_wire t) /\ sa_tx_id t = rev (sha256d H (sapling_wire t)) /\
  sa_hsigs t = map (hsig_of H (opt (sa_joinsplit_pubkey t))) (sa_tx_joinsplits t) /\
  sa_primary_inputs t = map (primary_of H (opt (sa_joinsplit_pubkey t))) (sa_tx_joinsplits t).
Proof.
  intros O. pose proof (sapling_bytes H net t O) as B. split; [exact B|]. rewrite <- B. pose proof (sapling_net H net t O) as Z. apply (zcash_has name net En) in Z.
  apply sapling_obj_iff in O. destruct O as [_ [_ [_ [_ [_ [A E]]]]]]. rewrite E. cbn [sa_of sa_tx_id_le sa_tx_id sa_bytes sa_hsigs sa_primary_inputs sa_joinsplit_pubkey sa_tx_joinsplits].
  rewrite hash256_zcash by exact Z. split; [reflexivity|]. split; [reflexivity|].
  destruct (sa_tx_joinsplits t); split; reflexivity.
Qed.

(** * Sprout *)
Lemma sp_layout v ins outs lock js key sig : Forall txin_obj ins -> Forall txout_obj outs -> Forall (sprout_joinsplit_obj net) js -> v = v1 \/ v = v2 ->
  sp_body v ins outs lock js key sig = sprout_layout v ins outs lock js key sig.
Proof.
  intros Fi Fo Fj C. unfold sp_body, sprout_layout, joinsplits_wire. rewrite (js_wire_bytes net _ Fj), (transparent_wire _ _ Fi Fo), <- !app_assoc.
  destruct C as [->| ->]; reflexivity.
Qed.
Lemma sp_rules_iff v ins outs lock js key sig : Forall txin_obj ins -> Forall txout_obj outs -> Forall (sprout_joinsplit_obj net) js ->
  sp_args_ok net v ins outs lock js key sig = true <-> sprout_rules name v ins outs lock js key sig.
Proof.
  intros Fi Fo Fj. unfold sp_args_ok, sprout_rules. norm_spec. norm_count. change (le_bytes 4 1) with v1. change (le_bytes 4 2) with v2.
  rewrite !andb_true_iff, !Z.eqb_eq, !Z.leb_le, !Z.ltb_lt. rewrite <- (sprout_has name net En).
  assert (net_has net (lit "sprout") = true -> net_has net (lit "zcash") = true) as Z.
  { intros O. apply (zcash_has name net En). apply (names_zcash sprout_names); [auto|]. apply (sprout_has name net En), O. }
  assert (sp_version_ok v ins js key sig = true <->
    (v = v1 /\ js = [] /\ ins <> [] \/ v = v2 /\ zlen js <= 5 /\ has_width key 32 /\ (sig = Some [] \/ has_width sig 64))) as ->.
  { unfold sp_version_ok. destruct (leqb_spec v v1) as [->|N1].
    - rewrite andb_true_iff, negb_true_iff, zlen_eqb_nil, zlen_neqb_nil. split; [tauto|]. intros [A|[A _]]; [tauto|discriminate].
    - destruct (leqb_spec v v2) as [->|N2]; cbn [andb]; [|split; [discriminate|intros [[A _]|[A _]]; contradiction]].
      rewrite !andb_true_iff, Z.leb_le, wopt_iff. assert (sp_sig sig = true <-> sig = Some [] \/ has_width sig 64) as ->; [|split; [tauto|intros [[A _]|A]; [discriminate|tauto]]].
      unfold sp_sig. destruct sig as [b|]; [|split; [discriminate|intros [A|[b [A _]]]; discriminate]].
      rewrite orb_true_iff. change (zlen b =? 64) with (wopt (Some b) 64). rewrite wopt_iff.
      destruct (leqb_spec b []) as [->|N]; [tauto|]. split; [intros [A|A]; [discriminate|auto]|intros [A|A]; [injection A as A; contradiction|auto]]. }
  pose proof (transparent_ge _ _ Fi Fo) as G. rewrite (transparent_wire _ _ Fi Fo) in G.
  assert (zlen (sprout_layout v ins outs lock js key sig) <= 100000 -> zlen ins < 2 ^ 64 /\ zlen outs < 2 ^ 64) as B.
  { intros LX. unfold sprout_layout in LX. rewrite zlen_app in G. rewrite !zlen_app in LX. nonneg_in LX. pose proof (zlen_nonneg ins). pose proof (zlen_nonneg outs). lia. }
  split.
  - intros [[[[[[A1 A2] A3] A4] A5] A6] A7]. rewrite (sp_layout _ _ _ _ _ _ _ Fi Fo Fj) in A7 by tauto. tauto.
  - intros [A1 [A2 [A3 A4]]]. specialize (B A4). rewrite (sp_layout _ _ _ _ _ _ _ Fi Fo Fj) by tauto. specialize (Z A1). tauto.
Qed.

Lemma sprout_ctor v ins outs lock js key sig : all_bytes v -> Forall txin_obj ins -> Forall txout_obj outs -> Forall (sprout_joinsplit_obj net) js ->
  (sprout_rules name v ins outs lock js key sig ->
   exists t, SproutTx H net (Some v) ins outs lock (Some js) key sig = Ok t /\ sprout_obj H net t /\
     sp_version t = v /\ sp_tx_ins t = ins /\ sp_tx_outs t = outs /\ sp_lock_time t = lock /\ sp_tx_joinsplits t = Some js /\
     sp_joinsplit_pubkey t = (if le_value v =? 1 then None else key) /\ sp_joinsplit_sig t = (if le_value v =? 1 then None else sig)) /\
  (~ sprout_rules name v ins outs lock js key sig ->
   SproutTx H net (Some v) ins outs lock (Some js) key sig = Err ValueError \/
   SproutTx H net (Some v) ins outs lock (Some js) key sig = Err TypeError /\ v = le_bytes 4 2 /\ sig = None).
Proof.
  intros Bv Fi Fo Fj. rewrite <- (sp_rules_iff _ _ _ _ _ _ _ Fi Fo Fj). pose proof Bv as Bv'. apply all_bytes_is_bytes in Bv'.
  destruct (SproutTx_cases H net v ins outs lock js key sig Bv') as [[A E]|[A E]].
  - rewrite A. split; [intros _|intros N; destruct (N eq_refl)]. eexists. split; [exact E|].
    assert (v = v1 \/ v = v2) as C by (apply (sp_rules_iff _ _ _ _ _ _ _ Fi Fo Fj) in A; unfold sprout_rules in A; change (le_bytes 4 1) with v1 in A; change (le_bytes 4 2) with v2 in A; tauto).
    split.
    + split; [exact Bv|]. repeat (split; [assumption|]). eapply sprout_idem; [exact Bv'|exact E].
    + repeat split; cbn [sp_of sp_joinsplit_pubkey sp_joinsplit_sig]; destruct C as [->| ->]; reflexivity.
  - rewrite A. split; [discriminate|]. intros _. exact E.
Qed.

Lemma sprout_format t : sprout_obj H net t -> sp_bytes t = sprout_wire t /\ sp_tx_id_le t = sha256d H (sprout_wire t) /\ sp_tx_id t = rev (sha256d H (sprout_wire t)) /\
  sp_hsigs t = map (hsig_of H (opt (sp_joinsplit_pubkey t))) (opts (sp_tx_joinsplits t)) /\
  sp_primary_inputs t = map (primary_of H (opt (sp_joinsplit_pubkey t))) (opts (sp_tx_joinsplits t)).
Proof.
  intros O. pose proof (sprout_bytes H net t O) as B. split; [exact B|]. rewrite <- B. pose proof (sprout_version H net t O) as V.
  apply sprout_obj_iff in O. destruct O as [js [_ [_ [_ [J [_ [A E]]]]]]].
  assert (In name zcash_names) as Z by (unfold sp_args_ok in A; rewrite !andb_true_iff in A; apply (zcash_has name net En); tauto).
  rewrite E. cbn [sp_of sp_tx_id_le sp_tx_id sp_bytes sp_hsigs sp_primary_inputs sp_joinsplit_pubkey sp_tx_joinsplits opts].
  rewrite hash256_zcash by exact Z. split; [reflexivity|]. split; [reflexivity|].
  destruct V as [[V [J' _]]|[V _]]; rewrite V.
  - rewrite J in J'. injection J' as ->. split; reflexivity.
  - split; reflexivity.
Qed.
End Top.
