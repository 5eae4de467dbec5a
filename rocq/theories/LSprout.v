(* Lemmas about MZcash.v: Sprout transactions *)
From Coq Require Import String.
From Verif Require Import Py LBase MNet MUtils MShared MScript MTx MZcash SNum SNet SHash SScript STx SSig SZcash LNet LUtils LVarint LTx LTxParse LSig LZcash LZcashTx.
Open Scope list_scope.
Open Scope Z_scope.
Ltac Zify.zify_post_hook ::= idtac.

Definition v1 : bytes := [1; 0; 0; 0].
Definition v2 : bytes := [2; 0; 0; 0].

Lemma version_value v k : is_bytes v -> zlen v = 4 -> 0 <= k < 256 -> le_value v = k -> v = [k; 0; 0; 0].
Proof.
  intros B L K E. destruct v as [|a [|b [|c [|d [|e v]]]]]; unfold zlen in L; cbn [length] in L; try lia.
  inversion_clear B. inversion_clear H0. inversion_clear H2. inversion_clear H3. cbn [le_value] in E. unfold is_byte in *.
  assert (b = 0 /\ c = 0 /\ d = 0 /\ a = k) as [-> [-> [-> ->]]] by lia. reflexivity.
Qed.

Section Tx.
Context (H : hashes) (net : network).
Let zc : bool := net_has net (lit "zcash").

Definition sp_body (v : bytes) ins outs lock (js : list sprout_joinsplit) pk sg : bytes :=
  v ++ transparent ins outs ++ lock ++
  (if leqb v v2 then compactsize (zlen js) ++ concat (map js_bytes js) ++ opt pk ++ opt sg else []).

Definition sp_sig (sg : option bytes) : bool := match sg with Some s => leqb s [] || (zlen s =? 64) | None => false end.
Definition sp_version_ok (v : bytes) (ins : list txin) (js : list sprout_joinsplit) pk sg : bool :=
  if leqb v v1 then (zlen js =? 0) && negb (zlen ins =? 0)
  else leqb v v2 && (zlen js <=? 5) && wopt pk 32 && sp_sig sg.
Definition sp_args_ok (v : bytes) ins outs lock (js : list sprout_joinsplit) pk sg : bool :=
  zc && net_has net (lit "sprout") && (zlen lock =? 4) && sp_version_ok v ins js pk sg &&
  (zlen ins <? 2 ^ 64) && (zlen outs <? 2 ^ 64) && (zlen (sp_body v ins outs lock js pk sg) <=? 100000).

Definition sp_of (v : bytes) ins outs lock (js : list sprout_joinsplit) pk sg : sprout_tx :=
  let b := sp_body v ins outs lock js pk sg in
  {| sp_version := v; sp_tx_ins := ins; sp_tx_outs := outs; sp_lock_time := lock; sp_tx_joinsplits := Some js;
     sp_joinsplit_pubkey := if leqb v v2 then pk else None;
     sp_joinsplit_sig := if leqb v v2 then sg else None;
     sp_hsigs := map (hsig H (opt pk)) js;
     sp_primary_inputs := map (primary_input H (opt pk)) js;
     sp_tx_id_le := hash256 H net b; sp_tx_id := rev (hash256 H net b); sp_bytes := b |}.

Lemma SproutTx_cases v ins outs lock js pk sg : is_bytes v ->
  (sp_args_ok v ins outs lock js pk sg = true /\ SproutTx H net (Some v) ins outs lock (Some js) pk sg = Ok (sp_of v ins outs lock js pk sg)) \/
  (sp_args_ok v ins outs lock js pk sg = false /\
   (SproutTx H net (Some v) ins outs lock (Some js) pk sg = Err ValueError \/
    SproutTx H net (Some v) ins outs lock (Some js) pk sg = Err TypeError /\ v = v2 /\ sg = None)).
Proof.
  intros Bv. unfold SproutTx, sp_args_ok, zcash_only, MZcash.vb, guard, len_opt. fold zc.
  pose proof (zlen_nonneg ins) as Zi. pose proof (zlen_nonneg outs) as Zo. pose proof (zlen_nonneg js) as Zj.
  destruct zc; [|right; auto]. destruct (net_has net (lit "sprout")); [|right; auto]. cbn [negb bind andb].
  rewrite (validate_opt (Some v)), (validate_opt (Some lock)). cbn [wopt].
  destruct (Z.eqb_spec (zlen v) 4) as [Lv|Lv].
  2: { right. split; [|auto]. destruct (zlen lock =? 4); [|reflexivity]. unfold sp_version_ok.
       destruct (leqb_spec v v1) as [->|_]; [destruct Lv; reflexivity|]. destruct (leqb_spec v v2) as [->|_]; [destruct Lv; reflexivity|]. reflexivity. }
  cbn [bind add_opt]. destruct (zlen lock =? 4); [|right; auto]. cbn [bind andb]. rewrite le2i_le.
  change (i2le_padded 2 4) with (Ok v2). cbn [bind].
  assert (leqb v v1 = (le_value v =? 1)) as E1.
  { destruct (leqb_spec v v1) as [->|N]; [reflexivity|]. symmetry. apply Z.eqb_neq. intros E. apply N. apply (version_value v 1); auto; lia. }
  assert (leqb v v2 = (le_value v =? 2)) as E2.
  { destruct (leqb_spec v v2) as [->|N]; [reflexivity|]. symmetry. apply Z.eqb_neq. intros E. apply N. apply (version_value v 2); auto; lia. }
  unfold sp_version_ok. rewrite E1, E2. rewrite !VarInt_len by assumption.
  destruct (Z.eqb_spec (le_value v) 1) as [V1|V1].
  - (* version 1 *)
    rewrite V1 in *. cbn [Z.eqb Pos.eqb] in E1, E2 |- *. change (zmem 1 [1; 2]) with true.
    destruct (Z.eqb_spec (zlen js) 0) as [J|J]; [|right; auto]. destruct (zlen ins =? 0); [right; auto|]. cbn [negb bind andb].
    destruct (zlen ins <? 2 ^ 64); [|right; auto]. destruct (zlen outs <? 2 ^ 64); [|right; auto]. cbn [bind andb vi_bytes].
    apply zlen_0 in J. subst js.
    assert (sp_body v ins outs lock [] pk sg = v ++ compactsize (zlen ins) ++ concat (map ti_bytes ins) ++ compactsize (zlen outs) ++ concat (map to_bytes_ outs) ++ lock ++ []) as B.
    { unfold sp_body, transparent. rewrite E2, <- !app_assoc. reflexivity. }
    rewrite <- B. unfold sp_of. rewrite E2. cbn [map].
    destruct (Z.leb_spec (zlen (sp_body v ins outs lock [] pk sg)) 100000); destruct (Z.ltb_spec 100000 (zlen (sp_body v ins outs lock [] pk sg))); try lia; [left; auto|right; auto].
  - destruct (Z.eqb_spec (le_value v) 2) as [V2|V2].
    2: { right. split; [reflexivity|]. left. cbn [bind]. unfold zmem. cbn [existsb].
         destruct (Z.eqb_spec (le_value v) 1); [contradiction|]. destruct (Z.eqb_spec (le_value v) 2); [contradiction|]. reflexivity. }
    rewrite V2 in *. change (zmem 2 [1; 2]) with true. cbn [negb andb bind].
    assert (v = v2) as Ev by (apply (version_value v 2); auto; lia).
    destruct (Z.leb_spec (zlen js) 5) as [J5|J5]; destruct (Z.ltb_spec 5 (zlen js)); try lia; [|right; auto]. cbn [bind andb].
    rewrite validate_opt. destruct (wopt pk 32) eqn:Wk; [|right; auto]. cbn [bind andb].
    destruct pk as [pk|]; [|discriminate].
    destruct sg as [sg|].
    + cbn [sp_sig]. destruct (leqb sg []) eqn:Es; [cbn [orb bind]|rewrite validate_opt; cbn [wopt orb]; destruct (zlen sg =? 64); [cbn [bind]|right; auto]].
      all: destruct (zlen ins <? 2 ^ 64); [|right; auto]; destruct (zlen outs <? 2 ^ 64); [|right; auto]; cbn [bind andb vi_bytes add_opt].
      all: destruct (Z.ltb_spec (zlen js) (2 ^ 64)); [|lia]; cbn [bind vi_bytes].
      all: assert (sp_body v ins outs lock js (Some pk) (Some sg) = v ++ compactsize (zlen ins) ++ concat (map ti_bytes ins) ++ compactsize (zlen outs) ++ concat (map to_bytes_ outs) ++ lock ++ compactsize (zlen js) ++ concat (map js_bytes js) ++ pk ++ sg) as B
        by (unfold sp_body, transparent; rewrite E2, <- !app_assoc; reflexivity).
      all: rewrite <- B; unfold sp_of; rewrite E2; cbn [opt].
      all: destruct (Z.leb_spec (zlen (sp_body v ins outs lock js (Some pk) (Some sg))) 100000); destruct (Z.ltb_spec 100000 (zlen (sp_body v ins outs lock js (Some pk) (Some sg)))); try lia; [left; auto|right; auto].
    + cbn [sp_sig bind andb]. right. split; [reflexivity|].
      destruct (zlen ins <? 2 ^ 64); [|auto]. destruct (zlen outs <? 2 ^ 64); [|auto]. cbn [bind vi_bytes add_opt].
      destruct (Z.ltb_spec (zlen js) (2 ^ 64)); [|lia]. right. auto.
Qed.

Lemma SproutTx_Ok v ins outs lock js pk sg t : is_bytes v -> 
  SproutTx H net (Some v) ins outs lock (Some js) pk sg = Ok t <->
  sp_args_ok v ins outs lock js pk sg = true /\ t = sp_of v ins outs lock js pk sg.
Proof.
  intros Bv. destruct (SproutTx_cases v ins outs lock js pk sg Bv) as [[A ->]|[A [->|[-> _]]]]; rewrite A;
    (split; [intros E|intros [E ->]]); try discriminate; try reflexivity. apply Ok_inj in E. auto.
Qed.

(* no transaction without a list of joinsplits *)
Lemma SproutTx_None v ins outs lock pk sg : exists e, SproutTx H net v ins outs lock None pk sg = Err e.
Proof.
  unfold SproutTx, len_opt.
  repeat match goal with |- exists e, bind ?x _ = _ => destruct x; cbn [bind]; [|eexists; reflexivity] end.
  eexists; reflexivity.
Qed.
Lemma SproutTx_v1_None ins outs lock pk sg : zc = true -> net_has net (lit "sprout") = true -> zlen lock = 4 -> ins <> [] ->
  zlen ins < 2 ^ 64 -> zlen outs < 2 ^ 64 -> SproutTx H net (Some v1) ins outs lock None pk sg = Err TypeError.
Proof.
  intros Z S L N Li Lo. unfold SproutTx, zcash_only, MZcash.vb, guard, len_opt. fold zc. rewrite Z, S.
  rewrite (validate_opt (Some v1)), (validate_opt (Some lock)). cbn [wopt]. rewrite L. change (zlen v1) with 4. cbn [Z.eqb Pos.eqb negb bind add_opt].
  change (le2i v1 false =? 1) with true. change (le2i v1 false =? 2) with false. cbn iota. cbn [bind].
  destruct (Z.eqb_spec (zlen ins) 0) as [J|J]; [apply zlen_0 in J; contradiction|]. cbn [bind].
  change (zmem (le2i v1 false) [1; 2]) with true. cbn [negb bind].
  rewrite !VarInt_len by apply zlen_nonneg. destruct (Z.ltb_spec (zlen ins) (2 ^ 64)); [|lia]. destruct (Z.ltb_spec (zlen outs) (2 ^ 64)); [|lia]. reflexivity.
Qed.

Lemma sprout_obj_iff t : sprout_obj H net t <-> exists js,
  all_bytes (sp_version t) /\ Forall txin_obj (sp_tx_ins t) /\ Forall txout_obj (sp_tx_outs t) /\
  sp_tx_joinsplits t = Some js /\ Forall (sprout_joinsplit_obj net) js /\
  sp_args_ok (sp_version t) (sp_tx_ins t) (sp_tx_outs t) (sp_lock_time t) js (sp_joinsplit_pubkey t) (sp_joinsplit_sig t) = true /\
  t = sp_of (sp_version t) (sp_tx_ins t) (sp_tx_outs t) (sp_lock_time t) js (sp_joinsplit_pubkey t) (sp_joinsplit_sig t).
Proof.
  unfold sprout_obj. split.
  - intros [V [Fi [Fo [Fj T]]]]. destruct (sp_tx_joinsplits t) as [js|].
    + exists js. apply SproutTx_Ok in T; [tauto|apply all_bytes_is_bytes; exact V].
    + destruct (SproutTx_None (Some (sp_version t)) (sp_tx_ins t) (sp_tx_outs t) (sp_lock_time t) (sp_joinsplit_pubkey t) (sp_joinsplit_sig t)) as [e E]. congruence.
  - intros [js [V [Fi [Fo [J [Fj T]]]]]]. rewrite J. rewrite SproutTx_Ok by (apply all_bytes_is_bytes; exact V). tauto.
Qed.

Lemma sprout_idem v ins outs lock js pk sg t : is_bytes v -> SproutTx H net (Some v) ins outs lock (Some js) pk sg = Ok t ->
  SproutTx H net (Some (sp_version t)) (sp_tx_ins t) (sp_tx_outs t) (sp_lock_time t) (sp_tx_joinsplits t) (sp_joinsplit_pubkey t) (sp_joinsplit_sig t) = Ok t.
Proof.
  intros B T. apply SproutTx_Ok in T; [|exact B]. destruct T as [A ->]. unfold sp_of at 1 2 3 4 5 6 7.
  cbn [sp_version sp_tx_ins sp_tx_outs sp_lock_time sp_tx_joinsplits sp_joinsplit_pubkey sp_joinsplit_sig]. rewrite SproutTx_Ok by exact B.
  destruct (leqb v v2) eqn:E; [auto|].
  assert (js = []) as ->.
  { unfold sp_args_ok, sp_version_ok in A. rewrite E in A. destruct (leqb v v1); [|rewrite !andb_false_r in A; discriminate].
    rewrite !andb_true_iff in A. apply zlen_0. lia. }
  unfold sp_args_ok, sp_of, sp_body, sp_version_ok in *. rewrite E in *. auto.
Qed.

Lemma sprout_version t : sprout_obj H net t -> sp_version t = v1 /\ sp_tx_joinsplits t = Some [] /\ sp_joinsplit_pubkey t = None /\ sp_joinsplit_sig t = None \/
  sp_version t = v2 /\ exists js pk sg, sp_tx_joinsplits t = Some js /\ zlen js <= 5 /\ sp_joinsplit_pubkey t = Some pk /\ zlen pk = 32 /\ sp_joinsplit_sig t = Some sg /\ (sg = [] \/ zlen sg = 64).
Proof.
  intros O. apply sprout_obj_iff in O. destruct O as [js [V [Fi [Fo [J [Fj [A E]]]]]]].
  unfold sp_args_ok, sp_version_ok in A. rewrite !andb_true_iff in A. destruct A as [[[[[[_ _] _] A] _] _] _].
  destruct (leqb_spec (sp_version t) v1) as [E1|N1].
  - left. apply andb_true_iff in A. destruct A as [A _]. assert (js = []) as -> by (apply zlen_0; lia).
    apply (f_equal sp_joinsplit_pubkey) in E as E2. apply (f_equal sp_joinsplit_sig) in E as E3. cbn [sp_of sp_joinsplit_pubkey sp_joinsplit_sig] in E2, E3.
    rewrite E1 in E2, E3. change (leqb v1 v2) with false in *. auto.
  - right. rewrite !andb_true_iff in A. destruct A as [[[A1 A2] A3] A4]. destruct (leqb_spec (sp_version t) v2) as [E2|N2]; [|discriminate].
    split; [exact E2|]. destruct (sp_joinsplit_pubkey t) as [pk|]; [|discriminate]. destruct (sp_joinsplit_sig t) as [sg|]; [|discriminate].
    cbn [wopt sp_sig] in *. exists js, pk, sg. split; [exact J|]. split; [lia|]. split; [reflexivity|]. split; [lia|]. split; [reflexivity|].
    apply orb_true_iff in A4. destruct A4 as [A4|A4]; [left|right; lia]. destruct (leqb_spec sg []); [assumption|discriminate].
Qed.

Lemma sprout_bytes t : sprout_obj H net t -> sp_bytes t = sprout_wire t.
Proof.
  intros O. pose proof (sprout_version t O) as V. apply sprout_obj_iff in O. destruct O as [js [_ [Fi [Fo [J [Fj [A E]]]]]]].
  unfold sprout_wire, sprout_layout, joinsplits_wire. rewrite (inputs_wire_bytes _ Fi), (outputs_wire_bytes _ Fo), J. cbn [opts]. rewrite (js_wire_bytes net _ Fj).
  apply (f_equal sp_bytes) in E. cbn [sp_of sp_bytes] in E. rewrite E. unfold sp_body, transparent. rewrite <- !app_assoc. do 6 f_equal.
  destruct V as [[-> _]|[-> _]]; reflexivity.
Qed.

(* the parser on a serialized transaction, up to the joinsplits *)
Lemma sprout_parse_head name t rest ins' : get_network name = Ok net -> sprout_obj H net t ->
  read_parts name net (sp_tx_ins t) (sp_tx_outs t) ins' ->
  let bs := sp_bytes t ++ rest in
  exists pre, bs = pre ++ (if leqb (sp_version t) v2 then compactsize (zlen (opts (sp_tx_joinsplits t))) ++ concat (map js_bytes (opts (sp_tx_joinsplits t))) ++ opt (sp_joinsplit_pubkey t) ++ opt (sp_joinsplit_sig t) else []) ++ rest /\
  SproutTx_from_bytes H net bs =
  (' (js, pk, sg) <- (if leqb (sp_version t) v2
      then ' (js, current) <- read_many (SproutJoinsplit_from_bytes net) (fun j => zlen (js_bytes j)) (S (length bs)) bs (zlen (opts (sp_tx_joinsplits t))) (zlen pre + 1) ;;
           Ok (Some js, Some (slice bs current (current + 32)), Some (slice bs (current + 32) (current + 32 + 64)))
      else Ok (None, None, None)) ;;
   SproutTx H net (Some (sp_version t)) ins' (sp_tx_outs t) (sp_lock_time t) js pk sg).
Proof.
  intros En O [R1 [R2 [F2 [_ [_ Po]]]]] bs. unfold bs. pose proof (sprout_version t O) as V.
  apply sprout_obj_iff in O. destruct O as [js [_ [Fi [Fo [J [Fj [A E]]]]]]].
  apply (f_equal sp_bytes) in E. cbn [sp_of sp_bytes] in E. rewrite E. unfold sp_body, transparent. rewrite J. cbn [opts].
  unfold sp_args_ok in A. rewrite !andb_true_iff in A. destruct A as [[[[[[A1 A2] A3] A4] A5] A6] A7].
  rewrite <- !app_assoc.
  set (tail := if leqb (sp_version t) v2 then compactsize (zlen js) ++ concat (map js_bytes js) ++ opt (sp_joinsplit_pubkey t) ++ opt (sp_joinsplit_sig t) else []).
  match goal with |- context [SproutTx_from_bytes H net ?b] => set (bs' := b) end.
  clear bs. rename bs' into bs.
  destruct (tx_parse_prefix name net (sp_version t) (sp_tx_ins t) (sp_tx_outs t) ins' 4 (sp_lock_time t ++ tail ++ rest) En F2 Fi Fo Po) with (bs := bs)
    as [X1 [X2 [X3 [X4 [pre [X5 X6]]]]]];
    [apply (readable_spec name); assumption|apply (readable_spec name); assumption|lia|lia|destruct V as [[-> _]|[-> _]]; reflexivity|reflexivity|].
  exists (pre ++ sp_lock_time t). split; [rewrite X5, <- !app_assoc; reflexivity|].
  unfold SproutTx_from_bytes.
  replace (slice bs 0 4) with (sp_version t).
  2: { unfold bs. symmetry. apply (slice_app [] (sp_version t) _ 0 4); [reflexivity|]. destruct V as [[-> _]|[-> _]]; reflexivity. }
  rewrite X1. cbn [bind vi_number vi_bytes]. rewrite X2. cbn [bind]. rewrite X3. cbn [bind vi_number vi_bytes]. rewrite X4. cbn [bind].
  set (c4 := 4 + _ + _ + _ + _) in *.
  assert (slice bs c4 (c4 + 4) = sp_lock_time t) as -> by (rewrite X5; apply slice_app; lia).
  destruct V as [[V _]|[V [js' [pk [sg [J' [L5 _]]]]]]]; rewrite V in *.
  - reflexivity.
  - change (leqb v2 v2) with true in *. change (le2i v2 false =? 2) with true. cbn iota.
    rewrite J in J'. injection J' as <-.
    assert (zlen (compactsize (zlen js)) = 1) as Cs. { rewrite zlen_compactsize. destruct (Z.ltb_spec (zlen js) 253); lia. }
    assert (VarInt_from_bytes net (slice_from bs (c4 + 4)) = Ok {| vi_number := zlen js; vi_bytes := compactsize (zlen js) |}) as ->.
    { rewrite X5. unfold tail. rewrite V. change (leqb v2 v2) with true. cbn iota. rewrite (app_assoc pre), slice_from_app by (rewrite !zlen_app; lia). rewrite <- app_assoc.
      apply VarInt_roundtrip; [pose proof (zlen_nonneg js); lia|apply readable_small; lia]. }
    cbn [bind vi_number vi_bytes]. rewrite Cs, zlen_app. replace (zlen pre + zlen (sp_lock_time t) + 1) with (c4 + 4 + 1) by lia.
    match goal with |- _ = bind (bind ?x _) _ => destruct x as [[js1 cur]|e] end; reflexivity.
Qed.

(* version 2 *)
Lemma sprout_parse_as name t rest ins' : get_network name = Ok net -> sprout_obj H net t ->
  read_parts name net (sp_tx_ins t) (sp_tx_outs t) ins' -> le_value (sp_version t) = 2 -> rest = [] \/ sp_joinsplit_sig t <> Some [] ->
  exists t', SproutTx_from_bytes H net (sp_bytes t ++ rest) = Ok t' /\ sprout_obj H net t' /\ same_sprout t t' /\ sp_tx_ins t' = ins'.
Proof.
  intros En O P Vt C. pose proof P as [R1 [R2 [F2 [S [Fi' Po]]]]]. destruct (sprout_version t O) as [[V _]|[V [js [pk [sg [J [L5 [Ek [Lk [Es Ls]]]]]]]]]]; [rewrite V in Vt; discriminate|].
  pose proof O as O'. apply sprout_obj_iff in O'. destruct O' as [js' [Bv [Fi [Fo [J' [Fj [A E]]]]]]]. rewrite J in J'. injection J' as <-.
  destruct (same_inputs _ _ S) as [S1 [S2 S3]].
  destruct (sprout_parse_head name t rest ins' En O P) as [pre [B T]].
  rewrite J, V in B, T. change (leqb v2 v2) with true in B, T. cbn iota in B, T. cbn [opts] in B, T.
  set (bs := sp_bytes t ++ rest) in *. rewrite Ek, Es in *. cbn [opt] in B. rewrite <- !app_assoc in B.
  assert (zlen (compactsize (zlen js)) = 1) as Cs. { rewrite zlen_compactsize. destruct (Z.ltb_spec (zlen js) 253); lia. }
  assert (SproutTx_from_bytes H net bs = SproutTx H net (Some (sp_version t)) ins' (sp_tx_outs t) (sp_lock_time t) (Some js) (Some pk) (Some sg)) as ->.
  { rewrite T, V. clear T. rewrite B at 2. rewrite (app_assoc pre). rewrite (read_many_ok _ _ js_bytes js js).
    + cbn [bind]. set (c := zlen pre + 1 + zlen (concat (map js_bytes js))).
      assert (slice bs c (c + 32) = pk) as ->.
      { rewrite B, (app_assoc pre), (app_assoc (pre ++ _)). apply slice_app; rewrite ?zlen_app; unfold c; lia. }
      assert (slice bs (c + 32) (c + 32 + 64) = sg) as ->.
      { rewrite B, (app_assoc pre), (app_assoc (pre ++ _)), (app_assoc (_ ++ concat (map js_bytes js))).
        destruct Ls as [->|Ls]; [|apply slice_app; rewrite ?zlen_app; unfold c; lia].
        destruct C as [->|C]; [|destruct C; reflexivity]. cbn [app]. rewrite app_nil_r.
        apply zlen_0. rewrite zlen_slice by (pose proof (zlen_nonneg pre); pose proof (zlen_nonneg (concat (map js_bytes js))); unfold c; lia). rewrite !zlen_app. unfold c. lia. }
      reflexivity.
    + apply Forall2_refl_in. intros x I. rewrite Forall_forall in Fj. split; [|reflexivity]. intros r. apply sprout_joinsplit_parse, Fj, I.
    + assert (length js <= 5)%nat as Lj by (unfold zlen in *; lia). apply Nat.le_trans with (m := 5%nat); [exact Lj|].
      assert (4 <= length bs)%nat; [|lia]. unfold bs. rewrite E. cbn [sp_of sp_bytes]. unfold sp_body. rewrite V. cbn [v2 app length]. lia.
    + reflexivity.
    + rewrite zlen_app. lia. }
  assert (SproutTx H net (Some (sp_version t)) ins' (sp_tx_outs t) (sp_lock_time t) (Some js) (Some pk) (Some sg) =
    Ok (sp_of (sp_version t) ins' (sp_tx_outs t) (sp_lock_time t) js (Some pk) (Some sg))) as T'.
  { apply SproutTx_Ok; [apply all_bytes_is_bytes; exact Bv|]. split; [|reflexivity].
    unfold sp_args_ok, sp_body, sp_version_ok, transparent in A |- *. rewrite S2, S3. exact A. }
  rewrite T'. eexists. split; [reflexivity|]. split.
  - unfold sprout_obj. apply sprout_idem in T'; [|apply all_bytes_is_bytes; exact Bv]. split; [exact Bv|]. split; [exact Fi'|]. split; [exact Fo|]. split; [exact Fj|exact T'].
  - unfold same_sprout. rewrite E. cbn [sp_of sp_bytes sp_tx_id sp_version sp_tx_ins sp_tx_outs sp_lock_time sp_tx_joinsplits sp_joinsplit_pubkey sp_joinsplit_sig sp_hsigs sp_primary_inputs].
    unfold sp_body, transparent. rewrite S1, S2, S3, V. repeat split.
Qed.
Lemma sprout_parse name t rest : get_network name = Ok net -> sprout_obj H net t ->
  parsable_parts name (sp_tx_ins t) (sp_tx_outs t) -> le_value (sp_version t) = 2 -> rest = [] \/ sp_joinsplit_sig t <> Some [] ->
  exists t', SproutTx_from_bytes H net (sp_bytes t ++ rest) = Ok t' /\ sprout_obj H net t' /\ same_sprout t t'.
Proof.
  intros En O P. pose proof O as O'. apply sprout_obj_iff in O'. destruct O' as [js0 [_ [Fi _]]].
  destruct (parsable_read_parts name net _ _ En Fi P) as [ins' R]. intros.
  destruct (sprout_parse_as name t rest ins' En O R) as [t' [X1 [X2 [X3 _]]]]; try assumption. exists t'. auto.
Qed.

(* version 1 cannot be read *)
Lemma sprout_v1_as name t rest ins' : get_network name = Ok net -> sprout_obj H net t ->
  read_parts name net (sp_tx_ins t) (sp_tx_outs t) ins' -> le_value (sp_version t) = 1 ->
  SproutTx_from_bytes H net (sp_bytes t ++ rest) = Err TypeError.
Proof.
  intros En O P Vt. pose proof P as [R1 [R2 [F2 [S [Fi' Po]]]]]. destruct (sprout_version t O) as [[V _]|[V _]]; [|rewrite V in Vt; discriminate].
  pose proof O as O'. apply sprout_obj_iff in O'. destruct O' as [js' [Bv [Fi [Fo [J' [Fj [A E]]]]]]].
  destruct (same_inputs _ _ S) as [S1 [S2 S3]].
  destruct (sprout_parse_head name t rest ins' En O P) as [pre [_ ->]]. rewrite V. change (leqb v1 v2) with false. cbn iota. cbn [bind].
  unfold sp_args_ok, sp_version_ok in A. rewrite V in A. change (leqb v1 v1) with true in A. rewrite !andb_true_iff in A.
  destruct A as [[[[[[A1 A2] A3] [_ A4]] A5] A6] _].
  apply SproutTx_v1_None; try assumption; try lia. intros ->. change (zlen (@nil txin)) with 0 in S3. rewrite <- S3 in A4. discriminate.
Qed.
Lemma sprout_v1 name t rest : get_network name = Ok net -> sprout_obj H net t ->
  parsable_parts name (sp_tx_ins t) (sp_tx_outs t) -> le_value (sp_version t) = 1 ->
  SproutTx_from_bytes H net (sp_bytes t ++ rest) = Err TypeError.
Proof.
  intros En O P. pose proof O as O'. apply sprout_obj_iff in O'. destruct O' as [js0 [_ [Fi _]]].
  destruct (parsable_read_parts name net _ _ En Fi P) as [ins' R]. intros. apply (sprout_v1_as name t rest ins' En O R); assumption.
Qed.

(* version 1 can never be read *)
Lemma sprout_v1_never s t : SproutTx_from_bytes H net s = Ok t -> le_value (slice s 0 4) = 2.
Proof.
  unfold SproutTx_from_bytes. rewrite le2i_le. destruct (Z.eqb_spec (le_value (slice s 0 4)) 2) as [E|N]; [auto|].
  repeat match goal with |- bind ?x _ = _ -> _ => destruct x as [a|]; [try destruct a; cbn [bind]|discriminate] end.
  intros T. match type of T with SproutTx _ _ ?v ?i ?o ?l None ?p ?s = _ => destruct (SproutTx_None v i o l p s) as [e Y]; congruence end.
Qed.
End Tx.
