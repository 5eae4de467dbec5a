(* Lemmas about MZcash.v: Sapling transactions *)
From Coq Require Import String.
From Verif Require Import Py LBase MNet MUtils MShared MScript MTx MZcash SNum SNet SHash SScript STx SSig SZcash LNet LUtils LVarint LTx LTxParse LSig LZcash LZcashTx LZip.
Open Scope list_scope.
Open Scope Z_scope.
Ltac Zify.zify_post_hook ::= idtac.

Section Tx.
Context (H : hashes) (net : network).
Let zc : bool := net_has net (lit "zcash").

Definition sa_body ins outs lock expiry vb (sp : list shielded_spend) (so : list shielded_output) (js : list sapling_joinsplit) pk sg bs : bytes :=
  [4; 0; 0; 0x80] ++ [0x85; 0x20; 0x2f; 0x89] ++ transparent ins outs ++ lock ++ expiry ++ vb ++
  compactsize (zlen sp) ++ concat (map ss_bytes sp) ++ compactsize (zlen so) ++ concat (map so_bytes so) ++ compactsize (zlen js) ++
  (if zlen js =? 0 then [] else concat (map js_bytes js) ++ opt pk ++ opt sg) ++
  (if zlen so + zlen sp =? 0 then [] else opt bs).

Definition sa_binding (bs : option bytes) (shielded : bool) : bool := match bs with Some b => zlen b =? 64 | None => negb shielded end.
Definition sa_args_ok ins outs lock expiry vb (sp : list shielded_spend) (so : list shielded_output) (js : list sapling_joinsplit) pk sg bs : bool :=
  zc && net_has net (lit "sapling") && (zlen lock =? 4) && (zlen expiry =? 4) && (zlen vb =? 8) && (le_value expiry <=? 499999999) &&
  (negb (zlen sp + zlen so =? 0) || leqb vb (zrepeat 0 8)) && sa_binding bs (negb (zlen sp + zlen so =? 0)) &&
  (zlen js <=? 5) && ((zlen js =? 0) || (wopt pk 32 && wopt sg 64)) && negb (zlen js + zlen ins + zlen sp =? 0) &&
  (zlen ins <? 2 ^ 64) && (zlen outs <? 2 ^ 64) && (zlen sp <? 2 ^ 64) && (zlen so <? 2 ^ 64) &&
  (zlen (sa_body ins outs lock expiry vb sp so js pk sg bs) <=? 100000).

Definition sa_of ins outs lock expiry vb (sp : list shielded_spend) (so : list shielded_output) (js : list sapling_joinsplit) pk sg bs : sapling_tx :=
  let b := sa_body ins outs lock expiry vb sp so js pk sg bs in
  let some_js := negb (zlen js =? 0) in
  {| sa_header := [4; 0; 0; 0x80]; sa_group_id := [0x85; 0x20; 0x2f; 0x89];
     sa_tx_ins := ins; sa_tx_outs := outs; sa_lock_time := lock;
     sa_expiry_height := expiry; sa_value_balance := vb;
     sa_tx_shielded_spends := sp; sa_tx_shielded_outputs := so;
     sa_tx_joinsplits := js;
     sa_joinsplit_pubkey := if some_js then pk else None;
     sa_joinsplit_sig := if some_js then sg else None;
     sa_binding_sig := if negb (zlen so + zlen sp =? 0) then bs else None;
     sa_hsigs := map (hsig H (opt pk)) js;
     sa_primary_inputs := map (primary_input H (opt pk)) js;
     sa_tx_id_le := hash256 H net b; sa_tx_id := rev (hash256 H net b); sa_bytes := b |}.

(* the only error that is no ValueError: shielded parts without binding signature *)
Lemma SaplingTx_cases ins outs lock expiry vb sp so js pk sg bs :
  (sa_args_ok ins outs lock expiry vb sp so js pk sg bs = true /\
   SaplingTx H net ins outs lock expiry vb (Some sp) (Some so) (Some js) pk sg bs = Ok (sa_of ins outs lock expiry vb sp so js pk sg bs)) \/
  (sa_args_ok ins outs lock expiry vb sp so js pk sg bs = false /\
   (SaplingTx H net ins outs lock expiry vb (Some sp) (Some so) (Some js) pk sg bs = Err ValueError \/
    SaplingTx H net ins outs lock expiry vb (Some sp) (Some so) (Some js) pk sg bs = Err TypeError /\ bs = None /\ ~ (sp = [] /\ so = []))).
Proof.
  unfold SaplingTx, sa_args_ok, zcash_only, MZcash.vb, guard, len_opt. fold zc.
  pose proof (zlen_nonneg ins). pose proof (zlen_nonneg outs). pose proof (zlen_nonneg js). pose proof (zlen_nonneg sp). pose proof (zlen_nonneg so).
  destruct zc; [|right; auto]. destruct (net_has net (lit "sapling")); [|right; auto]. cbn [negb bind andb].
  rewrite (validate_opt (Some lock)), (validate_opt (Some expiry)), (validate_opt (Some vb)). cbn [wopt]. destruct (zlen lock =? 4); [|right; auto]. destruct (zlen expiry =? 4); [|right; auto].
  destruct (zlen vb =? 8); [|right; auto]. cbn [bind andb].
  rewrite le2i_le. destruct (Z.leb_spec (le_value expiry) 499999999); destruct (Z.ltb_spec 499999999 (le_value expiry)); try lia; [|right; auto].
  cbn [bind andb].
  replace (zlen so + zlen sp) with (zlen sp + zlen so) by lia.
  set (some := negb (zlen sp + zlen so =? 0)).
  assert ((if (zlen sp + zlen so =? 0) && negb (leqb vb (zrepeat 0 8)) then Err ValueError
          else match bs with Some s => validate_bytes (Some s) (Some 64) | None => Ok tt end) =
          if (some || leqb vb (zrepeat 0 8)) && match bs with Some b => zlen b =? 64 | None => true end then Ok tt else Err ValueError) as ->.
  { unfold some. destruct (zlen sp + zlen so =? 0), (leqb vb (zrepeat 0 8)); cbn [negb andb orb]; try reflexivity;
      destruct bs as [b|]; try reflexivity; rewrite validate_opt; reflexivity. }
  fold some. destruct (some || leqb vb (zrepeat 0 8)); [|right; auto]. cbn [andb].
  assert (sa_binding bs some = match bs with Some b => zlen b =? 64 | None => true end && match bs with Some _ => true | None => negb some end) as ->.
  { unfold sa_binding. destruct bs; [rewrite andb_true_r|]; reflexivity. }
  destruct (match bs with Some b => zlen b =? 64 | None => true end) eqn:Eb; [|right; auto]. cbn [bind andb].
  destruct (Z.ltb_spec 5 (zlen js)) as [J5|J5].
  { destruct (Z.leb_spec (zlen js) 5); [lia|]. rewrite andb_false_r. right. auto. }
  destruct (Z.leb_spec (zlen js) 5); [|lia]. cbn [bind andb]. rewrite andb_true_r.
  set (okb := match bs with Some _ => true | None => negb some end).
  (* keys *)
  destruct ((zlen js =? 0) || wopt pk 32 && wopt sg 64) eqn:K.
  2: { apply orb_false_iff in K. destruct K as [K1 K2]. rewrite K1. cbn [negb bind]. rewrite !validate_opt.
       right. rewrite andb_false_r. split; [reflexivity|]. left. destruct (wopt pk 32); [|reflexivity]. cbn [andb] in K2. rewrite K2. reflexivity. }
  assert ((if negb (zlen js =? 0) then _ <- validate_bytes pk (Some 32);; validate_bytes sg (Some 64) else Ok tt) = Ok tt) as ->.
  { destruct (zlen js =? 0); [reflexivity|]. cbn [orb negb] in *. apply andb_true_iff in K. destruct K as [K1 K2].
    rewrite !validate_opt, K1, K2. reflexivity. }
  cbn [bind]. rewrite andb_true_r.
  destruct (Z.eqb_spec (zlen js + zlen ins + zlen sp) 0); [right; cbn [negb]; rewrite andb_false_r; auto|]. cbn [negb bind]. rewrite andb_true_r.
  rewrite !VarInt_len by assumption.
  destruct (zlen ins <? 2 ^ 64); [|right; rewrite andb_false_r; auto]. destruct (zlen outs <? 2 ^ 64); [|right; rewrite andb_false_r; auto].
  destruct (zlen sp <? 2 ^ 64); [|right; rewrite andb_false_r; auto]. destruct (zlen so <? 2 ^ 64); [|right; rewrite andb_false_r; auto].
  destruct (Z.ltb_spec (zlen js) (2 ^ 64)); [|lia]. cbn [bind andb vi_bytes]. rewrite !andb_true_r.
  assert ((if negb (zlen js =? 0) then pk0 <- add_opt pk;; sg0 <- add_opt sg;; Ok (pk0, concat (map js_bytes js) ++ pk0 ++ sg0) else Ok ([], [])) =
    Ok (if zlen js =? 0 then [] else opt pk, if zlen js =? 0 then [] else concat (map js_bytes js) ++ opt pk ++ opt sg)) as ->.
  { destruct (zlen js =? 0); [reflexivity|]. cbn [orb negb] in *. destruct pk as [pk|]; [|discriminate]. destruct sg as [sg|]; [|rewrite andb_false_r in K; discriminate].
    reflexivity. }
  cbn [bind].
  destruct okb eqn:Ok1.
  - assert ((if some then add_opt bs else Ok []) = Ok (if zlen sp + zlen so =? 0 then [] else opt bs)) as ->.
    { unfold okb in Ok1. unfold some in *. revert Ok1. destruct (zlen sp + zlen so =? 0); [reflexivity|]. cbn [negb]. destruct bs; [reflexivity|]. discriminate. }
    cbn [bind andb].
    assert (sa_body ins outs lock expiry vb sp so js pk sg bs = [4; 0; 0; 0x80] ++ [0x85; 0x20; 0x2f; 0x89]
      ++ compactsize (zlen ins) ++ concat (map ti_bytes ins) ++ compactsize (zlen outs) ++ concat (map to_bytes_ outs)
      ++ lock ++ expiry ++ vb ++ compactsize (zlen sp) ++ concat (map ss_bytes sp) ++ compactsize (zlen so) ++ concat (map so_bytes so)
      ++ compactsize (zlen js) ++ (if zlen js =? 0 then [] else concat (map js_bytes js) ++ opt pk ++ opt sg) ++ (if zlen sp + zlen so =? 0 then [] else opt bs)) as B.
    { unfold sa_body, transparent. replace (zlen so + zlen sp) with (zlen sp + zlen so) by lia. rewrite <- !app_assoc. reflexivity. }
    rewrite <- B. 
    destruct (Z.leb_spec (zlen (sa_body ins outs lock expiry vb sp so js pk sg bs)) 100000); destruct (Z.ltb_spec 100000 (zlen (sa_body ins outs lock expiry vb sp so js pk sg bs))); try lia; [left|right; auto].
    split; [reflexivity|]. unfold sa_of. replace (zlen so + zlen sp) with (zlen sp + zlen so) by lia. fold some. cbn [bind].
    destruct (Z.eqb_spec (zlen js) 0) as [J|J]; [|reflexivity]. apply zlen_0 in J. subst js. reflexivity.
  - right. split; [reflexivity|]. right. unfold okb in Ok1. destruct bs as [b|]; [discriminate|].
    assert (some = true) as S1 by (destruct some; [reflexivity|discriminate]). rewrite S1.
    split; [reflexivity|]. split; [reflexivity|]. intros [-> ->]. discriminate S1.
Qed.

Lemma SaplingTx_Ok ins outs lock expiry vb sp so js pk sg bs t :
  SaplingTx H net ins outs lock expiry vb (Some sp) (Some so) (Some js) pk sg bs = Ok t <->
  sa_args_ok ins outs lock expiry vb sp so js pk sg bs = true /\ t = sa_of ins outs lock expiry vb sp so js pk sg bs.
Proof.
  destruct (SaplingTx_cases ins outs lock expiry vb sp so js pk sg bs) as [[A ->]|[A [->|[-> _]]]]; rewrite A;
    (split; [intros E|intros [E ->]]); try discriminate; try reflexivity. apply Ok_inj in E. auto.
Qed.

Lemma sapling_idem ins outs lock expiry vb sp so js pk sg bs t :
  SaplingTx H net ins outs lock expiry vb (Some sp) (Some so) (Some js) pk sg bs = Ok t ->
  SaplingTx H net (sa_tx_ins t) (sa_tx_outs t) (sa_lock_time t) (sa_expiry_height t) (sa_value_balance t)
      (Some (sa_tx_shielded_spends t)) (Some (sa_tx_shielded_outputs t)) (Some (sa_tx_joinsplits t))
      (sa_joinsplit_pubkey t) (sa_joinsplit_sig t) (sa_binding_sig t) = Ok t.
Proof.
  rewrite !SaplingTx_Ok. intros [A ->]. unfold sa_of.
  cbn [sa_tx_ins sa_tx_outs sa_lock_time sa_expiry_height sa_value_balance sa_tx_shielded_spends sa_tx_shielded_outputs sa_tx_joinsplits sa_joinsplit_pubkey sa_joinsplit_sig sa_binding_sig].
  unfold sa_args_ok, sa_body in *. replace (zlen sp + zlen so) with (zlen so + zlen sp) in * by lia.
  set (k := zlen so + zlen sp) in *.
  destruct (Z.eqb_spec (zlen js) 0) as [J|J]; destruct (Z.eqb_spec k 0) as [S0|S0]; cbn [negb orb andb] in *; auto.
  all: try (apply zlen_0 in J; subst js; cbn [map] in * ).
  all: split; [|reflexivity]; unfold sa_binding in *; cbn [negb]; destruct bs; cbn [negb] in *; rewrite ?andb_true_r in *;
    repeat rewrite andb_true_iff in A; repeat rewrite andb_true_iff; tauto.
Qed.

Lemma sapling_obj_iff t : sapling_obj H net t <->
  Forall txin_obj (sa_tx_ins t) /\ Forall txout_obj (sa_tx_outs t) /\ Forall (spend_obj net) (sa_tx_shielded_spends t) /\
  Forall (shielded_output_obj net) (sa_tx_shielded_outputs t) /\ Forall (sapling_joinsplit_obj net) (sa_tx_joinsplits t) /\
  sa_args_ok (sa_tx_ins t) (sa_tx_outs t) (sa_lock_time t) (sa_expiry_height t) (sa_value_balance t)
      (sa_tx_shielded_spends t) (sa_tx_shielded_outputs t) (sa_tx_joinsplits t)
      (sa_joinsplit_pubkey t) (sa_joinsplit_sig t) (sa_binding_sig t) = true /\
  t = sa_of (sa_tx_ins t) (sa_tx_outs t) (sa_lock_time t) (sa_expiry_height t) (sa_value_balance t)
      (sa_tx_shielded_spends t) (sa_tx_shielded_outputs t) (sa_tx_joinsplits t)
      (sa_joinsplit_pubkey t) (sa_joinsplit_sig t) (sa_binding_sig t).
Proof. unfold sapling_obj. rewrite SaplingTx_Ok. tauto. Qed.

(* keys and signatures are there exactly when they are needed *)
Lemma sapling_keys t : sapling_obj H net t ->
  (sa_tx_joinsplits t = [] -> sa_joinsplit_pubkey t = None /\ sa_joinsplit_sig t = None) /\
  (sa_tx_joinsplits t <> [] -> exists pk sg, sa_joinsplit_pubkey t = Some pk /\ sa_joinsplit_sig t = Some sg /\ zlen pk = 32 /\ zlen sg = 64) /\
  (sa_tx_shielded_spends t = [] /\ sa_tx_shielded_outputs t = [] -> sa_binding_sig t = None) /\
  (~ (sa_tx_shielded_spends t = [] /\ sa_tx_shielded_outputs t = []) -> exists bs, sa_binding_sig t = Some bs /\ zlen bs = 64).
Proof.
  intros O. apply sapling_obj_iff in O. destruct O as [_ [_ [_ [_ [_ [A E]]]]]].
  apply (f_equal sa_joinsplit_pubkey) in E as E1. apply (f_equal sa_joinsplit_sig) in E as E2. apply (f_equal sa_binding_sig) in E as E3.
  cbn [sa_of sa_joinsplit_pubkey sa_joinsplit_sig sa_binding_sig] in E1, E2, E3. clear E.
  unfold sa_args_ok in A. rewrite !andb_true_iff in A.
  destruct A as [[[[[[[[[[[[[[[_ _] _] _] _] _] _] A1] _] A2] _] _] _] _] _] _].
  pose proof (zlen_nonneg (sa_tx_shielded_spends t)). pose proof (zlen_nonneg (sa_tx_shielded_outputs t)).
  repeat split.
  - rewrite E1. rewrite H2. reflexivity.
  - rewrite E2. rewrite H2. reflexivity.
  - intros J. destruct (Z.eqb_spec (zlen (sa_tx_joinsplits t)) 0) as [J0|J0]; [apply zlen_0 in J0; contradiction|]. cbn [orb] in A2.
    apply andb_true_iff in A2. destruct A2 as [K1 K2].
    destruct (sa_joinsplit_pubkey t) as [pk|]; [|discriminate]. destruct (sa_joinsplit_sig t) as [sg|]; [|discriminate].
    cbn [wopt] in *. exists pk, sg. repeat split; lia.
  - intros [S1 S2]. rewrite E3, S1, S2. reflexivity.
  - intros N. assert (zlen (sa_tx_shielded_spends t) + zlen (sa_tx_shielded_outputs t) <> 0) as N0.
    { intros Z0. apply N. split; apply zlen_0; lia. }
    apply Z.eqb_neq in N0. rewrite N0 in A1. destruct (sa_binding_sig t) as [b|]; [|discriminate]. cbn [sa_binding] in A1. exists b. split; [reflexivity|lia].
Qed.

Lemma sapling_bytes t : sapling_obj H net t -> sa_bytes t = sapling_wire t.
Proof.
  intros O. destruct (sapling_keys t O) as [K1 [_ [K3 _]]]. apply sapling_obj_iff in O. destruct O as [Fi [Fo [Fs [Fu [Fj [A E]]]]]].
  unfold sapling_wire, sapling_layout, joinsplits_wire.
  rewrite (inputs_wire_bytes _ Fi), (outputs_wire_bytes _ Fo), (spends_wire_bytes net _ Fs), (souts_wire_bytes net _ Fu), (sjs_wire_bytes net _ Fj).
  rewrite E at 1. cbn [sa_of sa_bytes]. unfold sa_body, transparent. change sapling_header with ([4; 0; 0; 0x80] ++ [0x85; 0x20; 0x2f; 0x89]).
  rewrite <- !app_assoc. do 14 f_equal.
  pose proof (zlen_nonneg (sa_tx_shielded_spends t)). pose proof (zlen_nonneg (sa_tx_shielded_outputs t)).
  destruct (Z.eqb_spec (zlen (sa_tx_joinsplits t)) 0) as [J|J];
  destruct (Z.eqb_spec (zlen (sa_tx_shielded_outputs t) + zlen (sa_tx_shielded_spends t)) 0) as [S0|S0].
  all: try (apply zlen_0 in J; destruct (K1 J) as [-> ->]; rewrite J).
  all: try (assert (sa_binding_sig t = None) as -> by (apply K3; split; apply zlen_0; lia)).
  all: rewrite <- ?app_assoc; reflexivity.
Qed.

Lemma sapling_sizes t : sapling_obj H net t -> zlen (sa_tx_shielded_outputs t) < 253 /\ zlen (sa_tx_shielded_spends t) < 2 ^ 16.
Proof.
  intros O. apply sapling_obj_iff in O. destruct O as [Fi [Fo [Fs [Fu [Fj [A E]]]]]].
  unfold sa_args_ok in A. apply andb_true_iff in A. destruct A as [_ A]. unfold sa_body in A. rewrite !zlen_app in A.
  assert (zlen (concat (map ss_bytes (sa_tx_shielded_spends t))) = zlen (sa_tx_shielded_spends t) * 384) as L1 by (apply (concat_len _ ss_bytes 384 _ (spend_len net) Fs)).
  assert (zlen (concat (map so_bytes (sa_tx_shielded_outputs t))) = zlen (sa_tx_shielded_outputs t) * 948) as L2 by (apply (concat_len _ so_bytes 948 _ (sout_len net) Fu)).
  rewrite L1, L2 in A.
  repeat match type of A with context [zlen ?x] => lazymatch goal with _ : 0 <= zlen x |- _ => fail | _ => pose proof (zlen_nonneg x) end end.
  apply Z.leb_le in A. lia.
Qed.

(* the parser on a serialized transaction, up to the joinsplits *)
Lemma sapling_parse_head name t rest ins' : get_network name = Ok net -> sapling_obj H net t ->
  read_parts name net (sa_tx_ins t) (sa_tx_outs t) ins' -> readable_size name (count (sa_tx_shielded_spends t)) ->
  let bs := sa_bytes t ++ rest in
  exists pre, let c := zlen pre + 1 + (zlen (compactsize (zlen (sa_tx_outs t))) - 1) in
  bs = pre ++ compactsize (zlen (sa_tx_joinsplits t)) ++ concat (map js_bytes (sa_tx_joinsplits t)) ++ opt (sa_joinsplit_pubkey t) ++ opt (sa_joinsplit_sig t) ++ opt (sa_binding_sig t) ++ rest /\
  SaplingTx_from_bytes H net bs =
  (' (js, current) <- read_many (SaplingJoinsplit_from_bytes net) (fun j => zlen (js_bytes j)) (S (length bs)) bs (zlen (sa_tx_joinsplits t)) c ;;
   let '(pk, sg, current) :=
      if 0 <? zlen js
      then (Some (slice bs current (current + 32)), Some (slice bs (current + 32) (current + 32 + 64)), current + 32 + 64)
      else (None, None, current) in
    SaplingTx H net ins' (sa_tx_outs t) (sa_lock_time t) (sa_expiry_height t) (sa_value_balance t) (Some (sa_tx_shielded_spends t))
      (Some (sa_tx_shielded_outputs t)) (Some js) pk sg
      (if 0 <? zlen (sa_tx_shielded_spends t) + zlen (sa_tx_shielded_outputs t) then Some (slice bs current (current + 64)) else None)).
Proof.
  intros En O [R1 [R2 [F2 [_ [_ Po]]]]] Rs bs. unfold bs. rewrite (sapling_bytes t O). destruct (sapling_sizes t O) as [Z1 Z2].
  apply sapling_obj_iff in O. destruct O as [Fi [Fo [Fs [Fu [Fj [A E]]]]]].
  unfold sapling_wire, sapling_layout, joinsplits_wire.
  rewrite (inputs_wire_bytes _ Fi), (outputs_wire_bytes _ Fo), (spends_wire_bytes net _ Fs), (souts_wire_bytes net _ Fu), (sjs_wire_bytes net _ Fj).
  unfold sa_args_ok in A. rewrite !andb_true_iff in A.
  destruct A as [[[[[[[[[[[[[[[A1 A2] A3] A4] A5] A6] A7] A8] A9] A10] A11] A12] A13] A14] A15] _].
  rewrite <- !app_assoc.
  set (n := sa_tx_joinsplits t) in *.
  set (tail := concat (map js_bytes n) ++ opt (sa_joinsplit_pubkey t) ++ opt (sa_joinsplit_sig t) ++ opt (sa_binding_sig t) ++ rest).
  match goal with |- context [SaplingTx_from_bytes H net ?b] => set (bs' := b) end.
  clear bs. rename bs' into bs.
  set (spw := compactsize (zlen (sa_tx_shielded_spends t)) ++ concat (map ss_bytes (sa_tx_shielded_spends t))).
  set (sow := compactsize (zlen (sa_tx_shielded_outputs t)) ++ concat (map so_bytes (sa_tx_shielded_outputs t))).
  destruct (tx_parse_prefix name net sapling_header (sa_tx_ins t) (sa_tx_outs t) ins' 8 (sa_lock_time t ++ sa_expiry_height t ++ sa_value_balance t ++ spw ++ sow ++ compactsize (zlen n) ++ tail) En F2 Fi Fo Po) with (bs := bs)
    as [X1 [X2 [X3 [X4 [pre [X5 X6]]]]]];
    [apply (readable_spec name); assumption|apply (readable_spec name); assumption|lia|lia|reflexivity|unfold bs, spw, sow; rewrite <- !app_assoc; reflexivity|].
  assert (zlen (compactsize (zlen n)) = 1) as Cs. { rewrite zlen_compactsize. destruct (Z.ltb_spec (zlen n) 253); lia. }
  set (p0 := pre ++ sa_lock_time t ++ sa_expiry_height t ++ sa_value_balance t).
  exists (p0 ++ spw ++ sow).
  split; [rewrite X5; unfold p0; rewrite <- !app_assoc; reflexivity|].
  unfold SaplingTx_from_bytes.
  replace (slice bs 0 4) with [4; 0; 0; 0x80] by (unfold bs; symmetry; apply (slice_app [] [4; 0; 0; 0x80] _ 0 4); reflexivity).
  replace (slice bs 4 8) with [0x85; 0x20; 0x2f; 0x89] by (unfold bs; symmetry; apply (slice_app [4; 0; 0; 0x80] [0x85; 0x20; 0x2f; 0x89] _ 4 8); reflexivity).
  rewrite !leqb_refl. cbv [guard negb orb]. cbn [bind].
  rewrite X1. cbn [bind vi_number vi_bytes]. rewrite X2. cbn [bind]. rewrite X3. cbn [bind vi_number vi_bytes]. rewrite X4. cbn [bind].
  set (c4 := 8 + _ + _ + _ + _) in *.
  assert (slice bs c4 (c4 + 4) = sa_lock_time t) as -> by (rewrite X5; apply slice_app; lia).
  assert (slice bs (c4 + 4) (c4 + 4 + 4) = sa_expiry_height t) as -> by (rewrite X5, app_assoc; apply slice_app; rewrite ?zlen_app; lia).
  assert (slice bs (c4 + 4 + 4) (c4 + 4 + 4 + 8) = sa_value_balance t) as ->.
  { rewrite X5, app_assoc, (app_assoc (pre ++ _)). apply slice_app; rewrite ?zlen_app; lia. }
  assert (zlen p0 = c4 + 4 + 4 + 8) as L0 by (unfold p0; rewrite !zlen_app; lia).
  destruct (read_vector net (SaplingShieldedSpend_from_bytes net) (fun s => zlen (ss_bytes s)) ss_bytes (sa_tx_shielded_spends t) (sa_tx_shielded_spends t)
    p0 (sow ++ compactsize (zlen n) ++ tail) (c4 + 4 + 4 + 8)) with (bs := bs) as [Y1 Y2].
  { apply Forall2_refl_in. intros x I. rewrite Forall_forall in Fs. split; [|reflexivity]. intros r. apply spend_parse, Fs, I. }
  { intros x I. rewrite Forall_forall in Fs. pose proof (spend_len net x (Fs x I)). lia. }
  { lia. } { apply (readable_spec name); assumption. } { exact L0. }
  { rewrite X5. unfold p0, spw. rewrite <- !app_assoc. reflexivity. }
  rewrite Y1. cbn [bind vi_number vi_bytes]. rewrite Y2. cbn [bind].
  set (c5 := c4 + 4 + 4 + 8 + _ + _).
  destruct (read_vector net (SaplingShieldedOutput_from_bytes net) (fun s => zlen (so_bytes s)) so_bytes (sa_tx_shielded_outputs t) (sa_tx_shielded_outputs t)
    (p0 ++ spw) (compactsize (zlen n) ++ tail) c5) with (bs := bs) as [W1 W2].
  { apply Forall2_refl_in. intros x I. rewrite Forall_forall in Fu. split; [|reflexivity]. intros r. apply shielded_output_parse, Fu, I. }
  { intros x I. rewrite Forall_forall in Fu. pose proof (sout_len net x (Fu x I)). lia. }
  { lia. } { apply readable_small. lia. } { unfold spw, c5. rewrite !zlen_app. lia. }
  { rewrite X5. unfold p0, sow. rewrite <- !app_assoc. reflexivity. }
  rewrite W1. cbn [bind vi_number vi_bytes]. rewrite W2. cbn [bind].
  set (c6 := c5 + _ + _).
  assert (zlen (p0 ++ spw ++ sow) = c6) as L6 by (unfold c6, c5, spw, sow; rewrite !zlen_app; lia).
  assert (VarInt_from_bytes net (slice_from bs c6) = Ok {| vi_number := zlen n; vi_bytes := compactsize (zlen n) |}) as ->.
  { rewrite X5. replace (pre ++ sa_lock_time t ++ sa_expiry_height t ++ sa_value_balance t ++ spw ++ sow ++ compactsize (zlen n) ++ tail)
      with ((p0 ++ spw ++ sow) ++ compactsize (zlen n) ++ tail) by (unfold p0; rewrite <- !app_assoc; reflexivity).
    rewrite slice_from_app by exact L6.
    apply VarInt_roundtrip; [pose proof (zlen_nonneg n); lia|apply readable_small; lia]. }
  cbn [bind vi_number vi_bytes].
  rewrite L6. replace (c6 + 1 + (zlen (compactsize (zlen (sa_tx_outs t))) - 1)) with (c6 + zlen (compactsize (zlen (sa_tx_outs t)))) by lia.
  match goal with |- _ = bind ?x _ => destruct x as [[js cur]|e] end; [|reflexivity]. cbn [bind].
  destruct (0 <? zlen js); reflexivity.
Qed.

Lemma sapling_parse_as name t rest ins' : get_network name = Ok net -> sapling_obj H net t ->
  read_parts name net (sa_tx_ins t) (sa_tx_outs t) ins' -> readable_size name (count (sa_tx_shielded_spends t)) ->
  zlen (sa_tx_outs t) < 253 \/ sa_tx_joinsplits t = [] /\ sa_tx_shielded_spends t = [] /\ sa_tx_shielded_outputs t = [] ->
  exists t', SaplingTx_from_bytes H net (sa_bytes t ++ rest) = Ok t' /\ sapling_obj H net t' /\ same_sapling t t' /\ sa_tx_ins t' = ins'.
Proof.
  intros En O P Rs C. pose proof P as [R1 [R2 [F2 [S [Fi' Po]]]]]. destruct (sapling_keys t O) as [K1 [K2 [K3 K4]]].
  pose proof O as O'. apply sapling_obj_iff in O'. destruct O' as [Fi [Fo [Fs [Fu [Fj [A E]]]]]].
  destruct (same_inputs _ _ S) as [S1 [S2 S3]].
  destruct (sapling_parse_head name t rest ins' En O P Rs) as [pre [B T]].
  set (bs := sa_bytes t ++ rest) in *. set (js := sa_tx_joinsplits t) in *.
  assert (SaplingTx_from_bytes H net bs = SaplingTx H net ins' (sa_tx_outs t) (sa_lock_time t) (sa_expiry_height t) (sa_value_balance t) (Some (sa_tx_shielded_spends t))
      (Some (sa_tx_shielded_outputs t)) (Some js) (sa_joinsplit_pubkey t) (sa_joinsplit_sig t) (sa_binding_sig t)) as ->.
  { rewrite T. clear T.
    unfold sa_args_ok in A. rewrite !andb_true_iff in A.
    destruct A as [[[[[[[[[[[[[[[A1 A2] A3] A4] A5] A6] A7] A8] A9] A10] A11] A12] A13] A14] A15] _].
    pose proof (zlen_nonneg (sa_tx_shielded_spends t)). pose proof (zlen_nonneg (sa_tx_shielded_outputs t)). pose proof (zlen_nonneg js).
    assert (forall cur pre2, (zlen (sa_tx_shielded_spends t) + zlen (sa_tx_shielded_outputs t) = 0 \/ zlen pre2 = cur /\ bs = pre2 ++ opt (sa_binding_sig t) ++ rest) ->
      (if 0 <? zlen (sa_tx_shielded_spends t) + zlen (sa_tx_shielded_outputs t) then Some (slice bs cur (cur + 64)) else None) = sa_binding_sig t) as Bs.
    { intros cur pre2 D. destruct (Z.ltb_spec 0 (zlen (sa_tx_shielded_spends t) + zlen (sa_tx_shielded_outputs t))) as [L|L].
      - destruct D as [D|[Lp D]]; [lia|]. destruct K4 as [b [K4 Lb]]; [intros [Y1 Y2]; rewrite Y1, Y2 in L; cbn in L; lia|]. rewrite K4 in *. cbn [opt] in D. f_equal. rewrite D.
        apply slice_app; lia.
      - symmetry. apply K3. split; apply zlen_0; lia. }
    assert (zlen (compactsize (zlen js)) = 1) as Cs. { rewrite zlen_compactsize. destruct (Z.ltb_spec (zlen js) 253); unfold js in *; lia. }
    assert (zlen (compactsize (zlen (sa_tx_outs t))) = 1 \/ js = [] /\ sa_tx_shielded_spends t = [] /\ sa_tx_shielded_outputs t = []) as C'.
    { destruct C as [C|C]; [left|right; exact C]. rewrite zlen_compactsize. destruct (Z.ltb_spec (zlen (sa_tx_outs t)) 253); lia. }
    destruct (list_eq_dec_nil js) as [J|J].
    - rewrite read_many_done by (rewrite J; cbn; lia). cbn [bind]. change (0 <? zlen (@nil sapling_joinsplit)) with false. cbn iota.
      destruct (K1 J) as [-> ->] in *. rewrite J. rewrite (Bs _ (pre ++ compactsize (zlen js))); [reflexivity|].
      destruct C' as [->|[_ [Y1 Y2]]]; [right|left; rewrite Y1, Y2; reflexivity]. split; [rewrite zlen_app; lia|].
      rewrite B, J; destruct (K1 J) as [-> ->]; cbn [map concat opt app]; rewrite <- ?app_assoc; reflexivity.
    - destruct C' as [->|[C' _]]; [|contradiction].
      destruct (K2 J) as [pk [sg [E1 [E2 [L1 L2]]]]]. rewrite E1, E2 in *. cbn [opt] in B.
      rewrite B at 2. rewrite (app_assoc pre).
      rewrite (read_many_ok _ _ js_bytes js js).
      + cbn [bind]. set (c := zlen pre + 1 + (1 - 1) + zlen (concat (map js_bytes js))).
        destruct (Z.ltb_spec 0 (zlen js)) as [J0|J0]; [|destruct J; apply zlen_0; lia].
        assert (slice bs c (c + 32) = pk) as ->.
        { rewrite B, (app_assoc pre), (app_assoc (pre ++ _)). apply slice_app; rewrite ?zlen_app; unfold c; lia. }
        assert (slice bs (c + 32) (c + 32 + 64) = sg) as ->.
        { rewrite B, (app_assoc pre), (app_assoc (pre ++ _)), (app_assoc (_ ++ concat (map js_bytes js))). apply slice_app; rewrite ?zlen_app; unfold c; lia. }
        rewrite (Bs _ (pre ++ compactsize (zlen js) ++ concat (map js_bytes js) ++ pk ++ sg)); [reflexivity|].
        right. split; [rewrite !zlen_app; unfold c; lia|]. rewrite B, <- !app_assoc. reflexivity.
      + apply Forall2_refl_in. intros x I. rewrite Forall_forall in Fj. split; [|reflexivity]. intros r. apply sapling_joinsplit_parse, Fj, I.
      + assert (length js <= 5)%nat as L5 by (unfold zlen, js in *; lia). apply Nat.le_trans with (m := 5%nat); [exact L5|].
        assert (5 <= length bs)%nat; [|lia]. unfold bs. rewrite E. cbn [sa_of sa_bytes]. unfold sa_body. cbn [app length]. lia.
      + reflexivity.
      + rewrite zlen_app. lia. }
  assert (SaplingTx H net ins' (sa_tx_outs t) (sa_lock_time t) (sa_expiry_height t) (sa_value_balance t) (Some (sa_tx_shielded_spends t))
      (Some (sa_tx_shielded_outputs t)) (Some js) (sa_joinsplit_pubkey t) (sa_joinsplit_sig t) (sa_binding_sig t) =
    Ok (sa_of ins' (sa_tx_outs t) (sa_lock_time t) (sa_expiry_height t) (sa_value_balance t) (sa_tx_shielded_spends t)
      (sa_tx_shielded_outputs t) js (sa_joinsplit_pubkey t) (sa_joinsplit_sig t) (sa_binding_sig t))) as T'.
  { apply SaplingTx_Ok. split; [|reflexivity]. fold js in A. unfold sa_args_ok, sa_body, transparent in A |- *. rewrite S2, S3. exact A. }
  rewrite T'. eexists. split; [reflexivity|]. split.
  - unfold sapling_obj. apply sapling_idem in T'. split; [exact Fi'|]. split; [exact Fo|]. split; [exact Fs|]. split; [exact Fu|]. split; [exact Fj|exact T'].
  - unfold same_sapling. rewrite E. fold js.
    cbn [sa_of sa_bytes sa_tx_id sa_tx_ins sa_tx_outs sa_lock_time sa_expiry_height sa_value_balance sa_tx_shielded_spends sa_tx_shielded_outputs sa_tx_joinsplits sa_joinsplit_pubkey sa_joinsplit_sig sa_binding_sig sa_hsigs sa_primary_inputs].
    unfold sa_body, transparent. rewrite S1, S2, S3.
    destruct (zlen (sa_tx_shielded_outputs t) + zlen (sa_tx_shielded_spends t) =? 0); (destruct (Z.eqb_spec (zlen js) 0) as [J|J]; [apply zlen_0 in J; rewrite J|]); repeat split.
Qed.
Lemma sapling_parse name t rest : get_network name = Ok net -> sapling_obj H net t ->
  parsable_parts name (sa_tx_ins t) (sa_tx_outs t) -> readable_size name (count (sa_tx_shielded_spends t)) ->
  zlen (sa_tx_outs t) < 253 \/ sa_tx_joinsplits t = [] /\ sa_tx_shielded_spends t = [] /\ sa_tx_shielded_outputs t = [] ->
  exists t', SaplingTx_from_bytes H net (sa_bytes t ++ rest) = Ok t' /\ sapling_obj H net t' /\ same_sapling t t'.
Proof.
  intros En O P. pose proof O as O'. apply sapling_obj_iff in O'. destruct O' as [Fi _].
  destruct (parsable_read_parts name net _ _ En Fi P) as [ins' R]. intros.
  destruct (sapling_parse_as name t rest ins' En O R) as [t' [X1 [X2 [X3 _]]]]; try assumption. exists t'. auto.
Qed.

Lemma sapling_misparse_as name t ins' : get_network name = Ok net -> sapling_obj H net t ->
  read_parts name net (sa_tx_ins t) (sa_tx_outs t) ins' -> readable_size name (count (sa_tx_shielded_spends t)) ->
  253 <= zlen (sa_tx_outs t) -> ~ (sa_tx_joinsplits t = [] /\ sa_tx_shielded_spends t = [] /\ sa_tx_shielded_outputs t = []) ->
  SaplingTx_from_bytes H net (sa_bytes t) = Err ValueError.
Proof.
  intros En O P Rs C N. pose proof P as [R1 [R2 [F2 [S [Fi' Po]]]]]. destruct (sapling_keys t O) as [K1 [K2 [K3 K4]]].
  pose proof O as O'. apply sapling_obj_iff in O'. destruct O' as [Fi [Fo [Fs [Fu [Fj [A E]]]]]].
  
  destruct (sapling_parse_head name t [] ins' En O P Rs) as [pre [B T]]. rewrite app_nil_r in B, T. rewrite T. clear T. rewrite app_nil_r in B.
  set (bs := sa_bytes t) in *. set (js := sa_tx_joinsplits t) in *.
  unfold sa_args_ok in A. rewrite !andb_true_iff in A.
  destruct A as [[[[[[[[[[[[[[[A1 A2] A3] A4] A5] A6] A7] A8] A9] A10] A11] A12] A13] A14] A15] _]. fold js in A9.
  assert (3 <= zlen (compactsize (zlen (sa_tx_outs t)))) as Lc.
  { rewrite zlen_compactsize. destruct (Z.ltb_spec (zlen (sa_tx_outs t)) 253); [lia|]. destruct (_ <? 2 ^ 16); [lia|]. destruct (_ <? 2 ^ 32); lia. }
  set (k := zlen (compactsize (zlen (sa_tx_outs t)))) in *.
  assert (zlen (compactsize (zlen js)) = 1) as Cs. { rewrite zlen_compactsize. destruct (Z.ltb_spec (zlen js) 253); lia. }
  pose proof (zlen_nonneg js) as Zj. pose proof (zlen_nonneg pre) as Zp.
  pose proof (zlen_nonneg (sa_tx_shielded_spends t)). pose proof (zlen_nonneg (sa_tx_shielded_outputs t)).
  set (sh := zlen (sa_tx_shielded_spends t) + zlen (sa_tx_shielded_outputs t)) in *.
  assert (zlen (opt (sa_binding_sig t)) = if sh =? 0 then 0 else 64) as Lo.
  { destruct (Z.eqb_spec sh 0) as [S0|S0].
    - rewrite K3; [reflexivity|]. split; apply zlen_0; lia.
    - destruct K4 as [b [-> Lb]]; [|exact Lb]. intros [Y1 Y2]. apply S0. unfold sh. rewrite Y1, Y2. reflexivity. }
  assert (zlen bs = zlen pre + 1 + (if zlen js =? 0 then 0 else zlen js * 1698 + 96) + if sh =? 0 then 0 else 64) as Lb.
  { assert (zlen (concat (map js_bytes js)) = zlen js * 1698) as Lj by (apply (concat_len _ js_bytes 1698 js (sjs_len net) Fj)).
    rewrite B, !zlen_app, Cs, Lj, Lo. destruct (Z.eqb_spec (zlen js) 0) as [J|J].
    - rewrite J. apply zlen_0 in J. destruct (K1 J) as [-> ->]. cbn [opt zlen length Z.of_nat]. lia.
    - destruct K2 as [pk [sg [-> [-> [L1 L2]]]]]; [intros J'; rewrite J' in J; apply J; reflexivity|]. cbn [opt]. rewrite L1, L2. lia. }
  destruct (read_many_fixed (SaplingJoinsplit_from_bytes net) (fun j => zlen (js_bytes j)) 1698) with
    (fuel := Datatypes.S (length bs)) (bs := bs) (n := zlen js) (c := zlen pre + 1 + (k - 1)) as [[xs [-> Lx]]| ->]; [| | | |reflexivity].
  - intros s x Ex. apply sapling_joinsplit_parse_inv in Ex. destruct Ex as [Ox _]. apply (sjs_len net), Ox.
  - intros s e Ee. apply (part_errors net s e) in Ee. exact Ee.
  - assert (zlen js <= zlen bs) as Lf.
    { rewrite Lb. destruct (Z.eqb_spec (zlen js) 0); destruct (sh =? 0); lia. }
    clear - Zj Lf. unfold zlen in *. lia.
  - cbn [bind]. set (c := zlen pre + 1 + (k - 1) + zlen js * 1698). rewrite Lx.
    assert (sh <> 0 \/ zlen js <> 0) as N'.
    { destruct (Z.eq_dec sh 0) as [S0|S0]; [|left; exact S0]. right. intros J. apply N. split; [apply zlen_0; exact J|]. split; apply zlen_0; lia. }
    assert (forall pk sg b, (if zlen js =? 0 then true else wopt sg 64) && sa_binding b (negb (sh =? 0)) = false ->
      (b = None -> sh = 0) ->
      SaplingTx H net ins' (sa_tx_outs t) (sa_lock_time t) (sa_expiry_height t) (sa_value_balance t) (Some (sa_tx_shielded_spends t))
        (Some (sa_tx_shielded_outputs t)) (Some xs) pk sg b = Err ValueError) as X.
    { intros pk sg b F Nb.
      destruct (SaplingTx_cases ins' (sa_tx_outs t) (sa_lock_time t) (sa_expiry_height t) (sa_value_balance t) (sa_tx_shielded_spends t)
        (sa_tx_shielded_outputs t) xs pk sg b) as [[A _]|[_ [-> |[_ [-> N2]]]]]; [|reflexivity|].
      - exfalso. unfold sa_args_ok in A. rewrite !andb_true_iff in A. fold sh in A. rewrite Lx in A. apply andb_false_iff in F.
        destruct A as [[[[[[[[[[[[[[[_ _] _] _] _] _] _] B1] _] B2] _] _] _] _] _] _].
        destruct F as [F|F]; [|congruence]. destruct (zlen js =? 0); [discriminate|]. cbn [orb] in B2. apply andb_true_iff in B2. destruct B2. congruence.
      - exfalso. apply N2. specialize (Nb eq_refl). split; apply zlen_0; lia. }
    destruct (Z.ltb_spec 0 (zlen js)) as [J|J].
    + rewrite X; [reflexivity| |].
      * destruct (Z.eqb_spec (zlen js) 0); [lia|]. destruct (Z.ltb_spec 0 sh) as [S0|S0].
        -- apply andb_false_iff. right. destruct (Z.eqb_spec sh 0); [lia|]. cbn [sa_binding]. apply Z.eqb_neq. rewrite zlen_slice by (unfold c; lia). unfold c. lia.
        -- apply andb_false_iff. left. destruct (Z.eqb_spec sh 0); [|lia]. cbn [wopt]. apply Z.eqb_neq. rewrite zlen_slice by (unfold c; lia). unfold c. lia.
      * destruct (Z.ltb_spec 0 sh); [discriminate|lia].
    + rewrite X; [reflexivity| |].
      * apply andb_false_iff. right. destruct (Z.ltb_spec 0 sh) as [S0|S0]; [|lia]. destruct (Z.eqb_spec sh 0); [lia|]. cbn [sa_binding]. apply Z.eqb_neq.
        destruct (Z.eqb_spec (zlen js) 0); [|lia]. rewrite zlen_slice by (unfold c; lia). unfold c. lia.
      * destruct (Z.ltb_spec 0 sh); [discriminate|lia].
Qed.
Lemma sapling_misparse name t : get_network name = Ok net -> sapling_obj H net t ->
  parsable_parts name (sa_tx_ins t) (sa_tx_outs t) -> readable_size name (count (sa_tx_shielded_spends t)) ->
  253 <= zlen (sa_tx_outs t) -> ~ (sa_tx_joinsplits t = [] /\ sa_tx_shielded_spends t = [] /\ sa_tx_shielded_outputs t = []) ->
  SaplingTx_from_bytes H net (sa_bytes t) = Err ValueError.
Proof.
  intros En O P. pose proof O as O'. apply sapling_obj_iff in O'. destruct O' as [Fi _].
  destruct (parsable_read_parts name net _ _ En Fi P) as [ins' R]. intros. apply (sapling_misparse_as name t ins' En O R); assumption.
Qed.
End Tx.
