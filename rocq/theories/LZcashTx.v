(* Lemmas about MZcash.v: transactions *)
From Coq Require Import String.
From Verif Require Import Py LBase MNet MUtils MShared MScript MTx MZcash SNum SNet SHash SScript STx SZcash LNet LUtils LVarint LTx LTxParse LZcash.
Open Scope list_scope.
Open Scope Z_scope.
Ltac Zify.zify_post_hook ::= idtac.

Definition wopt (b : option bytes) (n : Z) : bool := match b with Some b => zlen b =? n | None => false end.
Lemma validate_opt b n : validate_bytes b (Some n) = if wopt b n then Ok tt else Err ValueError.
Proof. unfold validate_bytes, wopt, guard. destruct b as [b|]; [|reflexivity]. destruct (zlen b =? n); reflexivity. Qed.
Lemma le2i_le b : le2i b false = le_value b.
Proof. unfold le2i, from_bytes. norm_spec. reflexivity. Qed.

Lemma joinsplits_prefix {A} (w : A -> bytes) (l : list A) : vector_wire w l = compactsize (zlen l) ++ concat (map w l).
Proof. reflexivity. Qed.

Lemma list_eq_dec_nil {A} (l : list A) : {l = []} + {l <> []}.
Proof. destruct l; [left; reflexivity|right; discriminate]. Qed.

(* the transparent part can be read back, as ins' *)
Definition read_parts (name : str) (net : network) (ins : list txin) (outs : list txout) (ins' : list txin) : Prop :=
  readable_size name (count ins) /\ readable_size name (count outs) /\
  Forall2 (fun i i' => (forall r, TxIn_from_bytes net (ti_bytes i ++ r) = Ok i') /\ zlen (ti_bytes i') = zlen (ti_bytes i)) ins ins' /\
  Forall2 same_input ins ins' /\ Forall txin_obj ins' /\ Forall (fun o => zlen (to_output_script o) < 252) outs.
Lemma parsable_read_parts name net ins outs : get_network name = Ok net -> Forall txin_obj ins -> parsable_parts name ins outs ->
  exists ins', read_parts name net ins outs ins'.
Proof.
  intros En Fi [R1 [R2 [Pi Po]]]. destruct (parsable_ins name net _ En Fi) as [ins' [F2 [S Fi']]]; [apply Forall_map; exact Pi|].
  exists ins'. split; [exact R1|]. split; [exact R2|]. split; [exact F2|]. split; [exact S|]. split; [exact Fi'|exact Po].
Qed.

(** * reading vectors *)

Lemma read_vector {A X} net (fb : bytes -> res A) size (w : X -> bytes) (xs : list X) (ys : list A) pre rest k : 
  Forall2 (fun x y => (forall r, fb (w x ++ r) = Ok y) /\ size y = zlen (w x)) xs ys ->
  (forall x, In x xs -> 1 <= zlen (w x)) -> zlen xs < 2 ^ 64 -> readable net (zlen xs) -> zlen pre = k ->
  forall bs, bs = pre ++ compactsize (zlen xs) ++ concat (map w xs) ++ rest ->
  VarInt_from_bytes net (slice_from bs k) = Ok {| vi_number := zlen xs; vi_bytes := compactsize (zlen xs) |} /\
  read_many fb size (S (length bs)) bs (zlen xs) (k + zlen (compactsize (zlen xs))) =
    Ok (ys, k + zlen (compactsize (zlen xs)) + zlen (concat (map w xs))).
Proof.
  intros F Ne L R K bs ->. pose proof (zlen_nonneg xs). split.
  - rewrite slice_from_app by exact K. apply VarInt_roundtrip; [lia|exact R].
  - rewrite (app_assoc pre) at 2. rewrite (read_many_ok _ _ w xs ys F); [reflexivity| |reflexivity|rewrite zlen_app; lia].
    rewrite !app_length. pose proof (length_concat_ge w xs Ne). lia.
Qed.

(* items of one width, read at any place: success, or ValueError *)
Lemma read_many_fixed {A} (fb : bytes -> res A) size w : 
  (forall s x, fb s = Ok x -> size x = w) -> (forall s e, fb s = Err e -> e = ValueError) ->
  forall fuel bs n c, 0 <= n <= Z.of_nat fuel ->
  (exists xs, read_many fb size fuel bs n c = Ok (xs, c + n * w) /\ zlen xs = n) \/ read_many fb size fuel bs n c = Err ValueError.
Proof.
  intros Sz Er. induction fuel as [|fuel IH]; intros bs n c N.
  - left. exists []. rewrite read_many_done by lia. replace n with 0 by lia. rewrite Z.add_0_r. auto.
  - destruct (Z.eq_dec n 0) as [->|N0]; [left; exists []; rewrite read_many_done by lia; rewrite Z.add_0_r; auto|].
    rewrite read_many_step by lia. destruct (fb (slice_from bs c)) as [x|e] eqn:E; cbn [bind]; [|right; rewrite (Er _ _ E); reflexivity].
    rewrite (Sz _ _ E). destruct (IH bs (n - 1) (c + w)) as [[xs [-> L]]| ->]; [lia| |right; reflexivity].
    left. exists (x :: xs). cbn [bind]. rewrite zlen_cons, L. split; [do 2 f_equal; lia|lia].
Qed.

Lemma inputs_wire_bytes ins : Forall txin_obj ins -> inputs_wire ins = compactsize (zlen ins) ++ concat (map ti_bytes ins).
Proof.
  intros F. unfold inputs_wire, vector_wire. norm_count. rewrite zlen_map, map_map. do 2 f_equal.
  apply map_ext_in. intros i I. rewrite Forall_forall in F. symmetry. apply txin_wire, F, I.
Qed.
Lemma outputs_wire_bytes outs : Forall txout_obj outs -> outputs_wire outs = compactsize (zlen outs) ++ concat (map to_bytes_ outs).
Proof.
  intros F. unfold outputs_wire, vector_wire. norm_count. rewrite zlen_map, map_map. do 2 f_equal.
  apply map_ext_in. intros i I. rewrite Forall_forall in F. symmetry. apply txout_wire, F, I.
Qed.
Lemma vector_wire_bytes {A} (P : A -> Prop) (w b : A -> bytes) l : (forall x, P x -> b x = w x) -> Forall P l ->
  vector_wire w l = compactsize (zlen l) ++ concat (map b l).
Proof.
  intros E F. unfold vector_wire. norm_count. do 2 f_equal. apply map_ext_in. intros x I. rewrite Forall_forall in F. symmetry. apply E, F, I.
Qed.

Lemma js_wire_bytes net l : Forall (sprout_joinsplit_obj net) l ->
  vector_wire sprout_joinsplit_wire l = compactsize (zlen l) ++ concat (map js_bytes l).
Proof. apply vector_wire_bytes. intros x O. apply sprout_joinsplit_obj_iff in O. apply O. Qed.
Lemma sjs_wire_bytes net l : Forall (sapling_joinsplit_obj net) l ->
  vector_wire sapling_joinsplit_wire l = compactsize (zlen l) ++ concat (map js_bytes l).
Proof. apply vector_wire_bytes. intros x O. apply sapling_joinsplit_obj_iff in O. apply O. Qed.
Lemma spends_wire_bytes net l : Forall (spend_obj net) l ->
  vector_wire spend_wire l = compactsize (zlen l) ++ concat (map ss_bytes l).
Proof. apply vector_wire_bytes. intros x O. apply spend_obj_iff in O. apply O. Qed.
Lemma souts_wire_bytes net l : Forall (shielded_output_obj net) l ->
  vector_wire shielded_output_wire l = compactsize (zlen l) ++ concat (map so_bytes l).
Proof. apply vector_wire_bytes. intros x O. apply shielded_output_obj_iff in O. apply O. Qed.

Lemma js_len net j : sprout_joinsplit_obj net j -> zlen (js_bytes j) = 1802.
Proof. intros O. apply sprout_joinsplit_obj_iff in O. destruct O as [_ [_ [W ->]]]. apply (fields_len _ W). Qed.
Lemma sjs_len net j : sapling_joinsplit_obj net j -> zlen (js_bytes j) = 1698.
Proof. intros O. apply sapling_joinsplit_obj_iff in O. destruct O as [_ [_ [W ->]]]. apply (fields_len _ W). Qed.
Lemma spend_len net s : spend_obj net s -> zlen (ss_bytes s) = 384.
Proof. intros O. apply spend_obj_iff in O. destruct O as [_ [W ->]]. apply (fields_len _ W). Qed.
Lemma sout_len net s : shielded_output_obj net s -> zlen (so_bytes s) = 948.
Proof. intros O. apply shielded_output_obj_iff in O. destruct O as [_ [W ->]]. apply (fields_len _ W). Qed.

Lemma concat_len {A} (P : A -> Prop) (w : A -> bytes) k l : (forall x, P x -> zlen (w x) = k) -> Forall P l -> zlen (concat (map w l)) = zlen l * k.
Proof.
  intros E F. induction F as [|x l Px F IH]; [reflexivity|]. cbn [map concat]. rewrite zlen_app, zlen_cons, IH, (E x Px). lia.
Qed.

Section Tx.
Context (H : hashes) (net : network).
Let zc : bool := net_has net (lit "zcash").

Definition transparent (ins : list txin) (outs : list txout) : bytes :=
  compactsize (zlen ins) ++ concat (map ti_bytes ins) ++ compactsize (zlen outs) ++ concat (map to_bytes_ outs).

(** * Overwinter *)

Definition ow_body ins outs lock expiry (js : list sprout_joinsplit) pk sg : bytes :=
  [3; 0; 0; 0x80] ++ [0x70; 0x82; 0xc4; 0x03] ++ transparent ins outs ++ lock ++ expiry ++ compactsize (zlen js) ++
  (if zlen js =? 0 then [] else concat (map js_bytes js) ++ opt pk ++ opt sg).

Definition ow_args_ok ins outs lock expiry (js : list sprout_joinsplit) pk sg : bool :=
  zc && net_has net (lit "overwinter") && (zlen lock =? 4) && (zlen expiry =? 4) && (le_value expiry <=? 499999999) &&
  (zlen js <=? 5) && ((zlen js =? 0) || (wopt pk 32 && wopt sg 64)) && negb ((zlen js =? 0) && (zlen ins =? 0)) &&
  (zlen ins <? 2 ^ 64) && (zlen outs <? 2 ^ 64) && (zlen (ow_body ins outs lock expiry js pk sg) <=? 100000).

Definition ow_of ins outs lock expiry (js : list sprout_joinsplit) pk sg : overwinter_tx :=
  let b := ow_body ins outs lock expiry js pk sg in
  let some_js := negb (zlen js =? 0) in
  {| ow_header := [3; 0; 0; 0x80]; ow_group_id := [0x70; 0x82; 0xc4; 0x03];
     ow_version := [3; 0];
     ow_tx_ins := ins; ow_tx_outs := outs; ow_lock_time := lock;
     ow_expiry_height := expiry;
     ow_tx_joinsplits := js;
     ow_joinsplit_pubkey := if some_js then pk else None;
     ow_joinsplit_sig := if some_js then sg else None;
     ow_hsigs := map (hsig H (opt pk)) js;
     ow_primary_inputs := map (primary_input H (opt pk)) js;
     ow_tx_id_le := hash256 H net b; ow_tx_id := rev (hash256 H net b); ow_bytes := b |}.

Lemma OverwinterTx_spec ins outs lock expiry js pk sg : OverwinterTx H net ins outs lock expiry js pk sg =
  if ow_args_ok ins outs lock expiry js pk sg then Ok (ow_of ins outs lock expiry js pk sg) else Err ValueError.
Proof.
  unfold OverwinterTx, ow_args_ok, zcash_only, vb, guard. fold zc.
  pose proof (zlen_nonneg ins). pose proof (zlen_nonneg outs). pose proof (zlen_nonneg js).
  destruct zc; [|reflexivity]. destruct (net_has net (lit "overwinter")); [|reflexivity]. cbn [negb bind andb].
  rewrite !validate_opt. cbn [wopt]. destruct (zlen lock =? 4); [|reflexivity]. destruct (zlen expiry =? 4); [|reflexivity]. cbn [bind andb].
  rewrite le2i_le. destruct (Z.leb_spec (le_value expiry) 499999999); destruct (Z.ltb_spec 499999999 (le_value expiry)); try lia; [|reflexivity].
  destruct (Z.leb_spec (zlen js) 5); destruct (Z.ltb_spec 5 (zlen js)); try lia; [|reflexivity]. cbn [bind andb].
  rewrite !VarInt_len by assumption.
  destruct (Z.eqb_spec (zlen js) 0) as [J|J]; cbn [negb orb andb].
  - destruct (zlen ins =? 0); [reflexivity|]. cbn [bind andb negb].
    destruct (zlen ins <? 2 ^ 64); [|reflexivity]. destruct (zlen outs <? 2 ^ 64); [|reflexivity].
    destruct (Z.ltb_spec (zlen js) (2 ^ 64)); [|lia]. cbn [bind andb vi_bytes].
    assert (ow_body ins outs lock expiry js pk sg = [3; 0; 0; 0x80] ++ [0x70; 0x82; 0xc4; 0x03]
      ++ compactsize (zlen ins) ++ concat (map ti_bytes ins) ++ compactsize (zlen outs) ++ concat (map to_bytes_ outs)
      ++ lock ++ expiry ++ compactsize (zlen js) ++ []) as B.
    { unfold ow_body, transparent. rewrite J. cbn [Z.eqb]. rewrite <- !app_assoc. reflexivity. }
    rewrite <- B. unfold ow_of. apply zlen_0 in J. subst js. cbn [map zlen length Z.of_nat Z.eqb negb].
    destruct (Z.leb_spec (zlen (ow_body ins outs lock expiry [] pk sg)) 100000); destruct (Z.ltb_spec 100000 (zlen (ow_body ins outs lock expiry [] pk sg))); try lia; reflexivity.
  - destruct (wopt pk 32) eqn:Wk; [|reflexivity]. destruct (wopt sg 64) eqn:Ws; [|reflexivity]. cbn [bind andb].
    destruct pk as [pk|]; [|discriminate]. destruct sg as [sg|]; [|discriminate].
    destruct (zlen ins <? 2 ^ 64); [|reflexivity]. destruct (zlen outs <? 2 ^ 64); [|reflexivity].
    destruct (Z.ltb_spec (zlen js) (2 ^ 64)); [|lia]. cbn [bind andb vi_bytes add_opt].
    assert (ow_body ins outs lock expiry js (Some pk) (Some sg) = [3; 0; 0; 0x80] ++ [0x70; 0x82; 0xc4; 0x03]
      ++ compactsize (zlen ins) ++ concat (map ti_bytes ins) ++ compactsize (zlen outs) ++ concat (map to_bytes_ outs)
      ++ lock ++ expiry ++ compactsize (zlen js) ++ concat (map js_bytes js) ++ pk ++ sg) as B.
    { unfold ow_body, transparent. destruct (Z.eqb_spec (zlen js) 0); [contradiction|]. rewrite <- !app_assoc. reflexivity. }
    rewrite <- B. unfold ow_of. destruct (Z.eqb_spec (zlen js) 0); [contradiction|]. cbn [negb opt].
    match goal with |- context [zlen ?x <=? 100000] => destruct (Z.leb_spec (zlen x) 100000); destruct (Z.ltb_spec 100000 (zlen x)); try lia; reflexivity end.
Qed.

Lemma OverwinterTx_Ok ins outs lock expiry js pk sg t : OverwinterTx H net ins outs lock expiry js pk sg = Ok t <->
  ow_args_ok ins outs lock expiry js pk sg = true /\ t = ow_of ins outs lock expiry js pk sg.
Proof.
  rewrite OverwinterTx_spec. destruct (ow_args_ok _ _ _ _ _ _ _).
  - split; [intros E; apply Ok_inj in E; auto|intros [_ ->]; reflexivity].
  - split; [discriminate|intros [E _]; discriminate].
Qed.

(* an accepted transaction is the result of constructing it from its own fields *)
Lemma overwinter_idem ins outs lock expiry js pk sg t : OverwinterTx H net ins outs lock expiry js pk sg = Ok t ->
  OverwinterTx H net (ow_tx_ins t) (ow_tx_outs t) (ow_lock_time t) (ow_expiry_height t) (ow_tx_joinsplits t)
    (ow_joinsplit_pubkey t) (ow_joinsplit_sig t) = Ok t.
Proof.
  rewrite !OverwinterTx_Ok. intros [A ->]. unfold ow_of. cbn [ow_tx_ins ow_tx_outs ow_lock_time ow_expiry_height ow_tx_joinsplits ow_joinsplit_pubkey ow_joinsplit_sig].
  destruct (Z.eqb_spec (zlen js) 0) as [J|J]; cbn [negb]; [|auto].
  apply zlen_0 in J. subst js. unfold ow_args_ok, ow_body in *. cbn [zlen length Z.of_nat Z.eqb map orb negb] in *. auto.
Qed.

Lemma overwinter_obj_iff t : overwinter_obj H net t <->
  Forall txin_obj (ow_tx_ins t) /\ Forall txout_obj (ow_tx_outs t) /\ Forall (sprout_joinsplit_obj net) (ow_tx_joinsplits t) /\
  ow_args_ok (ow_tx_ins t) (ow_tx_outs t) (ow_lock_time t) (ow_expiry_height t) (ow_tx_joinsplits t) (ow_joinsplit_pubkey t) (ow_joinsplit_sig t) = true /\
  t = ow_of (ow_tx_ins t) (ow_tx_outs t) (ow_lock_time t) (ow_expiry_height t) (ow_tx_joinsplits t) (ow_joinsplit_pubkey t) (ow_joinsplit_sig t).
Proof. unfold overwinter_obj. rewrite OverwinterTx_Ok. tauto. Qed.

Lemma overwinter_bytes t : overwinter_obj H net t -> ow_bytes t = overwinter_wire t.
Proof.
  intros O. apply overwinter_obj_iff in O. destruct O as [Fi [Fo [Fj [A E]]]].
  unfold overwinter_wire, overwinter_layout, joinsplits_wire. rewrite (inputs_wire_bytes _ Fi), (outputs_wire_bytes _ Fo), (js_wire_bytes net _ Fj).
  rewrite E at 1. cbn [ow_of ow_bytes]. unfold ow_body, transparent. change overwinter_header with ([3; 0; 0; 0x80] ++ [0x70; 0x82; 0xc4; 0x03]).
  rewrite <- !app_assoc. do 9 f_equal. destruct (Z.eqb_spec (zlen (ow_tx_joinsplits t)) 0) as [J|J]; [|reflexivity].
  apply (f_equal ow_joinsplit_pubkey) in E as E1. apply (f_equal ow_joinsplit_sig) in E as E2. cbn [ow_of ow_joinsplit_pubkey ow_joinsplit_sig] in E1, E2.
  rewrite J in E1, E2. cbn [Z.eqb negb] in E1, E2. apply zlen_0 in J. rewrite J, E1, E2. reflexivity.
Qed.

(* the parser on a serialized transaction, up to the joinsplits *)
Lemma overwinter_parse_head name t rest ins' : get_network name = Ok net -> overwinter_obj H net t ->
  read_parts name net (ow_tx_ins t) (ow_tx_outs t) ins' ->
  let bs := ow_bytes t ++ rest in
  exists pre, let c := zlen pre + 1 + (zlen (compactsize (zlen (ow_tx_outs t))) - 1) in
  bs = pre ++ compactsize (zlen (ow_tx_joinsplits t)) ++ concat (map js_bytes (ow_tx_joinsplits t)) ++ opt (ow_joinsplit_pubkey t) ++ opt (ow_joinsplit_sig t) ++ rest /\
  OverwinterTx_from_bytes H net bs =
  (' (js, current) <- read_many (SproutJoinsplit_from_bytes net) (fun j => zlen (js_bytes j)) (S (length bs)) bs (zlen (ow_tx_joinsplits t)) c ;;
   OverwinterTx H net ins' (ow_tx_outs t) (ow_lock_time t) (ow_expiry_height t) js
     (Some (slice bs current (current + 32))) (Some (slice bs (current + 32) (current + 32 + 64)))).
Proof.
  intros En O [R1 [R2 [F2 [_ [_ Po]]]]] bs. unfold bs. rewrite (overwinter_bytes t O). 
  apply overwinter_obj_iff in O. destruct O as [Fi [Fo [Fj [A E]]]].
  unfold overwinter_wire, overwinter_layout, joinsplits_wire. rewrite (inputs_wire_bytes _ Fi), (outputs_wire_bytes _ Fo), (js_wire_bytes net _ Fj).
  unfold ow_args_ok in A. rewrite !andb_true_iff in A. destruct A as [[[[[[[[[[A1 A2] A3] A4] A5] A6] A7] A8] A9] A10] A11].
  rewrite <- !app_assoc.
  set (n := ow_tx_joinsplits t) in *. set (tail := concat (map js_bytes n) ++ opt (ow_joinsplit_pubkey t) ++ opt (ow_joinsplit_sig t) ++ rest).
  match goal with |- context [OverwinterTx_from_bytes H net ?b] => set (bs' := b) end.
  clear bs. rename bs' into bs.
  destruct (tx_parse_prefix name net overwinter_header (ow_tx_ins t) (ow_tx_outs t) ins' 8 (ow_lock_time t ++ ow_expiry_height t ++ compactsize (zlen n) ++ tail) En F2 Fi Fo Po) with (bs := bs)
    as [X1 [X2 [X3 [X4 [pre [X5 X6]]]]]];
    [apply (readable_spec name); assumption|apply (readable_spec name); assumption|lia|lia|reflexivity|reflexivity|].
  assert (zlen (compactsize (zlen n)) = 1) as Cs. { rewrite zlen_compactsize. destruct (Z.ltb_spec (zlen n) 253); lia. }
  exists (pre ++ ow_lock_time t ++ ow_expiry_height t). split; [rewrite X5, <- !app_assoc; reflexivity|].
  unfold OverwinterTx_from_bytes.
  replace (slice bs 0 4) with [3; 0; 0; 0x80] by (unfold bs; symmetry; apply (slice_app [] [3; 0; 0; 0x80] _ 0 4); reflexivity).
  replace (slice bs 4 8) with [0x70; 0x82; 0xc4; 0x03] by (unfold bs; symmetry; apply (slice_app [3; 0; 0; 0x80] [0x70; 0x82; 0xc4; 0x03] _ 4 8); reflexivity).
  rewrite !leqb_refl. cbv [guard negb orb]. cbn [bind].
  rewrite X1. cbn [bind vi_number vi_bytes]. rewrite X2. cbn [bind]. rewrite X3. cbn [bind vi_number vi_bytes]. rewrite X4. cbn [bind].
  set (c4 := 8 + _ + _ + _ + _) in *.
  assert (slice bs c4 (c4 + 4) = ow_lock_time t) as -> by (rewrite X5; apply slice_app; lia).
  assert (slice bs (c4 + 4) (c4 + 4 + 4) = ow_expiry_height t) as -> by (rewrite X5, app_assoc; apply slice_app; rewrite ?zlen_app; lia).
  pose proof (zlen_nonneg tail) as Zt.
  assert (zlen bs = c4 + 4 + 4 + 1 + zlen tail) as Lb by (rewrite X5, !zlen_app; lia).
  destruct (Z.eqb_spec (c4 + 4 + 4) (zlen bs)); [lia|].
  assert (VarInt_from_bytes net (slice_from bs (c4 + 4 + 4)) = Ok {| vi_number := zlen n; vi_bytes := compactsize (zlen n) |}) as ->.
  { rewrite X5. rewrite (app_assoc pre), (app_assoc (pre ++ _)), slice_from_app by (rewrite !zlen_app; lia).
    apply VarInt_roundtrip; [pose proof (zlen_nonneg n); lia|apply readable_small; lia]. }
  cbn [bind vi_number vi_bytes]. rewrite !zlen_app.
  match goal with |- context [read_many _ _ _ bs (zlen n) ?c] => match goal with |- _ = bind (read_many _ _ _ bs (zlen n) ?c') _ => replace c' with c by lia end end.
  match goal with |- _ = bind ?x _ => destruct x as [[js cur]|e] end; reflexivity.
Qed.

Lemma overwinter_parse_as name t rest ins' : get_network name = Ok net -> overwinter_obj H net t ->
  read_parts name net (ow_tx_ins t) (ow_tx_outs t) ins' ->
  zlen (ow_tx_outs t) < 253 \/ ow_tx_joinsplits t = [] ->
  exists t', OverwinterTx_from_bytes H net (ow_bytes t ++ rest) = Ok t' /\ overwinter_obj H net t' /\ same_overwinter t t' /\ ow_tx_ins t' = ins'.
Proof.
  intros En O P C. pose proof P as [R1 [R2 [F2 [S [Fi' Po]]]]]. pose proof O as O'. apply overwinter_obj_iff in O'. destruct O' as [Fi [Fo [Fj [A E]]]].
  destruct (same_inputs _ _ S) as [S1 [S2 S3]].
  destruct (overwinter_parse_head name t rest ins' En O P) as [pre [B ->]].
  set (bs := ow_bytes t ++ rest) in *. set (js := ow_tx_joinsplits t) in *.
  assert (exists pk sg, (js <> [] -> Some pk = ow_joinsplit_pubkey t /\ Some sg = ow_joinsplit_sig t) /\
    (' (js, current) <- read_many (SproutJoinsplit_from_bytes net) (fun j => zlen (js_bytes j)) (Datatypes.S (length bs)) bs (zlen js)
       (zlen pre + 1 + (zlen (compactsize (zlen (ow_tx_outs t))) - 1)) ;;
     OverwinterTx H net ins' (ow_tx_outs t) (ow_lock_time t) (ow_expiry_height t) js
       (Some (slice bs current (current + 32))) (Some (slice bs (current + 32) (current + 32 + 64)))) =
    OverwinterTx H net ins' (ow_tx_outs t) (ow_lock_time t) (ow_expiry_height t) js (Some pk) (Some sg)) as [pk [sg [Ks ->]]].
  { unfold ow_args_ok in A. rewrite !andb_true_iff in A. destruct A as [[[[[[[[[[A1 A2] A3] A4] A5] A6] A7] A8] A9] A10] A11].
    destruct (list_eq_dec_nil js) as [J|J].
    - rewrite read_many_done by (rewrite J; cbn; lia). cbn [bind]. rewrite J. do 2 eexists. split; [contradiction|reflexivity].
    - destruct C as [C|C]; [|contradiction].
      fold js in A6, A7. destruct (Z.eqb_spec (zlen js) 0) as [J0|J0]; [apply zlen_0 in J0; contradiction|]. cbn [orb] in A7.
      apply andb_true_iff in A7. destruct A7 as [K1 K2].
      destruct (ow_joinsplit_pubkey t) as [pk|]; [|discriminate]. destruct (ow_joinsplit_sig t) as [sg|]; [|discriminate].
      cbn [wopt opt] in *. exists pk, sg. split; [auto|].
      assert (zlen (compactsize (zlen (ow_tx_outs t))) = 1) as ->. { rewrite zlen_compactsize. destruct (Z.ltb_spec (zlen (ow_tx_outs t)) 253); lia. }
      assert (zlen (compactsize (zlen js)) = 1) as Cs. { rewrite zlen_compactsize. destruct (Z.ltb_spec (zlen js) 253); lia. }
      rewrite B at 2. rewrite (app_assoc pre).
      rewrite (read_many_ok _ _ js_bytes js js).
      + cbn [bind]. set (c := zlen pre + 1 + (1 - 1) + zlen (concat (map js_bytes js))).
        assert (slice bs c (c + 32) = pk) as ->.
        { rewrite B, (app_assoc pre), (app_assoc (pre ++ _)). apply slice_app; rewrite ?zlen_app; unfold c; lia. }
        assert (slice bs (c + 32) (c + 32 + 64) = sg) as ->.
        { rewrite B, (app_assoc pre), (app_assoc (pre ++ _)), (app_assoc (_ ++ concat (map js_bytes js))). apply slice_app; rewrite ?zlen_app; unfold c; lia. }
        reflexivity.
      + apply Forall2_refl_in. intros x I. rewrite Forall_forall in Fj. split; [|reflexivity]. intros r. apply sprout_joinsplit_parse, Fj, I.
      + assert (length js <= 5)%nat as L5 by (unfold zlen in A6; lia). apply Nat.le_trans with (m := 5%nat); [exact L5|].
        assert (5 <= length bs)%nat; [|lia]. unfold bs. rewrite E. cbn [ow_of ow_bytes]. unfold ow_body. cbn [app length]. lia.
      + reflexivity.
      + rewrite zlen_app. lia. }
  assert (ow_args_ok ins' (ow_tx_outs t) (ow_lock_time t) (ow_expiry_height t) js (Some pk) (Some sg) = true /\
    ow_of ins' (ow_tx_outs t) (ow_lock_time t) (ow_expiry_height t) js (Some pk) (Some sg) =
    ow_of ins' (ow_tx_outs t) (ow_lock_time t) (ow_expiry_height t) js (ow_joinsplit_pubkey t) (ow_joinsplit_sig t)) as [A' E'].
  { fold js in A. destruct (list_eq_dec_nil js) as [J|J].
    - rewrite J in *. unfold ow_args_ok, ow_of, ow_body, transparent in A |- *. cbn [zlen length Z.of_nat Z.eqb orb negb map] in *. rewrite S2, S3. auto.
    - destruct (Ks J) as [K1 K2]. rewrite K1, K2. unfold ow_args_ok, ow_body, transparent in A |- *. rewrite S2, S3. auto. }
  exists (ow_of ins' (ow_tx_outs t) (ow_lock_time t) (ow_expiry_height t) js (ow_joinsplit_pubkey t) (ow_joinsplit_sig t)).
  assert (OverwinterTx H net ins' (ow_tx_outs t) (ow_lock_time t) (ow_expiry_height t) js (Some pk) (Some sg) =
    Ok (ow_of ins' (ow_tx_outs t) (ow_lock_time t) (ow_expiry_height t) js (ow_joinsplit_pubkey t) (ow_joinsplit_sig t))) as T.
  { rewrite OverwinterTx_spec, A', E'. reflexivity. }
  split; [exact T|]. split.
  - unfold overwinter_obj. apply overwinter_idem in T. split; [exact Fi'|]. split; [exact Fo|]. split; [exact Fj|exact T].
  - unfold same_overwinter. rewrite E. fold js.
    cbn [ow_of ow_bytes ow_tx_id ow_tx_ins ow_tx_outs ow_lock_time ow_expiry_height ow_tx_joinsplits ow_joinsplit_pubkey ow_joinsplit_sig ow_hsigs ow_primary_inputs].
    unfold ow_body, transparent. rewrite S1, S2, S3. destruct (Z.eqb_spec (zlen js) 0) as [J|J]; [apply zlen_0 in J; rewrite J|]; repeat split.
Qed.
Lemma overwinter_parse name t rest : get_network name = Ok net -> overwinter_obj H net t ->
  parsable_parts name (ow_tx_ins t) (ow_tx_outs t) ->
  zlen (ow_tx_outs t) < 253 \/ ow_tx_joinsplits t = [] ->
  exists t', OverwinterTx_from_bytes H net (ow_bytes t ++ rest) = Ok t' /\ overwinter_obj H net t' /\ same_overwinter t t'.
Proof.
  intros En O P. pose proof O as O'. apply overwinter_obj_iff in O'. destruct O' as [Fi _].
  destruct (parsable_read_parts name net _ _ En Fi P) as [ins' R]. intros.
  destruct (overwinter_parse_as name t rest ins' En O R) as [t' [X1 [X2 [X3 _]]]]; try assumption. exists t'. auto.
Qed.

Lemma overwinter_misparse_as name t ins' : get_network name = Ok net -> overwinter_obj H net t ->
  read_parts name net (ow_tx_ins t) (ow_tx_outs t) ins' ->
  253 <= zlen (ow_tx_outs t) -> ow_tx_joinsplits t <> [] ->
  OverwinterTx_from_bytes H net (ow_bytes t) = Err ValueError.
Proof.
  intros En O P C J. pose proof P as [R1 [R2 [F2 [S [Fi' Po]]]]]. pose proof O as O'. apply overwinter_obj_iff in O'. destruct O' as [Fi [Fo [Fj [A E]]]].
  
  destruct (overwinter_parse_head name t [] ins' En O P) as [pre [B T]]. rewrite app_nil_r in B, T. rewrite T.
  set (bs := ow_bytes t) in *. set (js := ow_tx_joinsplits t) in *.
  unfold ow_args_ok in A. rewrite !andb_true_iff in A. destruct A as [[[[[[[[[[A1 A2] A3] A4] A5] A6] A7] A8] A9] A10] A11].
  fold js in A6, A7. destruct (Z.eqb_spec (zlen js) 0) as [J0|J0]; [apply zlen_0 in J0; contradiction|]. cbn [orb] in A7.
  apply andb_true_iff in A7. destruct A7 as [K1 K2].
  destruct (ow_joinsplit_pubkey t) as [pk|]; [|discriminate]. destruct (ow_joinsplit_sig t) as [sg|]; [|discriminate]. cbn [wopt opt] in *.
  assert (3 <= zlen (compactsize (zlen (ow_tx_outs t)))) as Lc.
  { rewrite zlen_compactsize. destruct (Z.ltb_spec (zlen (ow_tx_outs t)) 253); [lia|]. destruct (_ <? 2 ^ 16); [lia|]. destruct (_ <? 2 ^ 32); lia. }
  set (k := zlen (compactsize (zlen (ow_tx_outs t)))) in *.
  assert (zlen (compactsize (zlen js)) = 1) as Cs. { rewrite zlen_compactsize. destruct (Z.ltb_spec (zlen js) 253); lia. }
  pose proof (zlen_nonneg js) as Zj. pose proof (zlen_nonneg pre) as Zp.
  assert (zlen bs = zlen pre + 1 + zlen js * 1802 + 96) as Lb.
  { assert (zlen (concat (map js_bytes js)) = zlen js * 1802) as Lj by (apply (concat_len _ js_bytes 1802 js (js_len net) Fj)).
    rewrite B, !zlen_app, Cs, Lj. change (zlen (@nil Z)) with 0. lia. }
  destruct (read_many_fixed (SproutJoinsplit_from_bytes net) (fun j => zlen (js_bytes j)) 1802) with
    (fuel := Datatypes.S (length bs)) (bs := bs) (n := zlen js) (c := zlen pre + 1 + (k - 1)) as [[xs [-> Lx]]| ->]; [| | | |reflexivity].
  - intros s x Ex. apply sprout_joinsplit_parse_inv in Ex. destruct Ex as [Ox _]. apply (js_len net), Ox.
  - intros s e Ee. apply (part_errors net s e) in Ee. exact Ee.
  - unfold zlen in *. lia.
  - cbn [bind]. set (c := zlen pre + 1 + (k - 1) + zlen js * 1802). rewrite OverwinterTx_spec. unfold ow_args_ok.
    assert (wopt (Some (slice bs (c + 32) (c + 32 + 64))) 64 = false) as ->.
    { cbn [wopt]. apply Z.eqb_neq. rewrite zlen_slice by (unfold c; lia). unfold c. lia. }
    assert (zlen xs =? 0 = false) as -> by (apply Z.eqb_neq; lia).
    cbn [orb]. rewrite !andb_false_r. cbn [andb]. reflexivity.
Qed.
Lemma overwinter_misparse name t : get_network name = Ok net -> overwinter_obj H net t ->
  parsable_parts name (ow_tx_ins t) (ow_tx_outs t) ->
  253 <= zlen (ow_tx_outs t) -> ow_tx_joinsplits t <> [] ->
  OverwinterTx_from_bytes H net (ow_bytes t) = Err ValueError.
Proof.
  intros En O P. pose proof O as O'. apply overwinter_obj_iff in O'. destruct O' as [Fi _].
  destruct (parsable_read_parts name net _ _ En Fi P) as [ins' R]. intros. apply (overwinter_misparse_as name t ins' En O R); assumption.
Qed.
End Tx.
