(* Lemmas for C87 and C88: lengths that are refused *)
From Coq Require Import String.
From Verif Require Import Py LBase MNet MUtils MShared MScript MTx SNum SNet SHash SScript STx SIdem LNet LUtils LVarint LTx LTxParse LIdem.
Open Scope list_scope.
Open Scope Z_scope.
Ltac Zify.zify_post_hook ::= idtac.

Lemma readable_dec name n : {readable_size name n} + {In name upgraded_zcash /\ 253 <= n <= 255}.
Proof.
  destruct (in_dec (list_eq_dec Z.eq_dec) name upgraded_zcash) as [U|U]; [|left; left; exact U].
  destruct (Z_le_dec 253 n); [|left; right; lia]. destruct (Z_le_dec n 255); [|left; right; lia]. right. split; [exact U|lia].
Qed.

Lemma unreadable_dec name n : {readable_size name n} + {~ readable_size name n}.
Proof. destruct (readable_dec name n) as [P|[U P]]; [left; exact P|right]. intros [X|X]; [apply X, U|apply X, P]. Qed.

Lemma TxIn_unreadable name net i rest : get_network name = Ok net -> txin_obj i -> In name upgraded_zcash ->
  253 <= zlen (ti_script_sig i) <= 255 -> TxIn_from_bytes net (ti_bytes i ++ rest) = Err ValueError.
Proof.
  intros En O U L. rewrite (txin_bytes i O), <- !app_assoc. apply txin_obj_iff in O. destruct O as [Oo [Q [_ _]]].
  apply outpoint_obj_iff in Oo as O'. destruct O' as [O1 [O2 O3]].
  assert (zlen (op_bytes (ti_outpoint i)) = 36) as L36 by (rewrite O3, zlen_app, O1, O2; reflexivity).
  unfold TxIn_from_bytes. rewrite slice_to_app by exact L36.
  rewrite <- (app_nil_r (op_bytes (ti_outpoint i))) at 1. rewrite Outpoint_parse by exact Oo. cbn [bind].
  rewrite slice_skip by lia. rewrite L36. change (36 - 36) with 0. change (Z.max 0 (45 - 36)) with 9.
  rewrite slice_firstn by lia. cbn [Z.to_nat skipn]. change (Pos.to_nat 9) with 9%nat. change (Z.to_nat (9 - 0)) with 9%nat.
  rewrite firstn_app_cs by (pose proof (zlen_compactsize_pos (zlen (ti_script_sig i))); lia).
  edestruct (VarInt_roundtrip_refuted_lemma name net (zlen (ti_script_sig i))) as [_ V]; [exact En|exact U|exact L|]. rewrite V. reflexivity.
Qed.

(* a list of which some object is refused and every one before it is read *)
Lemma read_many_refused {A X} (fb : bytes -> res A) size (w : X -> bytes) e xs :
  Forall (fun x => (exists y, (forall r, fb (w x ++ r) = Ok y) /\ size y = zlen (w x)) \/ forall r, fb (w x ++ r) = Err e) xs ->
  Exists (fun x => forall r, fb (w x ++ r) = Err e) xs ->
  forall fuel pre rest n c, (length xs <= fuel)%nat -> n = zlen xs -> c = zlen pre ->
  read_many fb size fuel (pre ++ concat (map w xs) ++ rest) n c = Err e.
Proof.
  induction 1 as [|x xs P F IH]; intros Ex fuel pre rest n c Hf Hn Hc; [inversion Ex|].
  cbn [length] in Hf. destruct fuel as [|fuel]; [lia|]. rewrite zlen_cons in Hn.
  pose proof (zlen_nonneg xs). rewrite read_many_step by lia.
  cbn [map concat]. rewrite <- app_assoc, slice_from_app by (symmetry; exact Hc).
  destruct P as [[y [P S]]|P]; [|rewrite P; reflexivity]. rewrite P. cbn [bind].
  assert (Exists (fun x => forall r, fb (w x ++ r) = Err e) xs) as Ex'.
  { inversion Ex as [? ? X1|? ? X1]; subst; [|exact X1]. specialize (X1 []). rewrite P in X1. discriminate. }
  rewrite (app_assoc pre). rewrite (IH Ex' fuel (pre ++ w x) rest) by (try (rewrite zlen_app); lia). reflexivity.
Qed.

(* the list of inputs *)
Lemma inputs_refused name net pre ins tail k : get_network name = Ok net ->
  Forall (fun i => exists b, is_bytes b /\ TxIn_from_bytes net b = Ok i) ins -> ~ readable_scripts name (map the_input ins) ->
  readable net (zlen ins) -> zlen ins < 2 ^ 64 -> zlen pre = k ->
  forall bs, bs = pre ++ compactsize (zlen ins) ++ concat (map ti_bytes ins) ++ tail ->
  VarInt_from_bytes net (slice_from bs k) = Ok {| vi_number := zlen ins; vi_bytes := compactsize (zlen ins) |} /\
  read_many (TxIn_from_bytes net) (fun i => zlen (ti_bytes i)) (S (length bs)) bs (zlen ins) (k + zlen (compactsize (zlen ins))) = Err ValueError.
Proof.
  intros En F N R L K bs E. pose proof (zlen_nonneg ins). split.
  - rewrite E, slice_from_app by exact K. apply VarInt_roundtrip; [lia|exact R].
  - rewrite E at 2. rewrite app_assoc. apply read_many_refused.
    + eapply Forall_impl; [|exact F]. intros i [b [Bb Eb]]. destruct (TxIn_again name net b i En Bb Eb) as [O A].
      destruct (readable_dec name (zlen (ti_script_sig i))) as [P|[U P]]; [left|right; intros r; apply (TxIn_unreadable name net i r En O U P)].
      exists i. split; [apply A, (readable_spec name net _ En P)|reflexivity].
    + apply Exists_exists. destruct (Forall_Exists_dec (fun i => readable_size name (zlen (ti_script_sig i)))
        (fun i => unreadable_dec name (zlen (ti_script_sig i))) ins) as [Y|Y].
      { exfalso. apply N. unfold readable_scripts. rewrite Forall_map. exact Y. }
      apply Exists_exists in Y. destruct Y as [i [I Y]]. exists i. split; [exact I|]. intros r.
      rewrite Forall_forall in F. destruct (F i I) as [b [Bb Eb]]. destruct (TxIn_again name net b i En Bb Eb) as [O _].
      destruct (readable_dec name (zlen (ti_script_sig i))) as [P|[U P]]; [contradiction|]. apply (TxIn_unreadable name net i r En O U P).
    + rewrite E, !app_length. enough (length ins <= length (concat (map ti_bytes ins)))%nat by lia.
      apply length_concat_ge. intros i I. rewrite Forall_forall in F. destruct (F i I) as [b [Bb Eb]]. pose proof (txin_room name net En b i Bb Eb). lia.
    + reflexivity.
    + rewrite zlen_app. lia.
Qed.

(* witnesses *)
Definition readable_items (name : str) (w : witness) : Prop := Forall (fun i => readable_size name (zlen (wi_item i))) (wit_stack w).
Lemma readable_items_dec name w : {readable_items name w} + {~ readable_items name w}.
Proof. apply Forall_dec. intros i. apply unreadable_dec. Qed.

Lemma item_unreadable name net i rest : get_network name = Ok net -> witem_obj i -> ~ readable_size name (zlen (wi_item i)) ->
  WitnessStackItem_from_bytes net (wi_bytes i ++ rest) = Err ValueError.
Proof.
  intros En O N. apply witem_obj_iff in O. destruct O as [_ C]. destruct (readable_dec name (zlen (wi_item i))) as [P|[U P]]; [contradiction|].
  unfold WitnessStackItem_from_bytes. rewrite C, <- app_assoc.
  edestruct (VarInt_roundtrip_refuted_lemma name net (zlen (wi_item i))) as [_ V]; [exact En|exact U|exact P|]. rewrite V. reflexivity.
Qed.

Lemma witness_unreadable name net w rest : get_network name = Ok net -> witness_obj w -> readable net (zlen (wit_stack w)) -> ~ readable_items name w ->
  InputWitness_from_bytes net (wit_bytes w ++ rest) = Err ValueError.
Proof.
  intros En O R N. apply witness_obj_iff in O. destruct O as [F [L C]].
  unfold InputWitness_from_bytes. pose proof (zlen_nonneg (wit_stack w)). rewrite C, <- app_assoc.
  rewrite VarInt_roundtrip by (try exact R; lia). cbn [bind vi_number vi_bytes].
  rewrite (read_many_refused _ _ wi_bytes ValueError (wit_stack w)); [reflexivity| | | |reflexivity|reflexivity].
  - rewrite Forall_forall in F |- *. intros i I. destruct (unreadable_dec name (zlen (wi_item i))) as [P|P].
    + left. exists i. split; [|reflexivity]. intros r. apply WitnessStackItem_parse; [apply F, I|apply (readable_spec name net _ En P)].
    + right. intros r. apply (item_unreadable name net i r En (F i I) P).
  - destruct (Forall_Exists_dec (fun i => readable_size name (zlen (wi_item i))) (fun i => unreadable_dec name (zlen (wi_item i))) (wit_stack w)) as [Y|Y]; [contradiction|].
    apply Exists_exists in Y. destruct Y as [i [I Y]]. apply Exists_exists. exists i. split; [exact I|]. intros r.
    rewrite Forall_forall in F. apply (item_unreadable name net i r En (F i I) Y).
  - rewrite !app_length. enough (length (wit_stack w) <= length (concat (map wi_bytes (wit_stack w))))%nat by lia.
    apply length_concat_ge. intros x I. rewrite Forall_forall in F. pose proof (witem_positive x (F x I)). lia.
Qed.

Lemma witnesses_refused name net pre ws tail : get_network name = Ok net -> Forall witness_obj ws ->
  Forall (fun w => readable net (zlen (wit_stack w))) ws -> ~ Forall (readable_items name) ws ->
  forall fuel c, (length ws <= fuel)%nat -> c = zlen pre ->
  read_many (InputWitness_from_bytes net) (fun w => zlen (wit_bytes w)) fuel (pre ++ concat (map wit_bytes ws) ++ tail) (zlen ws) c = Err ValueError.
Proof.
  intros En F R N fuel c Hf Hc. apply read_many_refused; [| |exact Hf|reflexivity|exact Hc].
  - rewrite Forall_forall in F, R |- *. intros w I. destruct (readable_items_dec name w) as [P|P].
    + left. exists w. split; [|reflexivity]. intros r. apply InputWitness_parse; [apply F, I|]. split; [apply R, I|].
      eapply Forall_impl; [|exact P]. intros i. apply (readable_spec name net _ En).
    + right. intros r. apply (witness_unreadable name net w r En (F w I) (R w I) P).
  - destruct (Forall_Exists_dec (readable_items name) (readable_items_dec name) ws) as [Y|Y]; [contradiction|].
    apply Exists_exists in Y. destruct Y as [w [I Y]]. apply Exists_exists. exists w. split; [exact I|]. intros r.
    rewrite Forall_forall in F, R. apply (witness_unreadable name net w r En (F w I) (R w I) Y).
Qed.

Section Refused.
Context (H : hashes).

Lemma Tx_refused name net p t rest : get_network name = Ok net -> is_bytes p -> Tx_from_bytes H net p = Ok t ->
  ~ readable_tx name (the_tx t) -> Tx_from_bytes H net (tx_bytes t ++ rest) = Err ValueError.
Proof.
  intros En B E0 P. destruct (Tx_size H name net p t En B E0) as [O [_ [Ii [Po [Ws [R1 [R2 Rs]]]]]]].
  apply tx_obj_iff in O. destruct O as [Fi [Fo [Fw [A E]]]].
  pose proof A as A'. unfold tx_args_ok in A'. rewrite !andb_true_iff in A'.
  destruct A' as [[[[[[[A1 A2] A3] A4] A5] A6] A7] A8].
  apply Z.eqb_eq in A1, A2.
  assert (SEGWIT_TX_FLAG net = marker_and_flag) as SF by (apply (segwit_flag name), En).
  assert (tx_bytes t = body (tx_flag t) (tx_version t) (tx_tx_ins t) (tx_tx_outs t) (tx_tx_witnesses t) (tx_lock_time t)) as Eb
    by (rewrite E; reflexivity).
  unfold Tx_from_bytes. rewrite Eb, SF. unfold body. rewrite Ws in *.
  assert (P' : ~ readable_scripts name (map the_input (tx_tx_ins t)) \/
    readable_scripts name (map the_input (tx_tx_ins t)) /\ ~ Forall (readable_items name) (the_witnesses t)).
  { destruct (Forall_dec _ (fun i => unreadable_dec name (zlen (in_script i))) (map the_input (tx_tx_ins t))) as [X|X]; [right|left; exact X].
    split; [exact X|]. intros Y. apply P. split; [exact X|]. unfold the_tx. cbn [t_witness]. destruct (tx_flag t); [|exact I]. rewrite Forall_map.
    eapply Forall_impl; [|exact Y]. intros w Z. unfold the_stack. rewrite Forall_map. exact Z. }
  clear P. destruct (tx_flag t) as [f|] eqn:Ef.
  - unfold flag_ok in A3. apply leqb_eq in A3. rewrite SF in A3. subst f.
    set (wsb := concat (map wit_bytes (the_witnesses t))).
    rewrite <- !app_assoc.
    match goal with |- context [slice ?b 4 6] => set (bs := b) end.
    replace (leqb (slice bs 4 6) marker_and_flag) with true by (symmetry; unfold bs; apply flagged_head, A1).
    assert (zlen (tx_version t ++ marker_and_flag) = 6) as L6 by (rewrite zlen_app, A1; reflexivity).
    destruct P' as [P|[P Pw]].
    { destruct (inputs_refused name net (tx_version t ++ marker_and_flag) (tx_tx_ins t)
        (compactsize (zlen (tx_tx_outs t)) ++ concat (map to_bytes_ (tx_tx_outs t)) ++ wsb ++ tx_lock_time t ++ rest) 6 En Ii P R1) with (bs := bs) as [X1 X2];
        [lia|exact L6|unfold bs; rewrite <- !app_assoc; reflexivity|].
      rewrite X1. cbn [bind vi_number vi_bytes]. rewrite X2. reflexivity. }
    unfold readable_scripts in P. rewrite Forall_map in P.
    assert (Forall2 (fun i i' => (forall r, TxIn_from_bytes net (ti_bytes i ++ r) = Ok i') /\ zlen (ti_bytes i') = zlen (ti_bytes i)) (tx_tx_ins t) (tx_tx_ins t)) as F2.
    { apply Forall2_refl_in. intros i I. rewrite Forall_forall in Ii, P. split; [|reflexivity].
      destruct (Ii i I) as [b [Bb Ebb]]. apply (TxIn_again name net b i En Bb Ebb). apply (readable_spec name net _ En). exact (P i I). }
    destruct (tx_parse_prefix name net (tx_version t ++ marker_and_flag) (tx_tx_ins t) (tx_tx_outs t) (tx_tx_ins t) 6 (wsb ++ tx_lock_time t ++ rest) En F2 Fi Fo Po) with (bs := bs)
      as [X1 [X2 [X3 [X4 [pre [X5 X6]]]]]];
      [exact R1|exact R2|lia|lia|exact L6|unfold bs; rewrite <- !app_assoc; reflexivity|].
    rewrite X1. cbn [bind vi_number vi_bytes]. rewrite X2. cbn [bind]. rewrite X3. cbn [bind vi_number vi_bytes]. rewrite X4. cbn [bind].
    replace (negb (leqb marker_and_flag [])) with true by reflexivity. cbn [andb].
    set (c4 := 6 + _ + _ + _ + _) in *.
    assert (slice_from bs c4 = wsb ++ tx_lock_time t ++ rest) as -> by (rewrite X5; apply slice_from_app, X6).
    assert (zlen (the_witnesses t) <> 0) as W0 by (intros X; apply zlen_0 in X; rewrite X in Pw; apply Pw; constructor).
    unfold wits_ok in A4. cbn [andb] in A4.
    destruct (Z.eqb_spec (zlen (the_witnesses t)) 0); [contradiction|]. cbn [orb] in A4. apply Z.eqb_eq in A4.
    assert (length (the_witnesses t) <= length wsb)%nat as Lw.
    { unfold wsb. apply length_concat_ge. intros x I. apply witness_nonempty. rewrite Forall_forall in Fw. apply Fw, I. }
    assert (1 <= zlen wsb) as Lw'. { pose proof (zlen_nonneg (the_witnesses t)). unfold zlen in *. lia. }
    pose proof (zlen_nonneg rest). rewrite !zlen_app, A2.
    destruct (Z.ltb_spec 4 (zlen wsb + (4 + zlen rest))); [|lia].
    rewrite <- A4. rewrite X5 at 2. unfold wsb.
    rewrite (witnesses_refused name net pre (the_witnesses t) (tx_lock_time t ++ rest) En Fw Rs Pw); [reflexivity| |symmetry; exact X6].
    rewrite X5, !app_length. lia.
  - unfold wits_ok in A4. cbn [andb] in A4. rewrite orb_false_r in A4. apply Z.eqb_eq, zlen_0 in A4.
    destruct P' as [P|[_ P]]; [|exfalso; apply P; rewrite A4; constructor]. rewrite A4. cbn [map concat].
    rewrite <- !app_assoc. cbn [app].
    match goal with |- context [slice ?b 4 6] => set (bs := b) end.
    replace (leqb (slice bs 4 6) marker_and_flag) with false by (symmetry; unfold bs; apply legacy_head; [exact A1|lia]).
    destruct (inputs_refused name net (tx_version t) (tx_tx_ins t)
        (compactsize (zlen (tx_tx_outs t)) ++ concat (map to_bytes_ (tx_tx_outs t)) ++ tx_lock_time t ++ rest) 4 En Ii P R1) with (bs := bs) as [X1 X2];
      [lia|exact A1|reflexivity|].
    rewrite X1. cbn [bind vi_number vi_bytes]. rewrite X2. reflexivity.
Qed.
End Refused.
