(* Lemmas about MTx.v: parsing what was serialized; the wire format can be read
   in one way only *)
From Coq Require Import String.
From Verif Require Import Py LBase MNet MUtils MShared MScript MTx SNum SNet SScript STx LNet LUtils LVarint LScript LBase58 LTx.
Open Scope list_scope.
Open Scope Z_scope.
Ltac Zify.zify_post_hook ::= idtac.

(** * reading parts back *)

Definition readable (net : network) (n : Z) : Prop := compact_only net = false \/ ~ 253 <= n <= 255.

Lemma readable_spec name net n : get_network name = Ok net -> readable_size name n -> readable net n.
Proof.
  intros En [N|N]; [|right; exact N]. left. destruct (compact_only net) eqn:E; [|reflexivity].
  exfalso. apply N. apply (compact_only_names name net En). exact E.
Qed.

Lemma readable_small net n : n < 253 -> readable net n.
Proof. intros. right. lia. Qed.

Lemma Outpoint_parse o rest : outpoint_obj o -> Outpoint_from_bytes (op_bytes o ++ rest) = Ok o.
Proof.
  intros O. pose proof O as O'. apply outpoint_obj_iff in O'. destruct O' as [A [B C]].
  unfold Outpoint_from_bytes. rewrite C, <- app_assoc, slice_to_app by exact A.
  rewrite slice_app by lia. exact O.
Qed.

Lemma TxOut_parse net o rest : txout_obj o -> zlen (to_output_script o) < 252 ->
  TxOut_from_bytes net (to_bytes_ o ++ rest) = Ok o.
Proof.
  intros O L. pose proof O as O'. apply txout_obj_iff in O'. destruct O' as [A [B C]].
  unfold TxOut_from_bytes. rewrite C, <- !app_assoc, slice_from_app by exact A.
  pose proof (zlen_nonneg (to_output_script o)).
  rewrite VarInt_roundtrip by (try apply readable_small; lia). cbn [bind vi_number vi_bytes].
  destruct (Z.ltb_spec (zlen (to_output_script o)) 0xfc); [|lia].
  rewrite slice_to_app by exact A.
  rewrite (app_assoc (to_value o)), slice_app; [exact O|rewrite zlen_app; lia|lia].
Qed.

Lemma TxOut_long net o rest : txout_obj o -> 252 <= zlen (to_output_script o) -> readable net (zlen (to_output_script o)) ->
  TxOut_from_bytes net (to_bytes_ o ++ rest) = Err NotImplementedError.
Proof.
  intros O L R. apply txout_obj_iff in O. destruct O as [A [B C]].
  unfold TxOut_from_bytes. rewrite C, <- !app_assoc, slice_from_app by exact A.
  rewrite VarInt_roundtrip by (try exact R; lia). cbn [bind vi_number vi_bytes].
  destruct (Z.ltb_spec (zlen (to_output_script o)) 0xfc); [lia|reflexivity].
Qed.

Lemma WitnessStackItem_parse net w rest : witem_obj w -> readable net (zlen (wi_item w)) ->
  WitnessStackItem_from_bytes net (wi_bytes w ++ rest) = Ok w.
Proof.
  intros O R. pose proof O as O'. apply witem_obj_iff in O'. destruct O' as [A C].
  unfold WitnessStackItem_from_bytes. pose proof (zlen_nonneg (wi_item w)). rewrite C, <- app_assoc.
  rewrite VarInt_roundtrip by (try exact R; lia). cbn [bind vi_number vi_bytes].
  rewrite slice_app by lia. exact O.
Qed.

Lemma read_many_step {A} (fb : bytes -> res A) size f bs n c : 0 < n ->
  read_many fb size (S f) bs n c =
  (x <- fb (slice_from bs c) ;; ' (xs, c') <- read_many fb size f bs (n - 1) (c + size x) ;; Ok (x :: xs, c')).
Proof. intros N. cbn [read_many]. destruct (Z.leb_spec n 0); [lia|reflexivity]. Qed.

Lemma read_many_done {A} (fb : bytes -> res A) size f bs n c : n <= 0 -> read_many fb size f bs n c = Ok ([], c).
Proof. intros N. destruct f; cbn [read_many]; destruct (Z.leb_spec n 0); reflexivity || lia. Qed.

Lemma read_many_ok {A X} (fb : bytes -> res A) size (w : X -> bytes) xs ys :
  Forall2 (fun x y => (forall r, fb (w x ++ r) = Ok y) /\ size y = zlen (w x)) xs ys ->
  forall fuel pre rest n c, (length xs <= fuel)%nat -> n = zlen xs -> c = zlen pre ->
  read_many fb size fuel (pre ++ concat (map w xs) ++ rest) n c = Ok (ys, c + zlen (concat (map w xs))).
Proof.
  induction 1 as [|x y xs ys [P S] F IH]; intros fuel pre rest n c Hf Hn Hc.
  - rewrite read_many_done by (rewrite Hn, zlen_nil; lia). cbn. rewrite Z.add_0_r. reflexivity.
  - cbn [length] in Hf. destruct fuel as [|fuel]; [lia|]. rewrite zlen_cons in Hn.
    pose proof (zlen_nonneg xs). rewrite read_many_step by lia.
    cbn [map concat]. rewrite <- app_assoc, slice_from_app by (symmetry; exact Hc). rewrite P. cbn [bind].
    rewrite (app_assoc pre). rewrite (IH fuel (pre ++ w x) rest) by (try (rewrite zlen_app); lia).
    cbn [bind]. rewrite zlen_app, S, Z.add_assoc. reflexivity.
Qed.

Lemma length_concat_ge {X} (w : X -> bytes) xs : (forall x, In x xs -> 1 <= zlen (w x)) ->
  (length xs <= length (concat (map w xs)))%nat.
Proof.
  induction xs as [|x xs IH]; intros F; [reflexivity|]. cbn [map concat length]. rewrite app_length.
  specialize (IH (fun y I => F y (or_intror I))). pose proof (F x (or_introl eq_refl)) as L. unfold zlen in L. lia.
Qed.

Lemma Forall2_refl_in {X} (R : X -> X -> Prop) xs : (forall x, In x xs -> R x x) -> Forall2 R xs xs.
Proof. induction xs as [|x xs IH]; intros F; constructor; [apply F; left; reflexivity|apply IH; intros y I; apply F; right; exact I]. Qed.

Definition readable_witness (net : network) (w : witness) : Prop :=
  readable net (zlen (wit_stack w)) /\ Forall (fun i => readable net (zlen (wi_item i))) (wit_stack w).

Lemma zlen_compactsize_pos n : 1 <= zlen (compactsize n) <= 9.
Proof.
  rewrite zlen_compactsize. destruct (n <? 253); [lia|]. destruct (n <? 2 ^ 16); [lia|]. destruct (n <? 2 ^ 32); lia.
Qed.

Lemma InputWitness_parse net w rest : witness_obj w -> readable_witness net w ->
  InputWitness_from_bytes net (wit_bytes w ++ rest) = Ok w.
Proof.
  intros O [R1 R2]. pose proof O as O'. apply witness_obj_iff in O'. destruct O' as [F [L C]].
  unfold InputWitness_from_bytes. pose proof (zlen_nonneg (wit_stack w)). rewrite C, <- app_assoc.
  rewrite VarInt_roundtrip by (try exact R1; lia). cbn [bind vi_number vi_bytes].
  rewrite (read_many_ok _ _ wi_bytes (wit_stack w) (wit_stack w)); [cbn [bind]; apply O| | |reflexivity|reflexivity].
  - apply Forall2_refl_in. intros x I. rewrite Forall_forall in F, R2. split; [|reflexivity].
    intros r. apply WitnessStackItem_parse; [apply F, I|apply R2, I].
  - rewrite !app_length. enough (length (wit_stack w) <= length (concat (map wi_bytes (wit_stack w))))%nat by lia.
    apply length_concat_ge. intros x I. rewrite Forall_forall in F. apply F, witem_obj_iff in I. destruct I as [_ ->].
    rewrite zlen_app. pose proof (zlen_compactsize_pos (zlen (wi_item x))). pose proof (zlen_nonneg (wi_item x)). lia.
Qed.

(** * script sigs *)

Lemma fromhex_opname name net c n : get_network name = Ok net -> In (c, n) (opcodes_of name) -> fromhex n = Err ValueError.
Proof.
  intros _ I. rewrite opcodes_of_b in I.
  assert (forallb (fun o => match fromhex (snd o) with Err ValueError => true | _ => false end) (opcodes_b name) = true) as F.
  { unfold opcodes_b. destruct (str_mem name decred_names); vm_compute; reflexivity. }
  rewrite forallb_forall in F. specialize (F (c, n) I). cbn [snd] in F.
  destruct (fromhex n) as [|[]]; try discriminate F. reflexivity.
Qed.

Lemma deserialize_errors name net d e : get_network name = Ok net -> is_bytes d -> deserialize net d = Err e ->
  e = IndexError \/ e = ValueError \/ e = NotImplementedError.
Proof.
  intros En B E. destruct (decompose name net d En B) as [es [r [out [-> [F X]]]]].
  assert (is_bytes r) as Br by (apply is_bytes_app in B; apply B).
  rewrite (deserialize_ending name net es r out En F Br X) in E.
  inversion X; subst; cbn [texts] in E; try discriminate; injection E as <-; auto.
Qed.

Lemma index_last {A} (l : list A) x : index (l ++ [x]) (-1) = Ok x.
Proof.
  unfold index. cbn [Z.ltb Z.compare]. rewrite zlen_app. change (zlen [x]) with 1. pose proof (zlen_nonneg l).
  destruct (Z.ltb_spec (zlen l + 1 + -1) 0); [lia|]. destruct (Z.leb_spec (zlen l + 1) (zlen l + 1 + -1)); [lia|]. cbn [orb].
  replace (Z.to_nat (zlen l + 1 + -1)) with (length l) by (unfold zlen; lia).
  rewrite nth_error_app2 by lia. rewrite Nat.sub_diag. reflexivity.
Qed.

(* which part of a canonical script sig is taken for a redeem script *)
Definition redeem_of (net : network) (e : element) : bool :=
  match e with Op _ _ => false | Push _ d => match deserialize net d with Ok _ => true | Err _ => false end end.

Lemma split_texts name net es : get_network name = Ok net -> Forall (standard_element name) es ->
  split_ws (join (lit " ") (map text es)) = map text es.
Proof.
  intros En F. rewrite split_ws_join.
  - apply filter_all. apply Forall_map. eapply Forall_impl; [|exact F]. intros e Se. unfold nonempty.
    rewrite leqb_false; [reflexivity|]. eapply text_ne; eassumption.
  - apply Forall_map. eapply Forall_impl; [|exact F]. intros e Se. eapply text_ne; eassumption.
Qed.

Lemma parse_script_sig_canonical name net es e : get_network name = Ok net ->
  Forall (standard_element name) (es ++ [e]) ->
  TxIn_parse_script_sig net (concat (map wire (es ++ [e]))) =
  Ok (if redeem_of net e then (concat (map wire es), wire e) else (concat (map wire (es ++ [e])), [])).
Proof.
  intros En F. unfold TxIn_parse_script_sig.
  rewrite (deserialize_wires name) by (try exact En; apply standard_oks, F). cbn [bind].
  rewrite (split_texts name net) by assumption. rewrite map_app. cbn [map]. rewrite index_last. cbn [bind].
  apply Forall_app in F. destruct F as [F Fe]. inversion Fe as [|? ? Se _]; subst.
  rewrite slice_to_neg_app by (try reflexivity; lia).
  destruct e as [c n|f d]; cbn [text redeem_of].
  - unfold hex_deserialize. cbn [standard_element] in Se. rewrite (fromhex_opname name net c n En) by apply Se. cbn [bind].
    rewrite map_app. reflexivity.
  - unfold hex_deserialize. pose proof Se as [B [L ->]]. rewrite fromhex_hex by exact B. cbn [bind].
    destruct (deserialize net d) as [s|x] eqn:D; cbn [bind].
    + rewrite (serialize_standard name) by assumption. cbn [bind].
      pose proof (serialize_standard name net [Push (smallest d) d] En) as S. cbn [map text join concat wire] in S.
      rewrite app_nil_r in S. rewrite S by (constructor; [exact Se|constructor]). reflexivity.
    + destruct (deserialize_errors name net d x En B D) as [-> | [-> | ->]]; rewrite map_app; reflexivity.
Qed.

Lemma refused_deserialize name net s : get_network name = Ok net -> refused_script name s ->
  exists e, deserialize net s = Err e /\ (e = IndexError \/ e = ValueError \/ e = NotImplementedError).
Proof.
  intros En [es [r [F [B [K ->]]]]]. unfold all_bytes in B.
  assert (exists out, ending name r (Err out)) as [out X].
  { inversion K; subst; eexists; econstructor; eassumption. }
  exists out. rewrite (deserialize_ending name net es r _ En F B X). split; [reflexivity|]. inversion X; auto.
Qed.

Lemma refused_iff name net d : get_network name = Ok net -> is_bytes d ->
  (refused_script name d <-> exists e, deserialize net d = Err e).
Proof.
  intros En B. split.
  - intros R. destruct (refused_deserialize name net d En R) as [e [E _]]. eauto.
  - intros [e E]. destruct (decompose name net d En B) as [es [r [out [-> [F X]]]]].
    assert (is_bytes r) as Br by (apply is_bytes_app in B; apply B).
    rewrite (deserialize_ending name net es r out En F Br X) in E. exists es, r. split; [exact F|]. split; [exact Br|].
    split; [|reflexivity]. inversion X; subst; try discriminate E; econstructor; eassumption.
Qed.

Lemma kept_split_other name net s : get_network name = Ok net ->
  (refused_script name s \/
   exists es e, Forall (element_ok name) (es ++ [e]) /\ s = concat (map wire (es ++ [e])) /\
    match e with Op _ _ => True | Push _ d => refused_script name d end) ->
  TxIn_parse_script_sig net s = Ok (s, []).
Proof.
  intros En [R|[es [e [F [-> L]]]]]; unfold TxIn_parse_script_sig.
  - destruct (refused_deserialize name net s En R) as [x [-> X]]. cbn [bind].
    destruct X as [-> | [-> | ->]]; reflexivity.
  - rewrite (deserialize_wires name) by assumption. cbn [bind].
    rewrite split_ws_join.
    2: { pose proof (texts_all _ _ F) as T. eapply Forall_impl; [|exact T]. intros w. apply (is_text_space name net w En). }
    rewrite map_app, filter_app. apply Forall_app in F. destruct F as [F Fe]. inversion Fe as [|? ? Oe _]; subst.
    assert (filter nonempty (map text [e]) = [text e]) as ->.
    { cbn [map filter]. unfold nonempty. rewrite leqb_false; [reflexivity|]. destruct e as [c n|f d]; cbn [text].
      - destruct Oe as [I _]. pose proof (op_facts_of _ _ _ _ En I) as [F1 F2 F3 F4 F5 F6]. apply F4.
      - destruct d as [|x d]; [|cbn; discriminate]. destruct L as [es' [r [_ [_ [K E]]]]].
        symmetry in E. apply app_eq_nil in E. destruct E as [_ ->]. inversion K; subst. inversion H. }
    rewrite index_last. cbn [bind]. destruct e as [c n|f d]; cbn [text] in *; unfold hex_deserialize.
    + rewrite (fromhex_opname name net c n En) by apply Oe. reflexivity.
    + rewrite fromhex_hex by apply Oe. cbn [bind]. destruct (refused_deserialize name net d En L) as [x [-> X]]. cbn [bind].
      destruct X as [-> | [-> | ->]]; reflexivity.
Qed.

Definition null_outpoint (o : outpoint) : Prop := op_bytes o = zrepeat 0 32 ++ zrepeat 255 4.

Lemma kept_split name net s : get_network name = Ok net -> kept_script name s -> s <> [] ->
  exists a b, TxIn_parse_script_sig net s = Ok (a, b) /\ a ++ b = s.
Proof.
  intros En [[es [F ->]]|K] N; [|exists s, []; split; [apply (kept_split_other name net s En K)|apply app_nil_r]]. destruct (rev es) as [|e r] eqn:R.
  { apply (f_equal (@rev element)) in R. rewrite rev_involutive in R. subst es. contradiction. }
  assert (es = rev r ++ [e]) as ->.
  { apply (f_equal (@rev element)) in R. rewrite rev_involutive in R. exact R. }
  rewrite (parse_script_sig_canonical name) by assumption. destruct (redeem_of net e); do 2 eexists; split; try reflexivity.
  - rewrite map_app, concat_app. cbn [map concat]. rewrite app_nil_r. reflexivity.
  - apply app_nil_r.
Qed.

Lemma firstn_app_cs (cs tail : bytes) : zlen cs <= 9 -> firstn 9 (cs ++ tail) = cs ++ firstn (9 - length cs) tail.
Proof. intros L. rewrite firstn_app, firstn_all2 by (unfold zlen in L; lia). reflexivity. Qed.

Definition same_input (i i' : txin) : Prop :=
  ti_outpoint i' = ti_outpoint i /\ ti_script_sig i' = ti_script_sig i /\ ti_sequence i' = ti_sequence i /\
  ti_bytes i' = ti_bytes i.

Lemma txin_bytes i : txin_obj i ->
  ti_bytes i = op_bytes (ti_outpoint i) ++ compactsize (zlen (ti_script_sig i)) ++ ti_script_sig i ++ ti_sequence i.
Proof.
  intros O. apply txin_obj_iff in O. destruct O as [_ [_ [_ X]]].
  apply (f_equal ti_bytes) in X as Y. apply (f_equal ti_script_sig) in X.
  cbn [txin_of ti_bytes ti_script_sig] in X, Y. rewrite Y, X. reflexivity.
Qed.

Lemma txin_same i a b : txin_obj i -> a ++ b = ti_script_sig i ->
  exists i', TxIn (ti_outpoint i) a b (ti_sequence i) = Ok i' /\ same_input i i' /\
             ti_stack_script i' = a /\ ti_redeem_script i' = b.
Proof.
  intros Hi E. pose proof Hi as O. apply txin_obj_iff in O. destruct O as [O [Q [L X]]].
  pose proof O as O'. apply outpoint_obj_iff in O'. destruct O' as [O1 [O2 O3]].
  rewrite TxIn_spec, O3, zlen_app, O1, O2, Q, E. destruct (Z.leb_spec (zlen (ti_script_sig i)) 1650); [|lia].
  change ((32 + 4 =? 36) && (4 =? 4) && true) with true. cbn iota.
  eexists. split; [reflexivity|]. split; [|split; reflexivity].
  unfold same_input, txin_of. cbn [ti_outpoint ti_script_sig ti_sequence ti_bytes]. rewrite E. repeat split.
  rewrite (txin_bytes i Hi). reflexivity.
Qed.

Lemma TxIn_parse_fields net o sc q rest : outpoint_obj o -> zlen q = 4 -> zlen sc < 2 ^ 64 -> readable net (zlen sc) ->
  TxIn_from_bytes net (op_bytes o ++ compactsize (zlen sc) ++ sc ++ q ++ rest) =
  (' (a, b) <-
      (if leqb sc [] then Ok ([], [])
       else if leqb (op_bytes o) (zrepeat 0 32 ++ zrepeat 255 4) then Ok (sc, [])
            else TxIn_parse_script_sig net sc) ;;
   TxIn o a b q).
Proof.
  intros Oo Q L R. pose proof Oo as O''. apply outpoint_obj_iff in O''. destruct O'' as [O1 [O2 O3]].
  assert (zlen (op_bytes o) = 36) as L36 by (rewrite O3, zlen_app, O1, O2; reflexivity).
  unfold TxIn_from_bytes. rewrite slice_to_app by exact L36.
  rewrite <- (app_nil_r (op_bytes o)) at 1. rewrite Outpoint_parse by exact Oo. cbn [bind].
  pose proof (zlen_nonneg sc) as N0. pose proof (zlen_compactsize_pos (zlen sc)) as Pc.
  rewrite slice_skip by lia. rewrite L36. change (36 - 36) with 0. change (Z.max 0 (45 - 36)) with 9.
  rewrite slice_firstn by lia. cbn [Z.to_nat skipn]. change (Pos.to_nat 9) with 9%nat. change (Z.to_nat (9 - 0)) with 9%nat.
  rewrite firstn_app_cs by lia. rewrite VarInt_roundtrip by (try exact R; lia). cbn [bind vi_number vi_bytes].
  rewrite (app_assoc (op_bytes _)). rewrite slice_app by (rewrite ?zlen_app; lia).
  rewrite (app_assoc (_ ++ compactsize _)). rewrite slice_app by (rewrite ?zlen_app; lia).
  unfold Outpoint_null. rewrite Outpoint_spec. reflexivity.
Qed.

Lemma TxIn_parse_raw net i rest : txin_obj i -> readable net (zlen (ti_script_sig i)) ->
  TxIn_from_bytes net (ti_bytes i ++ rest) =
  (' (a, b) <-
      (if leqb (ti_script_sig i) [] then Ok ([], [])
       else if leqb (op_bytes (ti_outpoint i)) (zrepeat 0 32 ++ zrepeat 255 4) then Ok (ti_script_sig i, [])
            else TxIn_parse_script_sig net (ti_script_sig i)) ;;
   TxIn (ti_outpoint i) a b (ti_sequence i)).
Proof.
  intros O R. pose proof O as O'. apply txin_obj_iff in O'. destruct O' as [Oo [Q [L X]]].
  rewrite (txin_bytes i O), <- !app_assoc. apply TxIn_parse_fields; try assumption. lia.
Qed.

Definition parsable_input (name : str) (net : network) (i : txin) : Prop :=
  readable net (zlen (ti_script_sig i)) /\ (null_outpoint (ti_outpoint i) \/ kept_script name (ti_script_sig i)).

Lemma TxIn_parse name net i : get_network name = Ok net -> txin_obj i -> parsable_input name net i ->
  exists i', (forall rest, TxIn_from_bytes net (ti_bytes i ++ rest) = Ok i') /\ same_input i i' /\ txin_obj i'.
Proof.
  intros En O [R C].
  assert (exists a b, (if leqb (ti_script_sig i) [] then Ok ([], [])
       else if leqb (op_bytes (ti_outpoint i)) (zrepeat 0 32 ++ zrepeat 255 4) then Ok (ti_script_sig i, [])
            else TxIn_parse_script_sig net (ti_script_sig i)) = Ok (a, b) /\ a ++ b = ti_script_sig i) as [a [b [E AB]]].
  { destruct (leqb_spec (ti_script_sig i) []) as [Z|N]; [exists [], []; split; [reflexivity|symmetry; exact Z]|].
    destruct (leqb_spec (op_bytes (ti_outpoint i)) (zrepeat 0 32 ++ zrepeat 255 4)) as [Z|M].
    - exists (ti_script_sig i), []. split; [reflexivity|apply app_nil_r].
    - destruct C as [C|C]; [contradiction|]. apply (kept_split name net _ En C N). }
  destruct (txin_same i a b O AB) as [i' [T [S [Sa Sb]]]].
  exists i'. split; [intros rest; rewrite TxIn_parse_raw, E by assumption; exact T|]. split; [exact S|].
  assert (outpoint_obj (ti_outpoint i)) as Oo by (destruct O as [Oo _]; exact Oo).
  destruct S as [S1 [S2 [S3 S4]]]. unfold txin_obj. rewrite S1, S3, Sa, Sb. split; [exact Oo|exact T].
Qed.

(* the exact split *)
Lemma TxIn_parse_split name net i es e rest : get_network name = Ok net -> txin_obj i ->
  readable net (zlen (ti_script_sig i)) -> ~ null_outpoint (ti_outpoint i) ->
  Forall (standard_element name) (es ++ [e]) -> ti_script_sig i = concat (map wire (es ++ [e])) ->
  exists i', TxIn_from_bytes net (ti_bytes i ++ rest) = Ok i' /\
    ti_stack_script i' = (if redeem_of net e then concat (map wire es) else ti_script_sig i) /\
    ti_redeem_script i' = (if redeem_of net e then wire e else []).
Proof.
  intros En O R N F E. rewrite TxIn_parse_raw by assumption.
  destruct (leqb_spec (ti_script_sig i) []) as [Z|Ne].
  { exfalso. rewrite E, map_app, concat_app in Z. apply app_eq_nil in Z. destruct Z as [_ Z]. cbn [map concat] in Z.
    rewrite app_nil_r in Z. destruct e as [|[] ?]; discriminate Z. }
  rewrite leqb_false by exact N. pose proof (parse_script_sig_canonical name net es e En F) as P.
  rewrite <- E in P. rewrite P. destruct (redeem_of net e); cbn [bind].
  - destruct (txin_same i (concat (map wire es)) (wire e) O) as [i' [T [S [Sa Sb]]]].
    { rewrite E, map_app, concat_app. cbn [map concat]. rewrite app_nil_r. reflexivity. }
    exists i'. auto.
  - destruct (txin_same i (ti_script_sig i) [] O (app_nil_r _)) as [i' [T [S [Sa Sb]]]]. exists i'. auto.
Qed.

(** * whole transactions *)

Lemma coinbase_null i : coinbase_input (the_input i) -> outpoint_obj (ti_outpoint i) -> null_outpoint (ti_outpoint i).
Proof.
  intros [A B] O. apply outpoint_obj_iff in O. destruct O as [_ [_ C]]. unfold null_outpoint. rewrite C.
  cbn [the_input in_txid in_index] in A, B. rewrite A, B. reflexivity.
Qed.

Lemma parsable_ins name net ins : get_network name = Ok net -> Forall txin_obj ins ->
  Forall (parsable_in name) (map the_input ins) ->
  exists ins', Forall2 (fun i i' => (forall r, TxIn_from_bytes net (ti_bytes i ++ r) = Ok i') /\ zlen (ti_bytes i') = zlen (ti_bytes i)) ins ins'
    /\ Forall2 same_input ins ins' /\ Forall txin_obj ins'.
Proof.
  intros En. induction 1 as [|i ins O F IH]; intros P.
  - exists []. repeat constructor.
  - inversion P as [|? ? [R C] Ps]; subst. destruct (IH Ps) as [ins' [A [B D]]].
    destruct (TxIn_parse name net i En O) as [i' [E [S O']]].
    + split; [apply (readable_spec name); assumption|]. destruct C as [C|C]; [left|right; exact C].
      apply coinbase_null; [exact C|apply O].
    + exists (i' :: ins'). split; [|split]; constructor; auto. split; [exact E|]. destruct S as [_ [_ [_ ->]]]. reflexivity.
Qed.

Lemma same_inputs ins ins' : Forall2 same_input ins ins' ->
  map the_input ins' = map the_input ins /\ map ti_bytes ins' = map ti_bytes ins /\ zlen ins' = zlen ins.
Proof.
  induction 1 as [|i i' ins ins' [A [B [C D]]] F [IH1 [IH2 IH3]]]; [auto|].
  cbn [map]. rewrite IH1, IH2, !zlen_cons, IH3, D. unfold the_input at 1. rewrite A, B, C. auto.
Qed.

Lemma compactsize_head n : 1 <= n -> exists b l, compactsize n = b :: l /\ b <> 0.
Proof.
  intros N. unfold compactsize. destruct (n <? 253) eqn:E1; [exists n, []; split; [reflexivity|lia]|].
  destruct (n <? 2 ^ 16); [do 2 eexists; split; [reflexivity|lia]|].
  destruct (n <? 2 ^ 32); do 2 eexists; (split; [reflexivity|lia]).
Qed.

Lemma legacy_head v n tail : zlen v = 4 -> 1 <= n -> leqb (slice (v ++ compactsize n ++ tail) 4 6) marker_and_flag = false.
Proof.
  intros V N. destruct (compactsize_head n N) as [b [l [-> B]]].
  rewrite slice_skip, V by lia. change (4 - 4) with 0. change (Z.max 0 (6 - 4)) with 2.
  rewrite slice_firstn by lia. cbn [app]. change (Z.to_nat 0) with 0%nat. cbn [skipn]. change (Z.to_nat (2 - 0)) with 2%nat.
  cbn [firstn]. unfold marker_and_flag. cbn [leqb]. destruct (Z.eqb_spec b 0); [contradiction|reflexivity].
Qed.

Lemma flagged_head v tail : zlen v = 4 -> leqb (slice (v ++ marker_and_flag ++ tail) 4 6) marker_and_flag = true.
Proof. intros V. rewrite slice_app by (exact V || reflexivity). apply leqb_refl. Qed.

Section Tx.
Context (H : hashes).

(* everything up to the witnesses *)
Lemma tx_parse_prefix name net pre ins outs ins' (k : Z) tail : get_network name = Ok net ->
  Forall2 (fun i i' => (forall r, TxIn_from_bytes net (ti_bytes i ++ r) = Ok i') /\ zlen (ti_bytes i') = zlen (ti_bytes i)) ins ins' ->
  Forall txin_obj ins ->
  Forall txout_obj outs -> Forall (fun o => zlen (to_output_script o) < 252) outs ->
  readable net (zlen ins) -> readable net (zlen outs) -> zlen ins < 2 ^ 64 -> zlen outs < 2 ^ 64 -> zlen pre = k ->
  forall bs, bs = pre ++ compactsize (zlen ins) ++ concat (map ti_bytes ins) ++ compactsize (zlen outs) ++ concat (map to_bytes_ outs) ++ tail ->
  let c1 := k + zlen (compactsize (zlen ins)) in
  let c2 := c1 + zlen (concat (map ti_bytes ins)) in
  let c3 := c2 + zlen (compactsize (zlen outs)) in
  let c4 := c3 + zlen (concat (map to_bytes_ outs)) in
  VarInt_from_bytes net (slice_from bs k) = Ok {| vi_number := zlen ins; vi_bytes := compactsize (zlen ins) |} /\
  read_many (TxIn_from_bytes net) (fun i => zlen (ti_bytes i)) (S (length bs)) bs (zlen ins) c1 = Ok (ins', c2) /\
  VarInt_from_bytes net (slice_from bs c2) = Ok {| vi_number := zlen outs; vi_bytes := compactsize (zlen outs) |} /\
  read_many (TxOut_from_bytes net) (fun o => zlen (to_bytes_ o)) (S (length bs)) bs (zlen outs) c3 = Ok (outs, c4) /\
  exists pre', bs = pre' ++ tail /\ zlen pre' = c4.
Proof.
  intros En F Fi Fo Lo Ri Ro Ni No K bs E c1 c2 c3 c4.
  pose proof (zlen_nonneg ins) as Z1. pose proof (zlen_nonneg outs) as Z2.
  assert (length ins <= length bs)%nat as Fu1.
  { rewrite E, !app_length. enough (length ins <= length (concat (map ti_bytes ins)))%nat by lia.
    apply length_concat_ge. intros x I. rewrite Forall_forall in Fi. rewrite (txin_bytes x (Fi x I)), !zlen_app.
    pose proof (zlen_compactsize_pos (zlen (ti_script_sig x))). pose proof (zlen_nonneg (op_bytes (ti_outpoint x))).
    pose proof (zlen_nonneg (ti_script_sig x)). pose proof (zlen_nonneg (ti_sequence x)). lia. }
  assert (length outs <= length bs)%nat as Fu2.
  { rewrite E, !app_length. enough (length outs <= length (concat (map to_bytes_ outs)))%nat by lia.
    apply length_concat_ge. intros x I. rewrite Forall_forall in Fo. apply Fo, txout_obj_iff in I. destruct I as [A [B ->]].
    rewrite !zlen_app. pose proof (zlen_nonneg (compactsize (zlen (to_output_script x)))). pose proof (zlen_nonneg (to_output_script x)). lia. }
  split; [|split; [|split; [|split]]].
  - rewrite E, slice_from_app by exact K. rewrite VarInt_roundtrip by (try assumption; lia). reflexivity.
  - rewrite E at 2. rewrite (app_assoc pre). rewrite (read_many_ok _ _ ti_bytes ins ins' F); [reflexivity|lia|reflexivity|].
    rewrite zlen_app. unfold c1. lia.
  - rewrite E. rewrite (app_assoc pre), (app_assoc (pre ++ _)).
    rewrite slice_from_app by (rewrite !zlen_app; unfold c2, c1; lia).
    rewrite VarInt_roundtrip by (try assumption; lia). reflexivity.
  - rewrite E at 2. rewrite (app_assoc pre), (app_assoc (pre ++ _)), (app_assoc (_ ++ concat (map ti_bytes ins))).
    rewrite (read_many_ok _ _ to_bytes_ outs outs); [reflexivity| |lia|reflexivity|].
    + apply Forall2_refl_in. intros x I. rewrite Forall_forall in Fo, Lo. split; [|reflexivity]. intros r. apply TxOut_parse; auto.
    + rewrite !zlen_app. unfold c3, c2, c1. lia.
  - rewrite E. rewrite (app_assoc pre), (app_assoc (pre ++ _)), (app_assoc (_ ++ concat (map ti_bytes ins))).
    eexists. split; [apply app_assoc|]. rewrite !zlen_app; unfold c4, c3, c2, c1; lia.
Qed.

Lemma parsable_ws name net ws : get_network name = Ok net -> Forall witness_obj ws ->
  Forall (parsable_stack name) (map the_stack ws) -> Forall (fun w => witness_obj w /\ readable_witness net w) ws.
Proof.
  intros En F P. rewrite Forall_map in P. rewrite Forall_forall in *. intros w I. split; [apply F, I|].
  specialize (P w I). destruct P as [A B]. unfold the_stack in A, B. rewrite Forall_map in B.
  split.
  - apply (readable_spec name); [exact En|]. unfold readable_size in *. unfold count in A. rewrite map_length in A. exact A.
  - eapply Forall_impl; [|exact B]. intros i R. apply (readable_spec name); assumption.
Qed.

Lemma witness_nonempty w : witness_obj w -> 1 <= zlen (wit_bytes w).
Proof.
  intros O. apply witness_obj_iff in O. destruct O as [_ [_ ->]]. rewrite zlen_app.
  pose proof (zlen_compactsize_pos (zlen (wit_stack w))). pose proof (zlen_nonneg (concat (map wi_bytes (wit_stack w)))). lia.
Qed.

(* the inputs are read one by one as [ins'] *)
Lemma tx_parse_gen name net t rest ins' : get_network name = Ok net -> tx_obj H net t ->
  readable_size name (zlen (tx_tx_ins t)) -> readable_size name (zlen (tx_tx_outs t)) ->
  Forall2 (fun i i' => (forall r, TxIn_from_bytes net (ti_bytes i ++ r) = Ok i') /\ zlen (ti_bytes i') = zlen (ti_bytes i)) (tx_tx_ins t) ins' ->
  Forall2 same_input (tx_tx_ins t) ins' -> Forall txin_obj ins' ->
  Forall (fun o => len (out_script o) < 252) (t_outs (the_tx t)) ->
  match t_witness (the_tx t) with Some ws => Forall (parsable_stack name) ws | None => True end ->
  (bip144 (the_tx t) \/ rest = []) ->
  exists t', Tx_from_bytes H net (tx_bytes t ++ rest) = Ok t' /\ tx_obj H net t' /\ the_tx t' = the_tx t /\
    tx_tx_witnesses t' = Some (match tx_flag t with Some _ => the_witnesses t | None => [] end) /\ tx_bytes t' = tx_bytes t /\ tx_tx_id t' = tx_tx_id t /\ tx_wtx_id t' = tx_wtx_id t.
Proof.
  intros En O R1 R2 F2 S Fi' Po Pw Hr. apply tx_obj_iff in O. destruct O as [Fi [Fo [Fw [A E]]]].
  unfold the_tx in Po, Pw. cbn [t_ins t_outs t_witness] in *.
  destruct (same_inputs _ _ S) as [S1 [S2 S3]].
  rewrite Forall_map in Po.
  pose proof A as A'. unfold tx_args_ok in A'. rewrite !andb_true_iff in A'.
  destruct A' as [[[[[[[A1 A2] A3] A4] A5] A6] A7] A8].
  apply Z.eqb_eq in A1, A2.
  assert (SEGWIT_TX_FLAG net = marker_and_flag) as SF by (apply (segwit_flag name), En).
  assert (tx_bytes t = body (tx_flag t) (tx_version t) (tx_tx_ins t) (tx_tx_outs t) (tx_tx_witnesses t) (tx_lock_time t)) as Eb
    by (rewrite E; reflexivity).
  assert (tx_tx_id t = tx_tx_id (tx_of H net (tx_version t) (tx_flag t) (tx_tx_ins t) (tx_tx_outs t) (tx_tx_witnesses t) (tx_lock_time t))) as Ei
    by (rewrite <- E; reflexivity).
  assert (tx_wtx_id t = tx_wtx_id (tx_of H net (tx_version t) (tx_flag t) (tx_tx_ins t) (tx_tx_outs t) (tx_tx_witnesses t) (tx_lock_time t))) as Ew
    by (rewrite <- E; reflexivity).
  set (ws' := match tx_flag t with Some _ => the_witnesses t | None => [] end).
  (* what the parser hands to the constructor *)
  assert (Tx_from_bytes H net (tx_bytes t ++ rest) = Tx H net (tx_version t) (tx_flag t) ins' (tx_tx_outs t) (Some ws') (tx_lock_time t)) as T.
  { unfold Tx_from_bytes. rewrite Eb, SF. unfold body.
    destruct (tx_flag t) as [f|] eqn:Ef.
    - unfold flag_ok in A3. apply leqb_eq in A3. rewrite SF in A3. subst f.
      set (wsb := match tx_tx_witnesses t with Some ws => concat (map wit_bytes ws) | None => [] end).
      rewrite <- !app_assoc.
      match goal with |- context [slice ?b 4 6] => set (bs := b) end.
      replace (leqb (slice bs 4 6) marker_and_flag) with true by (symmetry; unfold bs; apply flagged_head, A1).
      replace (slice bs 0 4) with (tx_version t) by (unfold bs; symmetry; apply (slice_app [] (tx_version t)); [reflexivity|lia]).
      destruct (tx_parse_prefix name net (tx_version t ++ marker_and_flag) (tx_tx_ins t) (tx_tx_outs t) ins' 6 (wsb ++ tx_lock_time t ++ rest) En F2 Fi Fo Po) with (bs := bs)
        as [X1 [X2 [X3 [X4 [pre [X5 X6]]]]]];
        [apply (readable_spec name); assumption|apply (readable_spec name); assumption|lia|lia|rewrite zlen_app, A1; reflexivity|unfold bs; rewrite <- !app_assoc; reflexivity|].
      rewrite X1. cbn [bind vi_number vi_bytes]. rewrite X2. cbn [bind]. rewrite X3. cbn [bind vi_number vi_bytes]. rewrite X4. cbn [bind].
      replace (negb (leqb marker_and_flag [])) with true by reflexivity. cbn [andb].
      set (c4 := 6 + _ + _ + _ + _) in *.
      assert (slice_from bs c4 = wsb ++ tx_lock_time t ++ rest) as -> by (rewrite X5; apply slice_from_app, X6).
      destruct (Z.eq_dec (zlen (the_witnesses t)) 0) as [W0|W0].
      + (* no witnesses: the lock time is last *)
        assert (the_witnesses t = []) as W by (apply zlen_0; exact W0).
        assert (wsb = []) as Wb.
        { unfold wsb. unfold the_witnesses in W. destruct (tx_tx_witnesses t) as [w|]; [subst w|]; reflexivity. }
        destruct Hr as [Hr|Hr].
        { exfalso. unfold bip144, the_tx in Hr. cbn [t_witness t_ins] in Hr. rewrite Ef in Hr. unfold count in Hr.
          rewrite !map_length, W in Hr. cbn [length] in Hr. unfold zlen in A5. lia. }
        rewrite Wb, Hr, !app_nil_r. cbn [app]. rewrite A2. cbn [Z.ltb Z.compare Pos.compare Pos.compare_cont]. cbn [bind].
        rewrite X5, Wb, Hr. cbn [app]. rewrite slice_app by lia. unfold ws'. rewrite W. reflexivity.
      + assert (tx_tx_witnesses t = Some (the_witnesses t)) as W.
        { unfold the_witnesses in *. destruct (tx_tx_witnesses t); [reflexivity|]. cbn in W0. lia. }
        assert (wsb = concat (map wit_bytes (the_witnesses t))) as Wb by (unfold wsb; rewrite W; reflexivity).
        rewrite W in Fw, A4. unfold wits_ok in A4. cbn [andb] in A4.
        destruct (Z.eqb_spec (zlen (the_witnesses t)) 0); [contradiction|]. cbn [orb] in A4. apply Z.eqb_eq in A4.
        pose proof (parsable_ws name net _ En Fw Pw) as Rw.
        assert (length (the_witnesses t) <= length wsb)%nat as Lw.
        { rewrite Wb. apply length_concat_ge. intros x I. apply witness_nonempty. rewrite Forall_forall in Fw. apply Fw, I. }
        assert (1 <= zlen wsb) as Lw'. { pose proof (zlen_nonneg (the_witnesses t)). unfold zlen in *. lia. }
        pose proof (zlen_nonneg rest). rewrite !zlen_app, A2.
        destruct (Z.ltb_spec 4 (zlen wsb + (4 + zlen rest))); [|lia].
        rewrite <- A4. rewrite X5 at 2. rewrite Wb.
        rewrite (read_many_ok _ _ wit_bytes (the_witnesses t) (the_witnesses t)).
        * cbn [bind]. rewrite <- Wb, X5, (app_assoc pre), slice_app by (rewrite ?zlen_app; lia). reflexivity.
        * apply Forall2_refl_in. intros x I. rewrite Forall_forall in Rw. specialize (Rw x I). split; [|reflexivity].
          intros r. apply InputWitness_parse; apply Rw.
        * rewrite X5, !app_length. lia.
        * reflexivity.
        * symmetry. exact X6.
    - unfold wits_ok in A4.
      assert (match tx_tx_witnesses t with Some ws => concat (map wit_bytes ws) | None => [] end = []) as ->.
      { destruct (tx_tx_witnesses t) as [ws|]; [|reflexivity]. cbn [andb] in A4. rewrite orb_false_r in A4.
        apply Z.eqb_eq, zlen_0 in A4. subst ws. reflexivity. }
      rewrite <- !app_assoc. cbn [app].
      match goal with |- context [slice ?b 4 6] => set (bs := b) end.
      replace (leqb (slice bs 4 6) marker_and_flag) with false by (symmetry; unfold bs; apply legacy_head; [exact A1|lia]).
      replace (slice bs 0 4) with (tx_version t) by (unfold bs; symmetry; apply (slice_app [] (tx_version t)); [reflexivity|lia]).
      destruct (tx_parse_prefix name net (tx_version t) (tx_tx_ins t) (tx_tx_outs t) ins' 4 (tx_lock_time t ++ rest) En F2 Fi Fo Po) with (bs := bs)
        as [X1 [X2 [X3 [X4 [pre [X5 X6]]]]]];
        [apply (readable_spec name); assumption|apply (readable_spec name); assumption|lia|lia|exact A1|reflexivity|].
      rewrite X1. cbn [bind vi_number vi_bytes]. rewrite X2. cbn [bind]. rewrite X3. cbn [bind vi_number vi_bytes]. rewrite X4. cbn [bind andb].
      rewrite X5, slice_app by lia. reflexivity. }
  assert (tx_args_ok net (tx_version t) (tx_flag t) ins' (tx_tx_outs t) (Some ws') (tx_lock_time t) = true) as A'.
  { unfold tx_args_ok. rewrite S3. rewrite !andb_true_iff. repeat split; try assumption; try (apply Z.eqb_eq; assumption).
    unfold ws', the_witnesses. destruct (tx_flag t) as [f|]; [|reflexivity].
    destruct (tx_tx_witnesses t) as [ws|]; [exact A4|reflexivity]. }
  assert (body (tx_flag t) (tx_version t) ins' (tx_tx_outs t) (Some ws') (tx_lock_time t) =
          body (tx_flag t) (tx_version t) (tx_tx_ins t) (tx_tx_outs t) (tx_tx_witnesses t) (tx_lock_time t)) as B1.
  { unfold body. rewrite S2, S3. do 6 f_equal. unfold ws', the_witnesses, wits_ok in *. destruct (tx_flag t) as [f|].
    - destruct (tx_tx_witnesses t); reflexivity.
    - destruct (tx_tx_witnesses t) as [ws|]; [|reflexivity]. cbn [andb] in A4. rewrite orb_false_r in A4.
      apply Z.eqb_eq, zlen_0 in A4. subst ws. reflexivity. }
  assert (body None (tx_version t) ins' (tx_tx_outs t) None (tx_lock_time t) =
          body None (tx_version t) (tx_tx_ins t) (tx_tx_outs t) None (tx_lock_time t)) as B2.
  { unfold body. rewrite S2, S3. reflexivity. }
  rewrite Tx_spec, A' in T. eexists. split; [exact T|]. split.
  { apply tx_obj_iff. cbn [tx_of tx_tx_ins tx_tx_outs tx_tx_witnesses tx_version tx_flag tx_lock_time].
    split; [exact Fi'|]. split; [exact Fo|]. split; [|split; [exact A'|reflexivity]].
    unfold ws', the_witnesses. destruct (tx_flag t); [|constructor]. destruct (tx_tx_witnesses t); [exact Fw|constructor]. }
  split.
  { unfold the_tx. cbn [tx_of tx_tx_ins tx_tx_outs tx_tx_witnesses tx_version tx_flag tx_lock_time the_witnesses].
    rewrite S1. unfold ws', the_witnesses. cbn [tx_tx_witnesses]. destruct (tx_flag t); reflexivity. }
  split; [reflexivity|]. rewrite Ei, Ew, Eb. cbn [tx_of tx_bytes tx_tx_id tx_wtx_id]. rewrite B1, B2. auto.
Qed.

Theorem tx_parse name net t rest : get_network name = Ok net -> tx_obj H net t -> parsable name (the_tx t) ->
  (bip144 (the_tx t) \/ rest = []) ->
  exists t', Tx_from_bytes H net (tx_bytes t ++ rest) = Ok t' /\ tx_obj H net t' /\ the_tx t' = the_tx t /\
    tx_tx_witnesses t' = Some (match tx_flag t with Some _ => the_witnesses t | None => [] end) /\ tx_bytes t' = tx_bytes t /\ tx_tx_id t' = tx_tx_id t /\ tx_wtx_id t' = tx_wtx_id t.
Proof.
  intros En O [[R1 [R2 [Pi Pw]]] Po] Hr. pose proof (proj1 (proj1 (tx_obj_iff H net t) O)) as Fi.
  unfold the_tx in R1, R2, Pi. cbn [t_ins t_outs] in R1, R2, Pi.
  unfold count in R1, R2. rewrite map_length in R1, R2. fold (zlen (tx_tx_ins t)) in R1. fold (zlen (tx_tx_outs t)) in R2.
  destruct (parsable_ins name net _ En Fi Pi) as [ins' [F2 [S Fi']]].
  exact (tx_parse_gen name net t rest ins' En O R1 R2 F2 S Fi' Po Pw Hr).
Qed.
End Tx.
