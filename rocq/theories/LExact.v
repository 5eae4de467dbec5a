(* Lemmas for C90: which transactions are read as themselves *)
From Coq Require Import String.
From Verif Require Import Py LBase MNet MUtils MShared MScript MTx SNum SNet SScript STx SStandard SIdem SExact
  LNet LUtils LVarint LScript LBase58 LTx LTxParse LTxWire LIdem LIdemErr LStandardAll.
Open Scope list_scope.
Open Scope Z_scope.
Ltac Zify.zify_post_hook ::= idtac.

(** * script sigs *)

Definition short (e : element) : Prop := match e with Op _ _ => True | Push _ x => len x <= 1000 end.

Lemma short_dec e : {short e} + {~ short e}.
Proof. destruct e as [c n|f x]; cbn [short]; [left; exact I|]. apply Z_le_dec. Qed.

Lemma shown_nonempty es : Forall (fun e => text e <> []) (shown es).
Proof. apply Forall_forall. intros e I. apply filter_In in I. destruct I as [_ I]. destruct (text e); [discriminate|intros; discriminate]. Qed.

(* the words of a script, when they can be written again *)
Lemma serialize_shown name net es : get_network name = Ok net -> Forall (element_ok name) es -> Forall short es ->
  serialize net (join (lit " ") (map text es)) = Ok (concat (map wire (flat_map normal es))).
Proof. intros En F L. rewrite flat_map_concat_map. apply (reserialize name); assumption. Qed.

(* and when they cannot *)
Lemma serialize_long name net es : get_network name = Ok net -> Forall (element_ok name) es -> Forall (fun e => text e <> []) es -> ~ Forall short es ->
  serialize net (join (lit " ") (map text es)) = Err NotImplementedError.
Proof.
  intros En F N L. rewrite (serialize_texts name) by (try exact En; apply texts_all, F).
  rewrite filter_all.
  2:{ apply Forall_map. eapply Forall_impl; [|exact N]. intros e X. unfold nonempty. rewrite leqb_false by exact X. reflexivity. }
  assert (mapM (serialize_token net) (map text es) = Err NotImplementedError) as ->; [|reflexivity].
  induction F as [|e es Fe F IH]; [destruct L; constructor|]. inversion N as [|? ? Ne N']; subst. cbn [map mapM].
  destruct (short_dec e) as [Se|Se].
  - assert (exists x, serialize_token net (text e) = Ok x) as [x ->].
    { destruct e as [c n|f d]; cbn [text] in *.
      - rewrite (op_serial _ _ _ (op_facts_of _ _ _ _ En (proj1 Fe)) (proj2 Fe)). eauto.
      - rewrite (serialize_token_data name) by (try exact En; apply Fe). rewrite serialize_push_small; [eauto|apply Fe|].
        cbn [short] in Se. norm_spec. destruct d; [contradiction|]. rewrite zlen_cons in *. pose proof (zlen_nonneg d). lia. }
    cbn [bind]. rewrite IH; [reflexivity|exact N'|]. intros X. apply L. constructor; assumption.
  - destruct e as [c n|f d]; [destruct Se; exact I|]. cbn [short text] in *. rewrite (serialize_token_data name) by (try exact En; apply Fe).
    norm_spec. rewrite serialize_push_big by lia. reflexivity.
Qed.

Section Split.
  Context (name : str) (net : network) (En : get_network name = Ok net).

  (* all cases of the parser of script sigs *)
  Lemma split_refused s : refused_script name s -> TxIn_parse_script_sig net s = Ok (s, []).
  Proof using En. intros R. apply (kept_split_other name net s En). left. exact R. Qed.

  Lemma split_reading s es : all_bytes s -> reads_as name s es ->
    (exists before f d, shown es = before ++ [Push f d] /\ Forall short (shown es) /\ ~ refused_script name d /\
      TxIn_parse_script_sig net s = Ok (concat (map wire (flat_map normal before)), push (smallest d) d)) \/
    ((~ exists before f d, shown es = before ++ [Push f d] /\ Forall short (shown es) /\ ~ refused_script name d) /\
      TxIn_parse_script_sig net s = Ok (s, [])).
  Proof using En.
    intros B R. destruct (reading_text name net En s es B R) as [D W]. pose proof (shown_ok name s es R) as F. pose proof (shown_nonempty es) as N.
    unfold TxIn_parse_script_sig. rewrite D. cbn [bind]. rewrite W.
    destruct (rev (shown es)) as [|e r] eqn:Rv.
    { apply (f_equal (@rev element)) in Rv. rewrite rev_involutive in Rv. right. rewrite Rv. split; [|reflexivity].
      intros [b [f [d [X _]]]]. destruct b; discriminate X. }
    assert (shown es = rev r ++ [e]) as E by (apply (f_equal (@rev element)) in Rv; rewrite rev_involutive in Rv; exact Rv).
    clear Rv. set (before := rev r) in *. clearbody before. rewrite E in *. rewrite map_app. cbn [map]. rewrite index_last. cbn [bind].
    rewrite slice_to_neg_app by (try reflexivity; lia). apply Forall_app in F. destruct F as [Fb Fe]. inversion Fe as [|? ? Oe _]; subst.
    apply Forall_app in N. destruct N as [Nb Ne]. inversion Ne as [|? ? Te _]; subst.
    destruct e as [c n|f d]; cbn [text] in *; unfold hex_deserialize.
    { rewrite (fromhex_opname name net c n En) by apply Oe. right. split; [|reflexivity].
      intros [b [f [d [X _]]]]. apply app_inj_tail in X. destruct X as [_ X]. discriminate X. }
    destruct Oe as [Bd Ld]. rewrite fromhex_hex by exact Bd. cbn [bind].
    destruct (deserialize net d) as [td|x] eqn:Dd; cbn [bind].
    2:{ assert (refused_script name d) as Rd by (apply (refused_iff name net d En Bd); eauto).
        right. split.
        - intros [b [f' [d' [X [_ X']]]]]. apply app_inj_tail in X. destruct X as [_ X]. injection X as _ <-. contradiction.
        - destruct (deserialize_errors name net d x En Bd Dd) as [-> | [-> | ->]]; reflexivity. }
    assert (~ refused_script name d) as Nd by (intros X; apply (refused_iff name net d En Bd) in X; destruct X as [x X]; rewrite Dd in X; discriminate X).
    assert (serialize net (hex d) = serialize net (join (lit " ") (map text [Push f d]))) as J by reflexivity.
    destruct (Forall_dec short short_dec before) as [Sb|Sb].
    2:{ right. split.
        - intros [b [f' [d' [X [X' _]]]]]. apply Forall_app in X'. apply Sb, X'.
        - rewrite (serialize_long name net before En Fb Nb Sb). reflexivity. }
    rewrite (serialize_shown name net before En Fb Sb). cbn [bind]. rewrite J.
    destruct (short_dec (Push f d)) as [Sd|Sd].
    2:{ right. split.
        - intros [b [f' [d' [X [X' _]]]]]. apply Forall_app in X'. destruct X' as [_ X']. inversion X'; contradiction.
        - rewrite (serialize_long name net [Push f d] En Fe); [reflexivity| |].
          + constructor; [exact Te|constructor].
          + intros X. inversion X; contradiction. }
    rewrite (serialize_shown name net [Push f d] En Fe) by (constructor; [exact Sd|constructor]). cbn [bind].
    left. exists before, f, d. split; [reflexivity|]. split; [apply Forall_app; split; [exact Sb|constructor; [exact Sd|constructor]]|].
    split; [exact Nd|]. cbn [flat_map normal app]. norm_spec. destruct (Z.eqb_spec (zlen d) 0) as [Z|Z].
    { apply zlen_0 in Z. subst d. destruct Te. reflexivity. }
    cbn [map concat wire app]. rewrite app_nil_r. reflexivity.
  Qed.

  Lemma split_exact s a b : all_bytes s -> split_as name s a b -> TxIn_parse_script_sig net s = Ok (a, b).
  Proof using En.
    intros B [es [before [f [d [R [E [S [N [-> ->]]]]]]]]]. destruct (split_reading s es B R) as [[b' [f' [d' [E' [_ [_ P]]]]]]|[X _]].
    - rewrite E in E'. apply app_inj_tail in E'. destruct E' as [<- E']. injection E' as _ <-. exact P.
    - exfalso. apply X. exists before, f, d. auto.
  Qed.

  Lemma split_cases s : all_bytes s -> (exists a b, split_as name s a b) \/ ((~ exists a b, split_as name s a b) /\ TxIn_parse_script_sig net s = Ok (s, [])).
  Proof using En.
    intros B. destruct (reading_total name net En s B) as [R|[es R]].
    - right. split; [|apply split_refused, R]. intros [a [b X]]. pose proof X as [es [before [f [d [R' _]]]]].
      destruct (reading_text name net En s es B R') as [D _]. apply (refused_iff name net s En B) in R. destruct R as [e R]. rewrite D in R. discriminate R.
    - destruct (split_reading s es B R) as [[b' [f' [d' [E' [S [N P]]]]]]|[X P]].
      + left. do 2 eexists. exists es, b', f', d'. split; [exact R|]. split; [exact E'|]. split; [exact S|]. split; [exact N|]. split; reflexivity.
      + right. split; [|exact P]. intros [a [b Y]]. pose proof (split_exact s a b B Y) as P'.
        rewrite P in P'. apply Ok_inj in P'. injection P' as <- <-. destruct Y as [es' [before [f [d [R' [_ [_ [_ [_ Y]]]]]]]]].
        unfold push in Y. destruct (smallest d); discriminate Y.
  Qed.

  Lemma split_total s a b : all_bytes s ->
    (TxIn_parse_script_sig net s = Ok (a, b) <-> split_as name s a b \/ (~ (exists a' b', split_as name s a' b') /\ a = s /\ b = [])).
  Proof using En.
    intros B. split.
    - intros P. destruct (split_cases s B) as [[a' [b' X]]|[X P']].
      + left. pose proof (split_exact s a' b' B X) as P'. rewrite P in P'. apply Ok_inj in P'. injection P' as <- <-. exact X.
      + right. split; [exact X|]. rewrite P in P'. apply Ok_inj in P'. injection P' as <- <-. auto.
    - intros [X|[X [-> ->]]]; [apply split_exact; assumption|]. destruct (split_cases s B) as [Y|[_ P]]; [contradiction|exact P].
  Qed.

  Lemma survives_iff s : all_bytes s -> (survives name s <-> exists a b, TxIn_parse_script_sig net s = Ok (a, b) /\ a ++ b = s).
  Proof using En.
    intros B. split.
    - intros [C|X].
      + destruct (list_eq_dec Z.eq_dec s []) as [->|Ne].
        { exists [], []. split; [|reflexivity]. destruct (split_cases [] B) as [[a [b X]]|[_ P]]; [|exact P]. exfalso.
          destruct X as [es [before [f [d [R [E _]]]]]]. destruct (reading_text name net En [] es B R) as [D W].
          assert (Ok (@nil Z) = Ok (join (lit " ") (map text es))) as D' by (rewrite <- D; reflexivity).
          apply Ok_inj in D'. rewrite <- D' in W. cbn in W. rewrite E, map_app in W. destruct (map text before); discriminate W. }
        destruct (kept_split name net s En (or_introl C) Ne) as [a [b X]]. eauto.
      + exists s, []. split; [|apply app_nil_r]. apply split_total; auto.
    - intros [a [b [P E]]]. apply (split_total s a b B) in P. destruct P as [P|[X _]]; [|right; exact X]. left.
      destruct P as [es [before [f [d [R [Es [Sh [_ [-> ->]]]]]]]]]. pose proof (shown_ok name s es R) as F. rewrite Es in F, Sh.
      destruct (normal_texts name _ F Sh) as [N _]. rewrite <- flat_map_concat_map in N. exists (flat_map normal (before ++ [Push f d])). split; [exact N|].
      pose proof (shown_nonempty es) as Ne. rewrite Es in Ne. apply Forall_app in Ne. destruct Ne as [_ Ne]. inversion Ne as [|? ? Te _]; subst.
      rewrite flat_map_app, map_app, concat_app. f_equal. cbn [flat_map normal app]. norm_spec. destruct (Z.eqb_spec (zlen d) 0) as [Z|Z].
      { apply zlen_0 in Z. subst d. destruct Te. reflexivity. }
      cbn [map concat wire app]. rewrite app_nil_r. reflexivity.
  Qed.
End Split.

(** * parts *)

Lemma VarInt_compact_inv name net n rest v : get_network name = Ok net -> 0 <= n < 2 ^ 64 ->
  VarInt_from_bytes net (compactsize n ++ rest) = Ok v -> readable_size name n /\ vi_number v = n /\ vi_bytes v = compactsize n.
Proof.
  intros En L E. destruct (readable_dec name n) as [R|[U R]].
  - rewrite VarInt_roundtrip in E by (try exact L; apply (readable_spec name net n En R)). apply Ok_inj in E. subst v. auto.
  - destruct (VarInt_roundtrip_refuted_lemma name net n rest En U R) as [_ X]. rewrite X in E. discriminate E.
Qed.

Section Parts.
  Context (name : str) (net : network) (En : get_network name = Ok net).

  Lemma input_wire_fields i r : input_wire i ++ r = op_bytes (op_of i) ++ compactsize (zlen (in_script i)) ++ in_script i ++ in_sequence i ++ r.
  Proof using. unfold input_wire, string_wire, op_of, outpoint_wire. cbn [op_bytes]. rewrite <- !app_assoc. reflexivity. Qed.

  Lemma null_bytes i : input_ok i -> (op_bytes (op_of i) = zrepeat 0 32 ++ zrepeat 255 4 <-> coinbase_input i).
  Proof using.
    intros [L1 [L2 _]]. unfold op_of, coinbase_input. cbn [op_bytes]. split.
    - norm_spec. intros E. change (zrepeat 0 32) with (repeat 0 32) in E. change (zrepeat 255 4) with [255; 255; 255; 255] in E.
      pose proof (f_equal (firstn 32) E) as E1. pose proof (f_equal (skipn 32) E) as E2.
      assert (length (in_txid i) = 32%nat) as L by (unfold zlen in L1; lia).
      rewrite firstn_app, L, firstn_all2 in E1 by lia. rewrite skipn_app, L, skipn_all2 in E2 by lia.
      rewrite Nat.sub_diag in E1, E2. cbn [firstn skipn app repeat] in E1, E2. rewrite app_nil_r in E1. split; [exact E1|exact E2].
    - intros [-> ->]. reflexivity.
  Qed.

  (* the exact reading of an input *)
  Lemma exact_input_parse i : input_ok i -> all_bytes (in_script i) -> exact_in name i ->
    exists x, (forall r, TxIn_from_bytes net (input_wire i ++ r) = Ok x) /\ the_input x = i /\ txin_obj x.
  Proof using En.
    intros O B [R [S C]]. pose proof O as [L1 [L2 [L3 L4]]]. norm_spec.
    assert (exists a b, (if leqb (in_script i) [] then Ok ([], [])
       else if leqb (op_bytes (op_of i)) (zrepeat 0 32 ++ zrepeat 255 4) then Ok (in_script i, [])
            else TxIn_parse_script_sig net (in_script i)) = Ok (a, b) /\ a ++ b = in_script i) as [a [b [E AB]]].
    { destruct (leqb_spec (in_script i) []) as [Z|N]; [exists [], []; split; [reflexivity|symmetry; exact Z]|].
      destruct (leqb_spec (op_bytes (op_of i)) (zrepeat 0 32 ++ zrepeat 255 4)) as [Z|M].
      - exists (in_script i), []. split; [reflexivity|apply app_nil_r].
      - destruct C as [C|C]; [destruct M; apply (null_bytes i O), C|]. apply (survives_iff name net En _ B), C. }
    exists (txin_of (op_of i) a b (in_sequence i)). split; [|split].
    - intros r. rewrite input_wire_fields, TxIn_parse_fields; [|apply op_of_obj, O|exact L3|exact L4|apply (readable_spec name net _ En R)].
      match goal with |- bind ?x _ = _ => replace x with (@Ok (bytes * bytes) (a, b)) by (symmetry; exact E) end. cbn [bind]. rewrite TxIn_spec, AB, L3. cbn [op_of op_bytes]. rewrite zlen_app, L1, L2.
      destruct (Z.leb_spec (zlen (in_script i)) 1650); [reflexivity|lia].
    - unfold the_input, txin_of. cbn [ti_outpoint ti_script_sig ti_sequence op_of op_tx_id op_index]. rewrite AB. destruct i; reflexivity.
    - apply txin_obj_iff. cbn [txin_of ti_outpoint ti_sequence ti_script_sig ti_stack_script ti_redeem_script]. rewrite AB.
      split; [apply op_of_obj, O|]. auto.
  Qed.

  Lemma exact_input_inv i r x : input_ok i -> all_bytes (in_script i) -> TxIn_from_bytes net (input_wire i ++ r) = Ok x -> the_input x = i -> exact_in name i.
  Proof using En.
    intros O B E X. pose proof O as [L1 [L2 [L3 L4]]]. norm_spec.
    destruct (readable_dec name (zlen (in_script i))) as [R|[U R]].
    2:{ exfalso. destruct (input_object i O) as [y [Oy Ey]]; [unfold in_size; norm_spec; lia|].
        pose proof (TxIn_unreadable name net y r En Oy U) as Z. rewrite <- Ey in E, R. destruct (txin_wire y Oy) as [W _]. rewrite <- W in E.
        rewrite Z in E by exact R. discriminate E. }
    rewrite input_wire_fields, TxIn_parse_fields in E; [|apply op_of_obj, O|exact L3|exact L4|apply (readable_spec name net _ En R)].
    apply bind_Ok in E. destruct E as [[a b] [E1 E]]. cbn iota beta in E. rewrite TxIn_spec in E.
    destruct ((_ =? 36) && _ && _) eqn:G; [|discriminate E]. apply Ok_inj in E. subst x.
    rewrite !andb_true_iff in G. destruct G as [_ G]. apply Z.leb_le in G.
    assert (a ++ b = in_script i) as AB by (rewrite <- X; reflexivity). rewrite AB in G.
    split; [exact R|]. split; [exact G|].
    destruct (leqb_spec (in_script i) []) as [Z|N].
    { right. left. exists []. split; [constructor|]. rewrite Z. reflexivity. }
    destruct (leqb_spec (op_bytes (op_of i)) (zrepeat 0 32 ++ zrepeat 255 4)) as [Z|M].
    - left. apply (null_bytes i O), Z.
    - right. apply (survives_iff name net En _ B). exists a, b. auto.
  Qed.

  Lemma split_nil a b : ~ split_as name [] a b.
  Proof using En.
    intros [es [before [f [d [R [E _]]]]]]. assert (all_bytes []) as B by constructor.
    destruct (reading_text name net En [] es B R) as [D W].
    assert (Ok (@nil Z) = Ok (join (lit " ") (map text es))) as D' by (rewrite <- D; reflexivity).
    apply Ok_inj in D'. rewrite <- D' in W. cbn in W. rewrite E, map_app in W. destruct (map text before); discriminate W.
  Qed.

  (* an input is read exactly like this *)
  Lemma parts_parse i a b : input_ok i -> all_bytes (in_script i) ->
    ((if leqb (in_script i) [] then Ok ([], [])
       else if leqb (op_bytes (op_of i)) (zrepeat 0 32 ++ zrepeat 255 4) then Ok (in_script i, [])
            else TxIn_parse_script_sig net (in_script i)) = Ok (a, b) <-> parts_of name i a b).
  Proof using En.
    intros O B. unfold parts_of. destruct (leqb_spec (in_script i) []) as [Z|N].
    - rewrite Z. split.
      + intros E. apply Ok_inj in E. injection E as <- <-. right. split; [|auto]. right. intros [a [b X]]. exact (split_nil a b X).
      + intros [[_ X]|[_ [-> ->]]]; [destruct (split_nil a b X)|reflexivity].
    - destruct (leqb_spec (op_bytes (op_of i)) (zrepeat 0 32 ++ zrepeat 255 4)) as [Z|M].
      + apply (null_bytes i O) in Z. split.
        * intros E. apply Ok_inj in E. injection E as <- <-. auto.
        * intros [[X _]|[_ [-> ->]]]; [contradiction|reflexivity].
      + assert (~ coinbase_input i) as C by (intros X; apply M, (null_bytes i O), X).
        rewrite (split_total name net En _ a b B). tauto.
  Qed.

  Lemma input_read i r x : input_ok i -> all_bytes (in_script i) ->
    (TxIn_from_bytes net (input_wire i ++ r) = Ok x <->
     readable_size name (len (in_script i)) /\ txin_obj x /\ op_tx_id (ti_outpoint x) = in_txid i /\ op_index (ti_outpoint x) = in_index i /\
     ti_sequence x = in_sequence i /\ parts_of name i (ti_stack_script x) (ti_redeem_script x)).
  Proof using En.
    intros O B. pose proof O as [L1 [L2 [L3 L4]]]. norm_spec.
    destruct (readable_dec name (zlen (in_script i))) as [R|[U R]].
    2:{ split.
        - intros E. exfalso. destruct (input_object i O) as [y [Oy Ey]]; [unfold in_size; norm_spec; lia|].
          pose proof (TxIn_unreadable name net y r En Oy U) as Z. rewrite <- Ey in E, R. destruct (txin_wire y Oy) as [W _]. rewrite <- W in E.
          rewrite Z in E by exact R. discriminate E.
        - intros [[X|X] _]; contradiction. }
    rewrite input_wire_fields, TxIn_parse_fields; [|apply op_of_obj, O|exact L3|exact L4|apply (readable_spec name net _ En R)].
    split.
    - intros E. apply bind_Ok in E. destruct E as [[a b] [E1 E]]. cbn iota beta in E. apply (parts_parse i a b O B) in E1. rewrite TxIn_spec in E.
      destruct ((_ =? 36) && _ && _) eqn:G; [|discriminate E]. apply Ok_inj in E. subst x.
      rewrite !andb_true_iff in G. destruct G as [_ G]. apply Z.leb_le in G.
      cbn [txin_of ti_outpoint ti_stack_script ti_redeem_script ti_sequence op_of op_tx_id op_index].
      split; [exact R|]. split; [|auto]. apply txin_obj_iff. cbn [txin_of ti_outpoint ti_sequence ti_script_sig ti_stack_script ti_redeem_script].
      split; [apply op_of_obj, O|]. auto.
    - intros [_ [Ox [X1 [X2 [X3 P]]]]]. apply (parts_parse i _ _ O B) in P.
      match goal with |- bind ?y _ = _ => replace y with (@Ok (bytes * bytes) (ti_stack_script x, ti_redeem_script x)) by (symmetry; exact P) end.
      cbn [bind]. destruct Ox as [Oo Ox]. apply outpoint_obj_iff in Oo as Oo'. destruct Oo' as [_ [_ Oo']].
      assert (op_of i = ti_outpoint x) as ->.
      { unfold op_of. rewrite <- X1, <- X2, <- Oo'. destruct (ti_outpoint x); reflexivity. }
      rewrite <- X3. exact Ox.
  Qed.

  Lemma exact_output_inv o r x : output_ok o -> TxOut_from_bytes net (output_wire o ++ r) = Ok x -> len (out_script o) < 252.
  Proof using.
    intros O E. destruct (Z_lt_dec (len (out_script o)) 252) as [L|L]; [exact L|].
    rewrite TxOut_parse_big in E by (try exact O; lia). destruct (_ && _ && _) in E; discriminate E.
  Qed.

  Lemma read_many_inv {A X} (fb : bytes -> res A) size (w : X -> bytes) (val : A -> X) (Q : X -> Prop) xs :
    (forall x r y, In x xs -> fb (w x ++ r) = Ok y -> val y = x -> Q x /\ size y = zlen (w x)) ->
    forall fuel pre rest n k ys c, n = zlen xs -> k = zlen pre -> read_many fb size fuel (pre ++ concat (map w xs) ++ rest) n k = Ok (ys, c) ->
    map val ys = xs -> Forall Q xs /\ c = zlen (pre ++ concat (map w xs)).
  Proof using.
    induction xs as [|x xs IH]; intros G fuel pre rest n k ys c Hn Hk E M.
    - rewrite read_many_done in E by (subst n; cbn; lia). apply Ok_inj in E. injection E as <- <-. split; [constructor|]. cbn [map concat]. rewrite app_nil_r. exact Hk.
    - rewrite zlen_cons in Hn. pose proof (zlen_nonneg xs). destruct fuel as [|fuel]; [cbn [read_many] in E; destruct (Z.leb_spec n 0); [lia|discriminate E]|].
      rewrite read_many_step in E by lia. cbn [map concat] in E. rewrite <- app_assoc, slice_from_app in E by (symmetry; exact Hk).
      apply bind_Ok in E. destruct E as [y [E1 E]]. apply bind_Ok in E. destruct E as [[ys' c'] [E2 E]]. apply Ok_inj in E. injection E as <- <-.
      cbn [map] in M. injection M as M1 M2. destruct (G x _ y (or_introl eq_refl) E1 M1) as [Qx Sx].
      rewrite (app_assoc pre) in E2. destruct (IH (fun x r y I => G x r y (or_intror I)) fuel (pre ++ w x) rest (n - 1) (k + size y) ys' c') as [F C].
      + lia.
      + rewrite zlen_app. lia.
      + rewrite <- E2. reflexivity.
      + exact M2.
      + split; [constructor; assumption|]. rewrite C. cbn [map concat]. rewrite <- app_assoc. reflexivity.
  Qed.
End Parts.

(** * transactions *)

Lemma same_fields i x : txin_obj i -> txin_obj x -> the_input x = the_input i -> same_input i x.
Proof.
  intros O O' E. destruct (txin_wire i O) as [W _]. destruct (txin_wire x O') as [W' _].
  destruct O as [Oi _]. destruct O' as [Ox _]. apply outpoint_obj_iff in Oi, Ox. destruct Oi as [_ [_ Oi]]. destruct Ox as [_ [_ Ox]].
  pose proof E as E'. unfold the_input in E'. injection E' as E1 E2 E3 E4. unfold same_input. rewrite W, W', E. repeat split; try assumption.
  destruct (ti_outpoint i) as [a b c], (ti_outpoint x) as [a' b' c']. cbn [op_tx_id op_index op_bytes] in *. subst. reflexivity.
Qed.

Section ExactTx.
  Context (H : hashes) (name : str) (net : network) (En : get_network name = Ok net).

  Lemma exact_inputs ins : Forall txin_obj ins -> Forall (exact_in name) (map the_input ins) -> Forall (fun i => all_bytes (ti_script_sig i)) ins ->
    exists ins', Forall2 (fun i i' => (forall r, TxIn_from_bytes net (ti_bytes i ++ r) = Ok i') /\ zlen (ti_bytes i') = zlen (ti_bytes i)) ins ins' /\
      Forall2 same_input ins ins' /\ Forall txin_obj ins'.
  Proof using En.
    intros F. induction F as [|i ins O F IH]; intros X B; [exists []; auto|]. cbn [map] in X. inversion X as [|? ? Xi X']; subst. inversion B as [|? ? Bi B']; subst.
    destruct (IH X' B') as [ins' [I1 [I2 I3]]]. destruct (txin_wire i O) as [W Ok'].
    destruct (exact_input_parse name net En (the_input i) Ok' Bi Xi) as [x [P [E Ox]]].
    pose proof (same_fields i x O Ox E) as S. exists (x :: ins'). repeat split; constructor; auto.
    split; [intros r; rewrite W; apply P|]. destruct S as [_ [_ [_ ->]]]. reflexivity.
  Qed.

  Lemma exact_forward T rest : transaction_ok T -> bip144 T -> Forall (fun i => all_bytes (in_script i)) (t_ins T) -> exact_tx name T ->
    exists t, Tx_from_bytes H net (wire_tx T ++ rest) = Ok t /\ the_tx t = T /\ tx_obj H net t /\ tx_bytes t = wire_tx T.
  Proof using En.
    intros O B Bs [R1 [R2 [Xi [Xo Xw]]]].
    destruct (tx_object H name net T En O B) as [t0 [T0 E0]].
    { eapply Forall_impl; [|exact Xi]. intros i [_ [L _]]. exact L. }
    destruct (tx_wire H name net t0 En T0) as [W _]. rewrite E0 in W.
    pose proof (proj1 (proj1 (tx_obj_iff H net t0) T0)) as Fi.
    assert (t_ins T = map the_input (tx_tx_ins t0)) as Ei by (rewrite <- E0; reflexivity).
    assert (t_outs T = map the_output (tx_tx_outs t0)) as Eo by (rewrite <- E0; reflexivity).
    destruct (exact_inputs (tx_tx_ins t0) Fi) as [ins' [F2 [S Fi']]]; [rewrite <- Ei; exact Xi|rewrite Ei, Forall_map in Bs; exact Bs|].
    destruct (tx_parse_gen H name net t0 rest ins' En T0) as [t' [P1 [P2 [P3 [P4 [P5 P6]]]]]]; try assumption.
    - rewrite Ei in R1. unfold count in R1. rewrite map_length in R1. exact R1.
    - rewrite Eo in R2. unfold count in R2. rewrite map_length in R2. exact R2.
    - rewrite E0. exact Xo.
    - rewrite E0. exact Xw.
    - left. rewrite E0. exact B.
    - rewrite W in P1. exists t'. split; [exact P1|]. split; [rewrite P3; exact E0|]. split; [exact P2|]. rewrite P5. exact W.
  Qed.

  Lemma exact_item_inv (s : bytes) r w : len s < 2 ^ 64 -> WitnessStackItem_from_bytes net (string_wire s ++ r) = Ok w -> readable_size name (len s) /\ zlen (wi_bytes w) = zlen (string_wire s).
  Proof using En.
    intros L E. unfold string_wire in *. norm_spec. pose proof (zlen_nonneg s). rewrite <- app_assoc in E.
    unfold WitnessStackItem_from_bytes in E. apply bind_Ok in E. destruct E as [v [E1 E]].
    destruct (VarInt_compact_inv name net (zlen s) (s ++ r) v En ltac:(lia) E1) as [R [V1 V2]]. split; [exact R|].
    cbv zeta in E. rewrite V1, V2, slice_app in E by lia. rewrite WitnessStackItem_spec in E. destruct (_ <? _) in E; [|discriminate E].
    apply Ok_inj in E. subst w. reflexivity.
  Qed.

  Lemma exact_stack_inv st r w : stack_ok st -> InputWitness_from_bytes net (stack_wire st ++ r) = Ok w -> the_stack w = st ->
    parsable_stack name st /\ zlen (wit_bytes w) = zlen (stack_wire st).
  Proof using En.
    intros O E0 X. pose proof O as [L F]. pose proof E0 as E. unfold InputWitness_from_bytes in E. apply bind_Ok in E. destruct E as [v [E1 E]].
    pose proof (zlen_nonneg st) as N. norm_count. unfold stack_wire, vector_wire in E1, E. rewrite <- app_assoc in E1, E. norm_count.
    destruct (VarInt_compact_inv name net (zlen st) (concat (map string_wire st) ++ r) v En ltac:(lia) E1) as [R [V1 V2]].
    cbv zeta in E. rewrite V1, V2 in E. apply bind_Ok in E. destruct E as [[items c] [E2 E]]. cbn iota beta in E.
    rewrite InputWitness_spec in E. destruct (_ <? _) eqn:G in E; [|discriminate E]. apply Ok_inj in E. subst w. unfold the_stack in X. cbn [wit_stack] in X.
    destruct (read_many_inv (WitnessStackItem_from_bytes net) (fun i => zlen (wi_bytes i)) string_wire wi_item (fun s => readable_size name (len s)) st) with
      (2 := eq_refl (zlen st)) (3 := eq_refl (zlen (compactsize (zlen st)))) (4 := E2) (5 := X) as [Q _].
    - intros x r' y I P _. rewrite Forall_forall in F. apply (exact_item_inv x r' y (F x I) P).
    - assert (parsable_stack name st) as P by (split; [exact R|exact Q]). split; [exact P|].
      destruct (stack_object st O) as [w' [O' X']]. destruct (witness_wire w' O') as [W _]. rewrite X' in W.
      assert (readable_witness net w') as Rw.
      { destruct P as [P1 P2]. rewrite <- X' in P1, P2. unfold the_stack in P1, P2. rewrite Forall_map in P2. unfold count in P1. rewrite map_length in P1.
        split; [apply (readable_spec name net _ En P1)|]. eapply Forall_impl; [|exact P2]. intros i. apply (readable_spec name net _ En). }
      rewrite <- W in E0. rewrite InputWitness_parse in E0 by assumption. apply Ok_inj in E0. rewrite <- W, E0. reflexivity.
  Qed.

  Lemma exact_out_size o r x : output_ok o -> TxOut_from_bytes net (output_wire o ++ r) = Ok x -> len (out_script o) < 252 /\ zlen (to_bytes_ x) = zlen (output_wire o).
  Proof using.
    intros O E. pose proof (exact_output_inv net o r x O E) as L. split; [exact L|]. destruct (output_object o O) as [y [Oy Ey]].
    destruct (txout_wire y Oy) as [W _]. rewrite Ey in W. rewrite <- W in E. rewrite TxOut_parse in E; [|exact Oy|rewrite <- Ey in L; exact L].
    apply Ok_inj in E. subst y. rewrite <- W. reflexivity.
  Qed.

  Lemma exact_in_size i r x : input_ok i -> all_bytes (in_script i) -> TxIn_from_bytes net (input_wire i ++ r) = Ok x -> the_input x = i ->
    exact_in name i /\ zlen (ti_bytes x) = zlen (input_wire i).
  Proof using En.
    intros O B E X. pose proof (exact_input_inv name net En i r x O B E X) as P. split; [exact P|].
    destruct (exact_input_parse name net En i O B P) as [y [Py [Ey Oy]]]. rewrite Py in E. apply Ok_inj in E. subst y.
    destruct (txin_wire x Oy) as [W _]. rewrite W, X. reflexivity.
  Qed.

  Lemma exact_backward T rest t : transaction_ok T -> bip144 T -> Forall (fun i => all_bytes (in_script i)) (t_ins T) ->
    Tx_from_bytes H net (wire_tx T ++ rest) = Ok t -> the_tx t = T -> exact_tx name T.
  Proof using En.
    intros [A1 [A2 [A3 [A4 [A5 [A6 A7]]]]]] A8 Bs E X. norm_count. norm_spec.
    assert (0 <= zlen (t_ins T) < 2 ^ 64) as LI by lia. assert (0 <= zlen (t_outs T) < 2 ^ 64) as LO by lia.
    set (k := match t_witness T with Some _ => 6 | None => 4 end).
    set (pre := t_version T ++ match t_witness T with Some _ => marker_and_flag | None => [] end).
    set (tail := (match t_witness T with Some ws => concat (map stack_wire ws) | None => [] end) ++ t_lock T ++ rest).
    assert (wire_tx T ++ rest = pre ++ vector_wire input_wire (t_ins T) ++ vector_wire output_wire (t_outs T) ++ tail) as Eb.
    { unfold wire_tx, pre, tail. rewrite <- !app_assoc. reflexivity. }
    assert (zlen pre = k) as K by (unfold pre, k; rewrite zlen_app, A1; destruct (t_witness T); reflexivity).
    unfold Tx_from_bytes in E. rewrite (segwit_flag name) in E by exact En.
    assert (leqb (slice (wire_tx T ++ rest) 4 6) marker_and_flag = match t_witness T with Some _ => true | None => false end) as Ef.
    { rewrite Eb. unfold pre. destruct (t_witness T); rewrite <- !app_assoc; cbn [app].
      - apply (flagged_head (t_version T)), A1.
      - unfold vector_wire at 1. rewrite <- app_assoc. apply (legacy_head (t_version T)); [exact A1|norm_count; lia]. }
    rewrite Ef in E. clear Ef.
    set (flag := match t_witness T with Some _ => Some marker_and_flag | None => None end).
    assert ((if match t_witness T with Some _ => true | None => false end then (6, Some marker_and_flag) else (4, None)) = (k, flag)) as Ek by (unfold k, flag; destruct (t_witness T); reflexivity).
    rewrite Ek in E. clear Ek.
    set (bs := wire_tx T ++ rest) in *.
    (* inputs *)
    apply bind_Ok in E. destruct E as [v1 [V1 E]]. cbv zeta in E.
    assert (slice_from bs k = compactsize (zlen (t_ins T)) ++ concat (map input_wire (t_ins T)) ++ vector_wire output_wire (t_outs T) ++ tail) as Sb.
    { rewrite Eb, slice_from_app by exact K. unfold vector_wire at 1. norm_count. rewrite <- !app_assoc. reflexivity. }
    rewrite Sb in V1. destruct (VarInt_compact_inv name net _ _ v1 En LI V1) as [R1 [N1 B1]]. rewrite N1, B1 in E. clear Sb V1 N1 B1.
    apply bind_Ok in E. destruct E as [[ins c1] [E1 E]]. cbn iota beta in E.
    apply bind_Ok in E. destruct E as [v2 [V2 E]].
    apply bind_Ok in E. destruct E as [[outs c2] [E2 E]]. cbn iota beta in E.
    apply bind_Ok in E. destruct E as [[wits c3] [E3 E]]. cbn iota beta in E.
    apply Tx_Ok in E. destruct E as [_ Et].
    assert (map the_input ins = t_ins T) as Xi by (rewrite <- X, Et; reflexivity).
    assert (map the_output outs = t_outs T) as Xo by (rewrite <- X, Et; reflexivity).
    assert (bs = (pre ++ compactsize (zlen (t_ins T))) ++ concat (map input_wire (t_ins T)) ++ vector_wire output_wire (t_outs T) ++ tail) as Eb1.
    { rewrite Eb. unfold vector_wire at 1. norm_count. rewrite <- !app_assoc. reflexivity. }
    rewrite Eb1 in E1 at 2.
    destruct (read_many_inv (TxIn_from_bytes net) (fun i => zlen (ti_bytes i)) input_wire the_input (exact_in name) (t_ins T)) with
      (2 := eq_refl (zlen (t_ins T))) (4 := E1) (5 := Xi) as [Qi C1].
    { intros x r y I P Y. rewrite Forall_forall in A5, Bs. apply (exact_in_size x r y (A5 x I) (Bs x I) P Y). }
    { rewrite zlen_app, K. reflexivity. }
    (* outputs *)
    assert (slice_from bs c1 = compactsize (zlen (t_outs T)) ++ concat (map output_wire (t_outs T)) ++ tail) as Sb.
    { rewrite Eb1, (app_assoc (pre ++ _)), slice_from_app by (symmetry; exact C1). unfold vector_wire. norm_count. rewrite <- !app_assoc. reflexivity. }
    rewrite Sb in V2. destruct (VarInt_compact_inv name net _ _ v2 En LO V2) as [R2 [N2 B2]]. rewrite N2, B2 in E2. clear Sb V2 N2 B2.
    set (pre2 := (pre ++ compactsize (zlen (t_ins T))) ++ concat (map input_wire (t_ins T))) in *.
    assert (bs = (pre2 ++ compactsize (zlen (t_outs T))) ++ concat (map output_wire (t_outs T)) ++ tail) as Eb2.
    { rewrite Eb1, (app_assoc (pre ++ _)). fold pre2. unfold vector_wire at 1. norm_count. rewrite <- !app_assoc. reflexivity. }
    rewrite Eb2 in E2 at 2.
    destruct (read_many_inv (TxOut_from_bytes net) (fun i => zlen (to_bytes_ i)) output_wire the_output (fun o => len (out_script o) < 252) (t_outs T)) with
      (2 := eq_refl (zlen (t_outs T))) (4 := E2) (5 := Xo) as [Qo C2].
    { intros x r y I P Y. rewrite Forall_forall in A6. apply (exact_out_size x r y (A6 x I) P). }
    { rewrite zlen_app, C1. reflexivity. }
    split; [exact R1|]. split; [exact R2|]. split; [exact Qi|]. split; [exact Qo|].
    (* witnesses *)
    assert (match flag with Some _ => Some (map the_stack wits) | None => None end = t_witness T) as Xw by (rewrite <- X, Et; reflexivity).
    set (pre3 := (pre2 ++ compactsize (zlen (t_outs T))) ++ concat (map output_wire (t_outs T))) in *.
    assert (bs = pre3 ++ tail) as Eb3 by (rewrite Eb2; unfold pre3; rewrite <- !app_assoc; reflexivity).
    unfold flag, tail in *. unfold bip144 in A8. destruct (t_witness T) as [ws|]; [|exact I]. injection Xw as Xw. norm_count.
    assert (slice_from bs c2 = concat (map stack_wire ws) ++ t_lock T ++ rest) as Sb by (rewrite Eb3; apply slice_from_app; symmetry; exact C2).
    rewrite Sb in E3.
    assert (1 <= zlen (concat (map stack_wire ws))) as Lw.
    { destruct ws as [|st ws]; [change (zlen []) with 0 in A8; lia|]. cbn [map concat]. rewrite zlen_app. unfold stack_wire at 1, vector_wire. rewrite zlen_app.
      pose proof (zlen_compactsize_pos (count st)). pose proof (zlen_nonneg (concat (map string_wire st))). pose proof (zlen_nonneg (concat (map stack_wire ws))). lia. }
    rewrite !zlen_app, A2 in E3. pose proof (zlen_nonneg rest).
    change (negb (leqb marker_and_flag [])) with true in E3. cbn [andb] in E3.
    destruct (Z.ltb_spec 4 (zlen (concat (map stack_wire ws)) + (4 + zlen rest))); [|lia].
    rewrite <- A8 in E3. rewrite Eb3 in E3 at 2.
    destruct (read_many_inv (InputWitness_from_bytes net) (fun i => zlen (wit_bytes i)) stack_wire the_stack (parsable_stack name) ws) with
      (2 := eq_refl (zlen ws)) (4 := E3) (5 := Xw) as [Qw _]; [|exact C2|exact Qw].
    intros x r y I P Y. rewrite Forall_forall in A7. apply (exact_stack_inv x r y (A7 x I) P Y).
  Qed.
End ExactTx.
