(* networks/standard.py on every output script *)
From Coq Require Import String Lia.
From Verif Require Import Py MNet MUtils MShared MScript MTx MAddr MStandard SNum SHash SNet SScript SAddr STx SStandard
  SParams LBase LNet LUtils LScript LTx LAddr LParams LTxParse LTxWire LZcashTx LStandard LMultisig.
Open Scope list_scope.
Open Scope Z_scope.

Section Reading.
  Context (name : str) (net : network) (En : get_network name = Ok net).

  Lemma overrun_fits f r d : is_bytes r -> overrun f r d -> f <> Direct -> element_ok name (Push f d).
  Proof using.
    intros B O N. cbn [element_ok]. unfold push_fits. pose proof B as B'. unfold all_bytes. inversion O; subst; try contradiction.
    - split; [constructor|cbn; lia].
    - inversion B as [|? ? _ B1]; inversion B1 as [|? ? _ B2]; subst. split; [exact B2|lia].
    - split; [constructor|cbn; lia].
    - inversion B as [|? ? _ B1]; subst. split; [|lia]. inversion B1 as [|? ? _ B2]; inversion B2 as [|? ? _ B3]; subst. exact B3.
  Qed.

  Lemma reading_total s : all_bytes s -> refused_script name s \/ exists es, reads_as name s es.
  Proof using En.
    intros B. destruct (decompose name net s En B) as [es [r [out [E [F X]]]]].
    assert (is_bytes r) as Br by (unfold all_bytes in B; rewrite E in B; apply is_bytes_app in B; apply B).
    inversion X; subst.
    - right. exists es. split; [exact F|]. left. apply app_nil_r.
    - left. exists es, r. split; [exact F|]. split; [exact Br|]. split; [econstructor; eassumption|reflexivity].
    - left. exists es, [76]. split; [exact F|]. split; [exact Br|]. split; [constructor|reflexivity].
    - right. exists (es ++ [Push Pushdata1 d]). split.
      + apply Forall_app. split; [exact F|]. constructor; [|constructor]. apply (overrun_fits _ r d); auto. discriminate.
      + right. exists es, Pushdata1, d, r. repeat split; auto. discriminate.
    - right. exists (es ++ [Push Pushdata2 d]). split.
      + apply Forall_app. split; [exact F|]. constructor; [|constructor]. apply (overrun_fits _ r d); auto. discriminate.
      + right. exists es, Pushdata2, d, r. repeat split; auto; [discriminate|]. intros ->. inversion H.
    - left. exists es, (c :: t). split; [exact F|]. split; [exact Br|]. split; [apply stuck_refused; assumption|reflexivity].
    - left. exists es, (c :: t). split; [exact F|]. split; [exact Br|]. split; [apply stuck_unknown; assumption|reflexivity].
  Qed.

  Lemma nonempty_shown es : filter nonempty (map text es) = map text (shown es).
  Proof using.
    unfold shown. induction es as [|e es IH]; [reflexivity|]. cbn [map filter]. unfold nonempty at 1. destruct (text e) eqn:T; [exact IH|]. cbn [map]. rewrite T, IH. reflexivity.
  Qed.
  Lemma reading_text s es : all_bytes s -> reads_as name s es ->
    deserialize net s = Ok (join (lit " ") (map text es)) /\ split_ws (join (lit " ") (map text es)) = map text (shown es).
  Proof using En.
    intros B [F X]. split.
    - destruct X as [->|[b [f [d [r [-> [-> [O [N R]]]]]]]]]; [apply (deserialize_wires name net es En F)|].
      apply Forall_app in F. destruct F as [F _].
      assert (is_bytes r) as Br by (unfold all_bytes in B; apply is_bytes_app in B; apply B).
      rewrite (c19 name net b r f d En F Br O). rewrite map_app. cbn [map text]. rewrite (leqb_false r [76] R). destruct f; [contradiction|reflexivity|reflexivity].
    - rewrite split_ws_join; [apply nonempty_shown|]. apply Forall_map. eapply Forall_impl; [|exact F]. intros e X'. destruct e as [c n|f d]; cbn [text].
      + pose proof (op_facts_of _ _ _ _ En (proj1 X')) as [F1 F2 F3 F4 F5 F6]. assumption.
      + apply hex_no_space, X'.
  Qed.
  Lemma shown_ok s es : reads_as name s es -> Forall (element_ok name) (shown es).
  Proof using. intros [F _]. unfold shown. rewrite Forall_forall in *. intros e I. apply filter_In in I. apply F, I. Qed.

  (* words and elements *)
  Lemma names_only : forallb (fun o => op_only name (fst o) (snd o)) [(106, lit "OP_RETURN"); (172, lit "OP_CHECKSIG"); (81, lit "OP_1"); (82, lit "OP_2"); (83, lit "OP_3"); (174, CMS)] = true.
  Proof using All. unfold op_only, opcodes_b. destruct (str_mem name decred_names); vm_compute; reflexivity. Qed.
  Lemma text_is c n e : In (c, n) [(106, lit "OP_RETURN"); (172, lit "OP_CHECKSIG"); (81, lit "OP_1"); (82, lit "OP_2"); (83, lit "OP_3"); (174, CMS)] ->
    element_ok name e -> leqb (text e) n = true -> e = Op c n.
  Proof using All.
    intros I O T. apply leqb_eq in T. apply (op_text name net En); [|exact O|exact T]. pose proof names_only as N. rewrite forallb_forall in N. apply (N (c, n) I).
  Qed.
  Lemma text_is_eqb c n e : In (c, n) [(106, lit "OP_RETURN"); (172, lit "OP_CHECKSIG"); (81, lit "OP_1"); (82, lit "OP_2"); (83, lit "OP_3"); (174, CMS)] ->
    element_ok name e -> e <> Op c n -> leqb (text e) n = false.
  Proof using All. intros I O N. destruct (leqb (text e) n) eqn:T; [|reflexivity]. destruct N. apply (text_is c n e I O T). Qed.
  Lemma small_int_text n : 1 <= n <= 3 -> small_int n = Op (80 + n) (lit "OP_" ++ [48 + n]).
  Proof using. intros R. assert (n = 1 \/ n = 2 \/ n = 3) as [->|[->| ->]] by lia; reflexivity. Qed.
  Lemma counts_none e : element_ok name e -> (forall n, 1 <= n <= 3 -> e <> small_int n) ->
    leqb (text e) (lit "OP_1") || leqb (text e) (lit "OP_2") || leqb (text e) (lit "OP_3") = false.
  Proof using All.
    intros O N. rewrite (text_is_eqb 81 (lit "OP_1")), (text_is_eqb 82 (lit "OP_2")), (text_is_eqb 83 (lit "OP_3")); try assumption; try reflexivity;
      try (cbn [In]; tauto); [apply (N 3)|apply (N 2)|apply (N 1)]; lia.
  Qed.
  Lemma counts_one n : 1 <= n <= 3 -> leqb (lit "OP_" ++ [48 + n]) (lit "OP_1") || leqb (lit "OP_" ++ [48 + n]) (lit "OP_2") || leqb (lit "OP_" ++ [48 + n]) (lit "OP_3") = true.
  Proof using. intros R. assert (n = 1 \/ n = 2 \/ n = 3) as [->|[->| ->]] by lia; reflexivity. Qed.
  Lemma digit_dec w : w <> [] -> {d | ends_in_digit w d} + {forall d, ~ ends_in_digit w d}.
  Proof using.
    intros N. destruct (@exists_last _ w N) as [v [c ->]]. destruct (Z_le_dec 48 c) as [A|A]; [destruct (Z_le_dec c 57) as [B|B]|].
    - left. exists (c - 48). split; [lia|]. exists v. f_equal. f_equal. lia.
    - right. intros d [R [v' E]]. apply app_inj_tail in E. lia.
    - right. intros d [R [v' E]]. apply app_inj_tail in E. lia.
  Qed.
  Lemma no_digit w c : index w (-1) = Ok c -> (forall d, ~ ends_in_digit w d) -> int_char c = Err ValueError.
  Proof using.
    intros I N. apply last_char in I. destruct I as [v ->]. unfold int_char. destruct (Z.leb_spec 48 c), (Z.leb_spec c 57); try reflexivity.
    destruct (N (c - 48)). split; [lia|]. exists v. f_equal. f_equal. lia.
  Qed.

  Lemma element_eq_dec (a b : element) : {a = b} + {a <> b}.
  Proof using. repeat (decide equality; try apply Z.eq_dec). Qed.
  Lemma key_dec e : {pushes_key e} + {~ pushes_key e}.
  Proof using.
    destruct e as [c n|f d]; [right; intros [f [k [X _]]]; discriminate|]. destruct (Z.eq_dec (len d) 33) as [A|A]; [left; exists f, d; split; [reflexivity|left; exact A]|].
    destruct (Z.eq_dec (len d) 65) as [B|B]; [left; exists f, d; split; [reflexivity|right; exact B]|]. right. intros [f' [k [X [L|L]]]]; injection X as <- <-; contradiction.
  Qed.
  Lemma keys_split l : Forall pushes_key l \/ exists good bad more, l = good ++ bad :: more /\ Forall pushes_key good /\ ~ pushes_key bad.
  Proof using.
    induction l as [|e l IH]; [left; constructor|]. destruct (key_dec e) as [K|K]; [|right; exists [], e, l; auto].
    destruct IH as [F|[g [b [m [-> [F N]]]]]]; [left; constructor; assumption|right; exists (e :: g), b, m]. split; [reflexivity|]. split; [constructor; assumption|exact N].
  Qed.
  Lemma key_hex e : element_ok name e -> is_pubkey_hex (text e) = if key_dec e then Ok true else match e with Op _ _ => Err ValueError | Push _ _ => Ok false end.
  Proof using All.
    intros O. pose proof (pubkey_element name net En e O) as P. fold (pushes_key e) in P. destruct (key_dec e) as [K|K]; [apply P, K|].
    destruct e as [c n|f d]; cbn [text] in *; unfold is_pubkey_hex in *.
    - rewrite (fromhex_opname name net c n En) by apply O. reflexivity.
    - rewrite fromhex_hex in * by apply O. cbn [bind] in *. destruct (zmem _ _); [|reflexivity]. destruct K. apply P. reflexivity.
  Qed.
  Lemma keys_hex good bad more : Forall (element_ok name) (good ++ bad :: more) -> Forall pushes_key good -> ~ pushes_key bad ->
    all_pubkeys (map text (good ++ bad :: more)) = match bad with Op _ _ => Err ValueError | Push _ _ => Ok false end.
  Proof using All.
    intros O F N. induction good as [|e good IH]; cbn [app map all_pubkeys] in *.
    - inversion O as [|? ? Ob _]; subst. rewrite (key_hex bad Ob). destruct (key_dec bad); [contradiction|]. destruct bad; reflexivity.
    - inversion O as [|? ? Oe O']; inversion F as [|? ? Fe F']; subst. rewrite (key_hex e Oe). destruct (key_dec e); [|contradiction]. cbn [bind negb]. apply IH; assumption.
  Qed.
  Lemma keys_hex_good keys : Forall (element_ok name) keys -> Forall pushes_key keys -> all_pubkeys (map text keys) = Ok true.
  Proof using All.
    intros O F. apply all_pubkeys_ok. apply Forall_map. rewrite Forall_forall in *. intros e I. rewrite (key_hex e (O e I)). destruct (key_dec e) as [|N]; [reflexivity|]. destruct N. auto.
  Qed.

  Lemma body_last (ts : list str) (w : str) : body (ts ++ [w]) =
    (p2pk <- (if leqb w (lit "OP_CHECKSIG") && (zlen (ts ++ [w]) =? 2) then w <- index (ts ++ [w]) 1 ;; is_pubkey_hex w else Ok false) ;;
     if p2pk : bool then Ok true
     else if leqb w (lit "OP_CHECKMULTISIG")
     then w2 <- index (ts ++ [w]) (-2) ;;
          if leqb w2 (lit "OP_1") || leqb w2 (lit "OP_2") || leqb w2 (lit "OP_3") then standard_multisig (ts ++ [w]) w2 else Ok false
     else Ok false).
  Proof using. unfold body. rewrite index_last. reflexivity. Qed.
  Lemma body_multisig (ts : list str) (w2 : str) : body (ts ++ [w2; CMS]) =
    if leqb w2 (lit "OP_1") || leqb w2 (lit "OP_2") || leqb w2 (lit "OP_3") then standard_multisig (ts ++ [w2; CMS]) w2 else Ok false.
  Proof using.
    change [w2; CMS] with ([w2] ++ [CMS]). rewrite app_assoc, body_last. change (leqb CMS (lit "OP_CHECKSIG")) with false. change (leqb CMS (lit "OP_CHECKMULTISIG")) with true.
    cbn [andb bind]. rewrite <- app_assoc. cbn [app]. rewrite index_2nd. reflexivity.
  Qed.
  Lemma multisig_first (ts : list str) n (first : str) (rest : list str) : 1 <= n <= 3 -> ts ++ [lit "OP_" ++ [48 + n]; CMS] = first :: rest ->
    standard_multisig (ts ++ [lit "OP_" ++ [48 + n]; CMS]) (lit "OP_" ++ [48 + n]) =
    (c0 <- index first (-1) ;; num_sigs <- int_char c0 ;;
     if (n <? num_sigs) || negb (zlen ts =? n + 1) then Ok false else all_pubkeys (slice (ts ++ [lit "OP_" ++ [48 + n]; CMS]) 1 (-2))).
  Proof using.
    intros R E. unfold standard_multisig. rewrite index_last. cbn [bind]. rewrite (proj2 (int_char_ok (48 + n) n)) by lia. cbn [bind].
    pose proof (f_equal (fun l => index l 0) E) as Z0. cbv beta in Z0. rewrite index_0 in Z0. rewrite Z0. cbn [bind].
    rewrite zlen_app. change (zlen [lit "OP_" ++ [48 + n]; CMS]) with 2. replace (zlen ts + 2 =? n + 3) with (zlen ts =? n + 1) by lia. reflexivity.
  Qed.
  Lemma digit_index w d : ends_in_digit w d -> exists c, index w (-1) = Ok c /\ int_char c = Ok d.
  Proof using. intros [R [v ->]]. exists (48 + d). split; [apply index_last|]. apply int_char_ok. lia. Qed.

  Lemma answer_body ws r : Forall (element_ok name) ws -> Forall (fun e => text e <> []) ws -> answer ws r -> body (map text ws) = r.
  Proof using All.
    intros O N A. destruct A as [|e| |es e Ne|es n first rest R E D|es n first rest d R E D M|first good bad more n d R D L C G B|first keys n d R D L C G|es e N1 N2].
    - reflexivity.
    - cbn [map]. change [text e; text CHECKSIG] with ([text e] ++ [lit "OP_CHECKSIG"]). rewrite body_last.
      change (leqb (lit "OP_CHECKSIG") (lit "OP_CHECKSIG")) with true. change (zlen ([text e] ++ [lit "OP_CHECKSIG"]) =? 2) with true. cbn [andb].
      rewrite index_app_mid by reflexivity. reflexivity.
    - reflexivity.
    - rewrite map_app. cbn [map]. change (text CHECKMULTISIG) with CMS. rewrite body_multisig. rewrite counts_none; [reflexivity| |exact Ne].
      rewrite Forall_forall in O. apply O, in_or_app. right. left. reflexivity.
    - rewrite map_app. cbn [map]. change (text CHECKMULTISIG) with CMS. assert (map text (es ++ [small_int n; CHECKMULTISIG]) = map text (first :: rest)) as E' by (rewrite E; reflexivity).
      rewrite map_app in E'. cbn [map] in E'. change (text CHECKMULTISIG) with CMS in E'. rewrite (small_int_text n R) in *. cbn [text] in *.
      rewrite body_multisig, (counts_one n R). etransitivity; [exact (multisig_first _ n _ _ R E')|].
      assert (text first <> []) as F. { rewrite E in N. inversion N; assumption. }
      destruct (@exists_last _ _ F) as [v [c Q]]. assert (index (text first) (-1) = Ok c) as I by (rewrite Q; apply index_last). rewrite I. cbn [bind].
      rewrite (no_digit _ _ I D). reflexivity.
    - rewrite map_app. cbn [map]. change (text CHECKMULTISIG) with CMS. assert (map text (es ++ [small_int n; CHECKMULTISIG]) = map text (first :: rest)) as E' by (rewrite E; reflexivity).
      rewrite map_app in E'. cbn [map] in E'. change (text CHECKMULTISIG) with CMS in E'. rewrite (small_int_text n R) in *. cbn [text] in *.
      rewrite body_multisig, (counts_one n R). etransitivity; [exact (multisig_first _ n _ _ R E')|].
      destruct (digit_index _ _ D) as [c [I J]]. rewrite I. cbn [bind]. rewrite J. cbn [bind].
      replace ((n <? d) || negb (zlen (map text es) =? n + 1)) with true; [reflexivity|]. symmetry. unfold zlen. rewrite map_length. change (Z.of_nat (length es)) with (count es). lia.
    - cbn [map]. rewrite map_app. cbn [map]. change (text CHECKMULTISIG) with CMS. rewrite (small_int_text n R). cbn [text].
      rewrite app_comm_cons, body_multisig, (counts_one n R). etransitivity; [exact (multisig_first (text first :: map text (good ++ bad :: more)) n (text first) (map text (good ++ bad :: more) ++ [lit "OP_" ++ [48 + n]; CMS]) R eq_refl)|].
      destruct (digit_index _ _ D) as [c [I J]]. rewrite I. cbn [bind]. rewrite J. cbn [bind].
      replace ((n <? d) || negb (zlen (text first :: map text (good ++ bad :: more)) =? n + 1)) with false.
      + rewrite <- app_comm_cons, slice_mid. apply keys_hex; try assumption. inversion O as [|? ? _ O']; subst. apply Forall_app in O'. apply O'.
      + symmetry. unfold zlen. cbn [length]. rewrite map_length. unfold count in C. lia.
    - cbn [map]. rewrite map_app. cbn [map]. change (text CHECKMULTISIG) with CMS. rewrite (small_int_text n R). cbn [text].
      rewrite app_comm_cons, body_multisig, (counts_one n R). etransitivity; [exact (multisig_first (text first :: map text keys) n (text first) (map text keys ++ [lit "OP_" ++ [48 + n]; CMS]) R eq_refl)|].
      destruct (digit_index _ _ D) as [c [I J]]. rewrite I. cbn [bind]. rewrite J. cbn [bind].
      replace ((n <? d) || negb (zlen (text first :: map text keys) =? n + 1)) with false.
      + rewrite <- app_comm_cons, slice_mid. apply keys_hex_good; try assumption. inversion O as [|? ? _ O']; subst. apply Forall_app in O'. apply O'.
      + symmetry. unfold zlen. cbn [length]. rewrite map_length. unfold count in C. lia.
    - rewrite map_app. cbn [map]. rewrite body_last. apply Forall_app in O. destruct O as [_ O]. inversion O as [|? ? Oe _]; subst.
      rewrite (text_is_eqb 174 CMS) by (try assumption; cbn [In]; tauto).
      assert (leqb (text e) (lit "OP_CHECKSIG") && (zlen (map text es ++ [text e]) =? 2) = false) as ->; [|reflexivity].
      destruct (element_eq_dec e CHECKSIG) as [->|Q].
      + apply andb_false_iff. right. apply Z.eqb_neq. intros X. apply N2. split; [reflexivity|]. rewrite zlen_app in X. change (zlen [text CHECKSIG]) with 1 in X. unfold zlen in X. rewrite map_length in X. unfold count. lia.
      + rewrite (text_is_eqb 172 (lit "OP_CHECKSIG")) by (try assumption; cbn [In]; tauto). reflexivity.
  Qed.

  Lemma answer_total ws : Forall (fun e => text e <> []) ws -> exists r, answer ws r.
  Proof using.
    intros N. destruct ws as [|w0 ws0]; [eexists; constructor|]. destruct (@exists_last _ (w0 :: ws0) ltac:(discriminate)) as [es [e E]]. rewrite E in *. clear E w0 ws0.
    destruct (element_eq_dec e CHECKMULTISIG) as [->|Ne].
    - destruct es as [|e0 es0]; [eexists; apply answer_checkmultisig|]. destruct (@exists_last _ (e0 :: es0) ltac:(discriminate)) as [l [e E]]. rewrite E in *. clear E e0 es0.
      rewrite <- app_assoc in *. cbn [app] in *.
      assert ((exists n, 1 <= n <= 3 /\ e = small_int n) \/ (forall n, 1 <= n <= 3 -> e <> small_int n)) as [[n [R ->]]|Q].
      { destruct (element_eq_dec e (small_int 1)); [left; exists 1; split; [lia|assumption]|]. destruct (element_eq_dec e (small_int 2)); [left; exists 2; split; [lia|assumption]|].
        destruct (element_eq_dec e (small_int 3)); [left; exists 3; split; [lia|assumption]|]. right. intros n' R. assert (n' = 1 \/ n' = 2 \/ n' = 3) as [->|[->| ->]] by lia; assumption. }
      2:{ eexists. apply answer_no_count, Q. }
      destruct (l ++ [small_int n; CHECKMULTISIG]) as [|first rest] eqn:E; [destruct l; discriminate|]. rewrite <- E.
      assert (text first <> []) as Nf by (inversion N; assumption).
      destruct (digit_dec _ Nf) as [[d D]|D]; [|eexists; eapply answer_no_number; eassumption].
      destruct (Z_lt_dec n d) as [|L]; [eexists; eapply answer_mismatch; eauto|]. destruct (Z.eq_dec (count l) (n + 1)) as [C|C]; [|eexists; eapply answer_mismatch; eauto].
      destruct l as [|x keys]; [unfold count in C; cbn in C; lia|]. cbn [app] in E. injection E as <- <-. cbn [app].
      assert (count keys = n) as C' by (unfold count in *; cbn [length] in C; lia).
      destruct (keys_split keys) as [F|[g [b [m [-> [F B]]]]]]; [eexists; apply (answer_multisig x keys n d); auto; lia|].
      eexists. apply (answer_bad_key x g b m n d); auto. lia.
    - destruct (element_eq_dec e CHECKSIG) as [->|Nc].
      + destruct (Z.eq_dec (count es) 1) as [C|C].
        * destruct es as [|x [|y l]]; unfold count in C; cbn [length] in C; try lia. eexists. apply answer_checksig.
        * eexists. apply answer_other; [exact Ne|]. intros [_ X]. contradiction.
      + eexists. apply answer_other; [exact Ne|]. intros [X _]. contradiction.
  Qed.
  Lemma shown_text es : Forall (fun e => text e <> []) (shown es).
  Proof using. unfold shown. rewrite Forall_forall. intros e I. apply filter_In in I. destruct I as [_ I]. destruct (text e); [discriminate|discriminate]. Qed.
End Reading.

Section Outputs.
  Context (H : hashes) (name : str) (net : network) (K : hashes_ok H) (En : get_network name = Ok net).

  Lemma pays_or_not s : all_bytes s ->
    (addressed name s /\ exists a, from_output_script H net s true = Ok a) \/ (~ addressed name s /\ from_output_script H net s true = Err ValueError).
  Proof using All.
    intros B. destruct (c15_cases_lemma H name net s true K En B) as [[k [h [Bh [Lh [Lk _]]]]]|[Ev Nv]].
    - destruct (address_or_not H name net K En k h _ Bh Lh Lk) as [[a [Ea Sk]]|[Es [Wk [Ns Nc]]]].
      + left. split; [exists k, h; auto|eauto].
      + right. split; [|exact Es]. intros [k' [h' [Lh' [Lk' Sk]]]].
        rewrite (looks_like_kind H name net K En k h k' h' _ Lh Lh' Lk Lk') in Wk. destruct (Sk Wk) as [Q|[p Q]]; [contradiction|destruct (Nc p Q)].
    - right. split; [|exact Ev]. intros [k [h [Lh [Lk _]]]]. destruct (Nv k h Lh Lk).
  Qed.
  Lemma type_pays o : all_bytes (MTx.to_output_script o) -> addressed name (MTx.to_output_script o) -> is_standard_output_type H net o = Ok true.
  Proof using All.
    intros B P. unfold is_standard_output_type. destruct (pays_or_not _ B) as [[_ [a ->]]|[N _]]; [reflexivity|contradiction].
  Qed.
  Lemma type_not_pays o : all_bytes (MTx.to_output_script o) -> ~ addressed name (MTx.to_output_script o) ->
    is_standard_output_type H net o = (script <- deserialize net (MTx.to_output_script o) ;; body (split_ws script)).
  Proof using All.
    intros B N. unfold is_standard_output_type. destruct (pays_or_not _ B) as [[P _]|[_ ->]]; [contradiction|reflexivity].
  Qed.
  Lemma type_answer o es r : all_bytes (MTx.to_output_script o) -> ~ addressed name (MTx.to_output_script o) ->
    reads_as name (MTx.to_output_script o) es -> answer (shown es) r -> is_standard_output_type H net o = r.
  Proof using All.
    intros B N R A. rewrite (type_not_pays o B N). destruct (reading_text name net En _ es B R) as [-> S]. cbn [bind]. rewrite S.
    apply (answer_body name net En); [apply (shown_ok name (MTx.to_output_script o)), R|apply shown_text|exact A].
  Qed.
  Lemma type_refused o : all_bytes (MTx.to_output_script o) -> ~ addressed name (MTx.to_output_script o) ->
    refused_script name (MTx.to_output_script o) -> exists e, is_standard_output_type H net o = Err e.
  Proof using All.
    intros B N R. rewrite (type_not_pays o B N). apply (refused_iff name net _ En B) in R. destruct R as [e ->]. exists e. reflexivity.
  Qed.

  Lemma op_return_all o es : all_bytes (MTx.to_output_script o) -> reads_as name (MTx.to_output_script o) es ->
    is_op_return net o =
    if le_value (to_value o) =? 0
    then match shown es with
         | [] => Err IndexError
         | e :: _ => Ok ((if element_eq_dec e (Op 106 (lit "OP_RETURN")) then true else false) && (len (join (lit " ") (map text es)) <? 80))
         end
    else Ok false.
  Proof using En.
    intros B R. unfold is_op_return. destruct (reading_text name net En _ es B R) as [-> S]. cbn [bind]. cbv zeta. rewrite S, le2i_le.
    destruct (le_value (to_value o) =? 0); [|reflexivity]. pose proof (shown_ok name (MTx.to_output_script o) es R) as O.
    destruct (shown es) as [|e l]; [reflexivity|]. cbn [map]. rewrite index_0. cbn [bind]. inversion O as [|? ? Oe _]; subst.
    destruct (element_eq_dec e (Op 106 (lit "OP_RETURN"))) as [->|Ne]; [reflexivity|].
    rewrite (text_is_eqb name net En 106 (lit "OP_RETURN")) by (try assumption; cbn [In]; tauto). reflexivity.
  Qed.

  (* the whole check *)
  Local Notation fit o := (accepted_output name (le_value (to_value o)) (MTx.to_output_script o)).
  Lemma type_true o : all_bytes (MTx.to_output_script o) -> is_standard_output_type H net o = Ok true <->
    addressed name (MTx.to_output_script o) \/ exists es, reads_as name (MTx.to_output_script o) es /\ answer (shown es) (Ok true).
  Proof using All.
    intros B. split.
    - intros E. destruct (pays_or_not _ B) as [[P _]|[N _]]; [left; exact P|right].
      destruct (reading_total name net En _ B) as [R|[es R]]; [destruct (type_refused o B N R) as [e X]; congruence|].
      destruct (answer_total (shown es) (shown_text es)) as [r A]. pose proof (type_answer o es r B N R A) as Q. rewrite E in Q. subst r. eauto.
    - intros [P|[es [R A]]]; [apply type_pays; assumption|]. destruct (pays_or_not _ B) as [[P _]|[N _]]; [apply type_pays; assumption|].
      apply (type_answer o es); assumption.
  Qed.
  Lemma standard_exact t : Forall (fun o => all_bytes (MTx.to_output_script o)) (tx_tx_outs t) -> tx_tx_outs t <> [] ->
    check_is_standard H net t = Ok true <-> exists o, tx_tx_outs t = [o] /\ fit o.
  Proof using All.
    intros B Ne. split.
    - intros E. destruct (tx_tx_outs t) as [|o [|o' l]] eqn:Eo; [contradiction| |].
      + exists o. split; [reflexivity|]. inversion B as [|? ? Bo _]; subst. unfold check_is_standard in E. rewrite Eo in E. cbn [standard_outputs mapM] in E.
        destruct (is_standard_output_type H net o) as [[]|] eqn:T; cbn [bind negb] in E; [|discriminate|discriminate].
        apply (type_true o Bo) in T. split; [exact T|]. rewrite le2i_le, slice_to_firstn in E by lia. change (Z.to_nat 2) with 2%nat in E.
        destruct (Z.ltb_spec (le_value (to_value o)) 550) as [Lt|Ge]; cbn [andb] in E.
        * destruct (leqb_spec (firstn 2 (MTx.to_output_script o)) [0; 20]) as [Q|Q]; cbn [negb bind] in E; [|discriminate].
          split; [right; exact Q|]. intros R. apply (refused_iff name net _ En Bo) in R. destruct R as [e R]. unfold is_op_return in E. rewrite R in E. discriminate.
        * cbn [bind] in E. split; [left; lia|]. intros R. apply (refused_iff name net _ En Bo) in R. destruct R as [e R]. cbn [negb] in E. unfold is_op_return in E. rewrite R in E. discriminate.
      + exfalso. apply (many_outputs H net t) in E; [exact E|]. rewrite Eo. unfold count. cbn [length]. lia.
    - intros [o [Eo [T [D R]]]]. rewrite Eo in B. inversion B as [|? ? Bo _]; subst. unfold check_is_standard. rewrite Eo. cbn [standard_outputs mapM].
      rewrite (proj2 (type_true o Bo) T). cbn [bind negb]. rewrite le2i_le, slice_to_firstn by lia. change (Z.to_nat 2) with 2%nat.
      replace ((le_value (to_value o) <? 550) && negb (leqb (firstn 2 (MTx.to_output_script o)) [0; 20])) with false.
      2:{ symmetry. apply andb_false_iff. destruct D as [D|D]; [left; lia|right; rewrite D; reflexivity]. }
      cbn [bind negb]. destruct (reading_total name net En _ Bo) as [X|[es X]]; [contradiction|]. rewrite (op_return_all o es Bo X).
      destruct (Z.eqb_spec (le_value (to_value o)) 0) as [Z|Z]; [|reflexivity]. destruct D as [D|D]; [lia|].
      destruct (shown es) as [|e l] eqn:S; [exfalso|reflexivity].
      destruct X as [F X]. destruct es as [|e es].
      + cbn in X. destruct X as [X|[b [f [d [r [Y _]]]]]]; [rewrite X in D; discriminate|destruct b; discriminate].
      + inversion F as [|? ? Fe _]; subst. destruct e as [c n|f d].
        * cbn in S. pose proof (op_facts_of _ _ _ _ En (proj1 Fe)) as [F1 F2 F3 F4 F5 F6]. destruct n; [|discriminate S]. cbn in *. congruence.
        * destruct X as [X|[b [f' [d' [r [Y [Q [O [N1 N2]]]]]]]]].
          -- rewrite X in D. cbn [map concat wire] in D. destruct f; cbn [push app firstn] in D; [|discriminate|discriminate].
             injection D as D _. destruct Fe as [_ Fe]. unfold len in *. lia.
          -- destruct b as [|x b].
             ++ cbn [map concat app] in Q. injection Y as -> -> _. rewrite Q in D. clear Q. inversion O; subst; try contradiction; discriminate D.
             ++ injection Y as <- _. rewrite Q in D. cbn [map concat wire] in D. destruct f; cbn [push app firstn] in D; [|discriminate|discriminate].
                injection D as D _. destruct Fe as [_ Fe]. unfold len in *. lia.
  Qed.
  Lemma standard_tx_exact t : tx_obj H net t -> Forall (fun i => all_bytes (ti_script_sig i)) (tx_tx_ins t) ->
    Forall (fun o => all_bytes (MTx.to_output_script o)) (tx_tx_outs t) ->
    check_is_standard_tx H net t = Ok true <->
    (hd 0 (tx_version t) = 1 \/ hd 0 (tx_version t) = 2) /\ weight t <= 400000 /\
    Forall (fun i => ~ refused_script name (ti_script_sig i)) (tx_tx_ins t) /\ exists o, tx_tx_outs t = [o] /\ fit o.
  Proof using All.
    intros O Bi Bo. rewrite (tx_cases H name net En t _ O eq_refl Bi).
    assert (tx_tx_outs t <> []) as Ne.
    { apply tx_obj_iff in O. destruct O as (_ & _ & _ & A & _). intros E. unfold tx_args_ok in A. rewrite E in A. rewrite !andb_true_iff in A.
      repeat match type of A with _ /\ _ => destruct A as [A ?] end. change (zlen (@nil txout)) with 0 in *. lia. }
    assert (Forall txin_obj (tx_tx_ins t)) as Oi by (apply tx_obj_iff in O; apply O).
    assert (Forall (fun i => is_bytes (ti_script_sig i)) (tx_tx_ins t)) as Bi' by (eapply Forall_impl; [|exact Bi]; intros i X; apply all_bytes_is_bytes, X).
    destruct (standard_inputs_spec name net _ En Oi Bi') as [S1 S2].
    rewrite <- (standard_exact t Bo Ne).
    destruct (zmem (hd 0 (tx_version t)) [1; 2]) eqn:V; cbn [negb].
    - unfold zmem in V. cbn [existsb] in V. destruct (Z.ltb_spec 400000 (weight t)) as [W|W].
      + split; [discriminate|]. intros (_ & X & _). lia.
      + destruct (standard_inputs net (tx_tx_ins t)) eqn:I; cbn [negb].
        * split; [intros E|intros (_ & _ & _ & E); exact E]. split; [lia|]. split; [exact W|]. split; [|exact E].
          apply Forall_forall. intros i In R. assert (Exists (fun i => refused_script name (ti_script_sig i)) (tx_tx_ins t)) as X by (apply Exists_exists; eauto). specialize (S2 X). congruence.
        * split; [discriminate|]. intros (_ & _ & F & _). specialize (S1 F). congruence.
    - split; [discriminate|]. unfold zmem in V. cbn [existsb] in V. intros (X & _). lia.
  Qed.
End Outputs.
