(* serialize and hex_deserialize on every text *)
From Coq Require Import String Lia.
From Verif Require Import Py MNet MUtils MScript SNum SNet SScript SSerialize LBase LNet LUtils LScript LParse.
Open Scope list_scope.
Open Scope Z_scope.

Lemma unhex_iff c v : unhexdigit c = Some v <-> hex_digit c v.
Proof.
  unfold unhexdigit, hex_digit. split.
  - destruct ((48 <=? c) && (c <=? 57)) eqn:E1; [intros E; injection E as <-; lia|].
    destruct ((97 <=? c) && (c <=? 102)) eqn:E2; [intros E; injection E as <-; lia|].
    destruct ((65 <=? c) && (c <=? 70)) eqn:E3; [intros E; injection E as <-; lia|discriminate].
  - intros X. destruct ((48 <=? c) && (c <=? 57)) eqn:E1; [f_equal; lia|]. destruct ((97 <=? c) && (c <=? 102)) eqn:E2; [f_equal; lia|].
    destruct ((65 <=? c) && (c <=? 70)) eqn:E3; [f_equal; lia|lia].
Qed.
Lemma space_iff c : ascii_space c = true <-> c = 32 \/ 9 <= c <= 13.
Proof. unfold ascii_space. lia. Qed.
Lemma fromhex_iff s : forall d, fromhex s = Ok d <-> hex_spelling d s.
Proof.
  remember (length s) as n eqn:En. assert (length s <= n)%nat as Hn by lia. clear En. revert s Hn.
  induction n as [|n IH]; intros s Hn d.
  - destruct s; [|cbn in Hn; lia]. cbn [fromhex]. split; [intros E; injection E as <-; constructor|intros X; inversion X; reflexivity].
  - destruct s as [|c t]; [cbn [fromhex]; split; [intros E; injection E as <-; constructor|intros X; inversion X; reflexivity]|].
    cbn [length] in Hn. cbn [fromhex]. split.
    + intros E. destruct (ascii_space c) eqn:A.
      * apply hex_space; [apply space_iff, A|]. apply IH; [lia|exact E].
      * destruct t as [|x t]; [discriminate|]. destruct (unhexdigit c) eqn:C; [|discriminate]. destruct (unhexdigit x) eqn:X; [|discriminate].
        destruct (fromhex t) as [r|] eqn:R; [|discriminate]. cbn [bind] in E. apply Ok_inj in E. subst d. cbn [length] in Hn.
        apply hex_pair; [apply unhex_iff, C|apply unhex_iff, X|]. apply IH; [lia|exact R].
    + intros X. inversion X as [|? ? ? A Y|? ? ? h ? l A B Y]; subst.
      * apply space_iff in A. rewrite A. apply IH; [lia|exact Y].
      * destruct (ascii_space c) eqn:W; [apply space_iff in W; unfold hex_digit in A; lia|].
        apply unhex_iff in A, B. rewrite A, B. cbn [length] in Hn. apply (IH s) in Y; [|lia]. rewrite Y. reflexivity.
Qed.
Lemma fromhex_not s : (forall d, ~ hex_spelling d s) <-> fromhex s = Err ValueError.
Proof.
  split.
  - intros N. pose proof (fromhex_errors s) as E. destruct (fromhex s) as [d|e] eqn:F; [destruct (N d); apply fromhex_iff, F|].
    cbn in E. destruct E as [<-|[]]. reflexivity.
  - intros E d X. apply fromhex_iff in X. congruence.
Qed.

(** ** One word *)
Definition known_b (name : str) : list (Z * str) := filter (fun o => negb (fst o =? 171)) (opcodes_b name) ++ aliases ++ push_names.
Lemma known_iff name w c : opcode_word name w c <-> In (c, w) (known_b name).
Proof.
  unfold opcode_word, known_b. rewrite opcodes_of_b, !in_app_iff, filter_In. cbn [fst]. rewrite negb_true_iff, Z.eqb_neq. tauto.
Qed.
Lemma known_token name net w c : get_network name = Ok net -> opcode_word name w c -> serialize_token net w = Ok [c].
Proof.
  intros En I. apply known_iff in I.
  assert (forallb (fun o => res_str_eqb (serialize_token net (snd o)) [fst o]) (known_b name) = true) as F.
  { revert name net En I. intros name net En _. revert name net En.
    apply (supported_forall (fun s t => forallb (fun o => res_str_eqb (serialize_token t (snd o)) [fst o]) (known_b s))). vm_compute. reflexivity. }
  rewrite forallb_forall in F. specialize (F _ I). cbn [fst snd] in F. unfold res_str_eqb in F. destruct (serialize_token net w); [|discriminate].
  apply leqb_eq in F. subst. reflexivity.
Qed.
Definition name_b (name w : str) : bool := existsb (fun o => leqb (snd o) w) (known_b name) || existsb (leqb w) refused_names.
Lemma name_known name w : name_b name w = true -> (exists c, opcode_word name w c) \/ In w refused_names.
Proof.
  unfold name_b. rewrite orb_true_iff, !existsb_exists. intros [[[c n] [I E]]|[x [I E]]].
  - cbn [snd] in E. apply leqb_eq in E. subst. left. exists c. apply known_iff, I.
  - apply leqb_eq in E. subst. right. exact I.
Qed.
Lemma table_names name net w v : get_network name = Ok net ->
  assoc_str w (CODE_TO_INT_OVERWRITE net) = Some v \/ CODE_TO_INT w = Some v -> name_b name w = true.
Proof.
  intros En E.
  assert (forallb (fun o => name_b name (fst o)) (CODE_TO_INT_OVERWRITE net ++ OPCODE_LIST) = true) as F.
  { clear E. revert name net En. apply (supported_forall (fun s t => forallb (fun o => name_b s (fst o)) (CODE_TO_INT_OVERWRITE t ++ OPCODE_LIST))).
    vm_compute. reflexivity. }
  rewrite forallb_forall in F. assert (In (w, v) (CODE_TO_INT_OVERWRITE net ++ OPCODE_LIST)) as I.
  { apply in_app_iff. destruct E as [E|E]; apply assoc_str_In in E; auto. }
  exact (F _ I).
Qed.
Lemma refused_iff_b w : leqb w (lit "OP_CODESEPARATOR") || leqb w (lit "OP_PUSHDATA4") = true <-> In w refused_names.
Proof. rewrite orb_true_iff, !leqb_eq. unfold refused_names. cbn [In]. split; intros [E|E]; auto. destruct E as [E|[]]; auto. Qed.
Lemma known_no_hex name net w c d : get_network name = Ok net -> opcode_word name w c \/ In w refused_names -> ~ hex_spelling d w.
Proof.
  intros En K X. apply fromhex_iff in X.
  assert (hd 0 w = 79) as O.
  { destruct K as [K|K].
    - apply known_iff in K. assert (forallb (fun o => hd 0 (snd o) =? 79) (known_b name) = true) as F.
      { revert name net En K. intros name net En _. revert name net En. apply (supported_forall (fun s t => forallb (fun o => hd 0 (snd o) =? 79) (known_b s))). vm_compute. reflexivity. }
      rewrite forallb_forall in F. specialize (F _ K). cbn [snd] in F. lia.
    - destruct K as [<-|[<-|[]]]; reflexivity. }
  destruct w as [|x [|y w]]; cbn in O; subst; discriminate.
Qed.
Lemma token_case name net w : get_network name = Ok net -> w <> [] -> Forall (fun c => py_space c = false) w ->
  (exists b, word_bytes name w b /\ serialize_token net w = Ok b) \/ (exists e, word_error name w e /\ serialize_token net w = Err e).
Proof.
  intros En N F. destruct (leqb w (lit "OP_CODESEPARATOR") || leqb w (lit "OP_PUSHDATA4")) eqn:R.
  { right. exists NotImplementedError. split; [left; split; [left; apply refused_iff_b, R|reflexivity]|]. unfold serialize_token. rewrite R. reflexivity. }
  assert (~ In w refused_names) as Nr by (intros X; apply refused_iff_b in X; congruence).
  destruct (name_b name w) eqn:B.
  - apply name_known in B. destruct B as [[c K]|B]; [|contradiction]. left. exists [c]. split; [left; eauto|]. exact (known_token name net w c En K).
  - assert (forall c, ~ opcode_word name w c) as Nk.
    { intros c K. apply known_iff in K. unfold name_b in B. apply orb_false_iff in B. destruct B as [B _].
      rewrite (proj2 (existsb_exists _ _)) in B; [discriminate|]. exists (c, w). split; [exact K|apply leqb_refl]. }
    assert (serialize_token net w = (b <- fromhex w ;; serialize_push b)) as T.
    { unfold serialize_token. rewrite R. cbn [guard bind].
      destruct (assoc_str w (CODE_TO_INT_OVERWRITE net)) eqn:A1; [rewrite (table_names name net w z En (or_introl A1)) in B; discriminate|].
      destruct (CODE_TO_INT w) eqn:A2; [rewrite (table_names name net w z En (or_intror A2)) in B; discriminate|]. reflexivity. }
    rewrite T. clear T. destruct (fromhex w) as [d|e] eqn:X; cbn [bind].
    + pose proof (fromhex_nonempty w d N F X) as Nd. pose proof (fromhex_bytes w d X) as Bd. apply fromhex_iff in X.
      assert (1 <= len d) by (destruct d; [contradiction|unfold len; cbn [length]; lia]).
      destruct (Z_le_gt_dec (len d) 1000).
      * left. exists (push (smallest d) d). split; [right; exists d; auto|]. apply serialize_push_small; [exact Bd|lia].
      * right. exists NotImplementedError. split; [left; split; [right; exists d; split; [exact X|lia]|reflexivity]|]. apply serialize_push_big. change (1000 < len d). lia.
    + right. pose proof (fromhex_errors w) as Y. rewrite X in Y. cbn in Y. destruct Y as [<-|[]]. exists ValueError. split; [|reflexivity].
      right. split; [exact Nr|]. split; [exact Nk|]. split; [apply fromhex_not, X|reflexivity].
Qed.
Lemma word_bytes_token name net w b : get_network name = Ok net -> word_bytes name w b -> serialize_token net w = Ok b.
Proof.
  intros En [[c [K ->]]|[d [X [L ->]]]]; [exact (known_token name net w c En K)|].
  assert (hd 0 w <> 79) as O. { intros O. apply fromhex_iff in X. destruct w as [|x [|y w]]; cbn in O; subst; discriminate. }
  rewrite (serialize_token_hex name net w En O). pose proof X as Y. apply fromhex_iff in Y. rewrite Y. cbn [bind]. apply serialize_push_small; [|exact L].
  exact (fromhex_bytes w d Y).
Qed.
Lemma word_error_token name net w e : get_network name = Ok net -> w <> [] -> Forall (fun c => py_space c = false) w -> word_error name w e -> serialize_token net w = Err e.
Proof.
  intros En N F E. destruct (token_case name net w En N F) as [[b [B T]]|[e' [E' T]]].
  - exfalso. destruct E as [[[R|[d [X L]]] ->]|[Nr [Nk [Nh ->]]]].
    + apply refused_iff_b in R. unfold serialize_token in T. rewrite R in T. discriminate.
    + destruct B as [[c [K _]]|[d' [X' [L' _]]]]; [exact (known_no_hex name net w c d En (or_introl K) X)|].
      apply fromhex_iff in X, X'. rewrite X in X'. apply Ok_inj in X'. subst d'. lia.
    + destruct B as [[c [K _]]|[d' [X' _]]]; [exact (Nk c K)|exact (Nh d' X')].
  - rewrite T. f_equal. destruct E as [[E ->]|[Nr [Nk [Nh ->]]]], E' as [[E' ->]|[Nr' [Nk' [Nh' ->]]]]; try reflexivity; exfalso.
    + destruct E as [E|[d [X _]]]; [contradiction|exact (Nh' d X)].
    + destruct E' as [E'|[d [X _]]]; [contradiction|exact (Nh d X)].
Qed.

(** ** Texts *)
Lemma split_words_aux s : forall cur, Forall (fun c => py_space c = false) cur -> words (split_ws_aux s cur) (rev cur ++ s).
Proof.
  induction s as [|x s IH]; intros cur F.
  - cbn [split_ws_aux]. rewrite app_nil_r. destruct cur as [|y cur]; [apply words_nil; constructor|].
    pose proof (words_cons [] (rev (y :: cur)) [] []) as W. cbn [app] in W. rewrite app_nil_r in W. apply W.
    + constructor.
    + intros E. apply (f_equal (@length Z)) in E. rewrite rev_length in E. discriminate.
    + apply Forall_rev, F.
    + apply words_nil. constructor.
    + intros c t E. discriminate.
  - cbn [split_ws_aux]. destruct (py_space x) eqn:X.
    + assert (words (split_ws_aux s []) (x :: s)) as W.
      { specialize (IH [] (Forall_nil _)). cbn [rev app] in IH. inversion IH as [? Fs E|sep w rest ws Fs Ne Fw Wr C E]; subst.
        - apply words_nil. constructor; assumption.
        - apply (words_cons (x :: sep)); try assumption. constructor; assumption. }
      destruct cur as [|y cur]; [exact W|].
      apply (words_cons [] (rev (y :: cur)) (x :: s)).
      * constructor.
      * intros E. apply (f_equal (@length Z)) in E. rewrite rev_length in E. discriminate.
      * apply Forall_rev, F.
      * exact W.
      * intros c t E. injection E as <- _. exact X.
    + specialize (IH (x :: cur) (Forall_cons _ X F)). cbn [rev] in IH. rewrite <- app_assoc in IH. exact IH.
Qed.
Lemma split_words s : words (split_ws s) s.
Proof. exact (split_words_aux s [] (Forall_nil _)). Qed.

Lemma mapM_words name net ts : get_network name = Ok net -> Forall (fun w => w <> [] /\ Forall (fun c => py_space c = false) w) ts ->
  (exists bs, Forall2 (word_bytes name) ts bs /\ mapM (serialize_token net) ts = Ok bs) \/
  (exists good w more bs e, ts = good ++ w :: more /\ Forall2 (word_bytes name) good bs /\ word_error name w e /\ mapM (serialize_token net) ts = Err e).
Proof.
  intros En. induction ts as [|t ts IH]; intros F; [left; exists []; split; [constructor|reflexivity]|].
  inversion F as [|? ? [N Ft] F']; subst. cbn [mapM]. destruct (token_case name net t En N Ft) as [[b [B ->]]|[e [E ->]]]; cbn [bind].
  - destruct (IH F') as [[bs [Bs ->]]|[good [w [more [bs [e [-> [Bs [E ->]]]]]]]]]; cbn [bind].
    + left. exists (b :: bs). split; [constructor; assumption|reflexivity].
    + right. exists (t :: good), w, more, (b :: bs), e. split; [reflexivity|]. split; [constructor; assumption|]. auto.
  - right. exists [], t, ts, [], e. split; [reflexivity|]. split; [constructor|]. auto.
Qed.
Lemma mapM_words_ok name net ts bs : get_network name = Ok net -> Forall2 (word_bytes name) ts bs -> mapM (serialize_token net) ts = Ok bs.
Proof. intros En. induction 1 as [|t b ts bs B _ IH]; [reflexivity|]. cbn [mapM]. rewrite (word_bytes_token name net t b En B). cbn [bind]. rewrite IH. reflexivity. Qed.
Lemma mapM_words_err name net good bs w more e : get_network name = Ok net -> Forall2 (word_bytes name) good bs ->
  w <> [] -> Forall (fun c => py_space c = false) w -> word_error name w e -> mapM (serialize_token net) (good ++ w :: more) = Err e.
Proof.
  intros En G N F E. induction G as [|t b ts bs B _ IH]; cbn [app mapM].
  - rewrite (word_error_token name net w e En N F E). reflexivity.
  - rewrite (word_bytes_token name net t b En B). cbn [bind]. rewrite IH. reflexivity.
Qed.
