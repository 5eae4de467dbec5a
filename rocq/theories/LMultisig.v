(* Which scripts pass for standard multisig *)
From Coq Require Import String.
From Verif Require Import Py MNet MUtils MShared MScript MTx MAddr MStandard SNum SHash SNet SScript SAddr STx SStandard
  SParams LBase LNet LUtils LScript LAddr LParams LTxParse LStandard.
Open Scope list_scope.
Open Scope Z_scope.

Lemma index_neg {A} (l : list A) x r : index (l ++ x :: r) (- zlen (x :: r)) = Ok x.
Proof.
  unfold index. rewrite zlen_app, zlen_cons. pose proof (zlen_nonneg l). pose proof (zlen_nonneg r). destruct (Z.ltb_spec (- (1 + zlen r)) 0); [|lia].
  replace (zlen l + (1 + zlen r) + - (1 + zlen r)) with (zlen l) by lia.
  destruct (Z.ltb_spec (zlen l) 0); [lia|]. destruct (Z.leb_spec (zlen l + (1 + zlen r)) (zlen l)); [lia|]. cbn [orb].
  unfold zlen. rewrite Nat2Z.id, nth_error_app2, Nat.sub_diag by lia. reflexivity.
Qed.
Lemma index_empty {A} i : index (A := A) [] i = Err IndexError.
Proof. unfold index. change (zlen (A := A) []) with 0. destruct (Z.ltb_spec i 0), (Z.ltb_spec (0 + i) 0), (Z.ltb_spec i 0), (Z.leb_spec 0 i), (Z.leb_spec 0 (0 + i)); try lia; reflexivity. Qed.
Lemma slice_mid {A} (x : A) l y z : slice (x :: l ++ [y; z]) 1 (-2) = l.
Proof.
  unfold slice, clampi. assert (zlen (x :: l ++ [y; z]) = 3 + zlen l) as E by (rewrite zlen_cons, zlen_app, !zlen_cons, zlen_nil; lia).
  rewrite E. pose proof (zlen_nonneg l). change (1 <? 0) with false. change (-2 <? 0) with true. cbv iota.
  rewrite Z.min_l, Z.max_r by lia. change (Z.to_nat 1) with 1%nat. cbn [skipn].
  replace (Z.to_nat (3 + zlen l + -2 - 1)) with (length l + 0)%nat by (unfold zlen; lia).
  rewrite firstn_app_2. cbn [firstn]. apply app_nil_r.
Qed.

Definition CMS : str := lit "OP_CHECKMULTISIG".
Definition body (ts : list str) : res bool :=
  last <- index ts (-1) ;;
  p2pk <- (if leqb last (lit "OP_CHECKSIG") && (zlen ts =? 2) then w <- index ts 1 ;; is_pubkey_hex w else Ok false) ;;
  if p2pk : bool then Ok true
  else if leqb last (lit "OP_CHECKMULTISIG")
  then w2 <- index ts (-2) ;;
       if leqb w2 (lit "OP_1") || leqb w2 (lit "OP_2") || leqb w2 (lit "OP_3") then standard_multisig ts w2 else Ok false
  else Ok false.

Lemma int_char_ok c d : int_char c = Ok d <-> 0 <= d <= 9 /\ c = 48 + d.
Proof.
  unfold int_char. destruct (Z.leb_spec 48 c), (Z.leb_spec c 57); cbn [andb]; split; intros X; try discriminate X; try lia.
  - apply Ok_inj in X. lia.
  - f_equal. lia.
Qed.
Lemma all_pubkeys_ok l : all_pubkeys l = Ok true <-> Forall (fun k => is_pubkey_hex k = Ok true) l.
Proof.
  induction l as [|k l IH]; cbn [all_pubkeys]; [split; [constructor|reflexivity]|].
  destruct (is_pubkey_hex k) as [[]|] eqn:E; cbn [bind negb].
  - rewrite IH. split; [intros X; constructor; assumption|intros X; inversion X; assumption].
  - split; [discriminate|]. intros X. inversion X. congruence.
  - split; [discriminate|]. intros X. inversion X. congruence.
Qed.
Lemma last_char (w : str) c : index w (-1) = Ok c <-> exists v, w = v ++ [c].
Proof.
  split.
  - intros E. destruct w as [|x w]; [rewrite index_empty in E; discriminate|].
    destruct (@exists_last _ (x :: w) ltac:(discriminate)) as [v [y Q]]. rewrite Q in *. rewrite index_last in E. apply Ok_inj in E. subst. eauto.
  - intros [v ->]. apply index_last.
Qed.
Lemma index_2nd {A} (l : list A) y z : index (l ++ [y; z]) (-2) = Ok y.
Proof. change (-2) with (- zlen [y; z]). apply index_neg. Qed.

Lemma body_true ts : body ts = Ok true <->
  exists (first : str) (keys : list str) (w : str) (d : Z), ts = first :: keys ++ [lit "OP_" ++ [48 + count keys]; CMS] /\ 1 <= count keys <= 3 /\
    Forall (fun k => is_pubkey_hex k = Ok true) keys /\ first = w ++ [48 + d] /\ 0 <= d <= 9 /\ d <= count keys.
Proof.
  split.
  - intros E. unfold body in E. destruct ts as [|t0 ts0]; [discriminate E|].
    destruct (@exists_last _ (t0 :: ts0) ltac:(discriminate)) as [l [x Q]]. rewrite Q in *. clear Q. rewrite index_last in E. cbn [bind] in E.
    assert ((if leqb x (lit "OP_CHECKSIG") && (zlen (l ++ [x]) =? 2) then w <- index (l ++ [x]) 1 ;; is_pubkey_hex w else Ok false) <> Ok true) as N.
    { clear E. destruct (leqb_spec x (lit "OP_CHECKSIG")) as [Ex|]; [|discriminate]. subst x. destruct (Z.eqb_spec (zlen (l ++ [lit "OP_CHECKSIG"])) 2) as [Lx|]; [|discriminate].
      rewrite zlen_app in Lx. change (zlen [lit "OP_CHECKSIG"]) with 1 in Lx. rewrite index_app_mid by lia. vm_compute. discriminate. }
    destruct (if leqb x (lit "OP_CHECKSIG") && (zlen (l ++ [x]) =? 2) then w <- index (l ++ [x]) 1 ;; is_pubkey_hex w else Ok false) as [[]|]; [congruence| |discriminate].
    clear N. cbn [bind] in E. destruct (leqb_spec x (lit "OP_CHECKMULTISIG")) as [Ex|]; [|discriminate]. subst x.
    destruct l as [|l0 l']; [discriminate E|]. destruct (@exists_last _ (l0 :: l') ltac:(discriminate)) as [m [y Q]]. rewrite Q in *. clear Q l0 l'.
    rewrite <- app_assoc in E. cbn [app] in E. rewrite index_2nd in E. cbn [bind] in E.
    assert (exists n, 1 <= n <= 3 /\ y = lit "OP_" ++ [48 + n]) as [n [Rn Ey]].
    { destruct (leqb_spec y (lit "OP_1")); [exists 1; split; [lia|assumption]|]. destruct (leqb_spec y (lit "OP_2")); [exists 2; split; [lia|assumption]|].
      destruct (leqb_spec y (lit "OP_3")); [exists 3; split; [lia|assumption]|]. discriminate E. }
    assert (standard_multisig (m ++ [y; lit "OP_CHECKMULTISIG"]) y = Ok true) as E'.
    { destruct (leqb y (lit "OP_1") || leqb y (lit "OP_2") || leqb y (lit "OP_3")); [exact E|discriminate E]. }
    clear E. subst y. unfold standard_multisig in E'. rewrite index_last in E'. cbn [bind] in E'.
    rewrite (proj2 (int_char_ok (48 + n) n)) in E' by lia. cbn [bind] in E'.
    destruct (index (m ++ _) 0) as [w0|] eqn:E0; [|discriminate E']. cbn [bind] in E'.
    destruct (index w0 (-1)) as [c|] eqn:Ec; [|discriminate E']. cbn [bind] in E'. destruct (int_char c) as [d|] eqn:Ed; [|discriminate E']. cbn [bind] in E'.
    destruct (Z.ltb_spec n d); [discriminate E'|]. destruct (zlen (m ++ _) =? n + 3) eqn:L; [|discriminate E']. apply Z.eqb_eq in L.
    cbn [orb negb] in E'. rewrite zlen_app in L. change (zlen [lit "OP_" ++ [48 + n]; lit "OP_CHECKMULTISIG"]) with 2 in L.
    destruct m as [|w0' keys]; [rewrite zlen_nil in L; lia|]. cbn [app] in E0. rewrite index_0 in E0. apply Ok_inj in E0. subst w0'.
    cbn [app] in E'. rewrite slice_mid in E'. apply all_pubkeys_ok in E'. apply int_char_ok in Ed. destruct Ed as [Rd ->]. apply last_char in Ec. destruct Ec as [v ->].
    rewrite zlen_cons in L. assert (n = count keys) as C by (unfold count, zlen in *; lia). subst n.
    exists (v ++ [48 + d]), keys, v, d. split; [cbn [app]; rewrite <- app_assoc; reflexivity|]. split; [exact Rn|]. split; [exact E'|]. split; [reflexivity|]. split; [exact Rd|assumption].
  - intros [first [keys [w [d [E [R [F [Ef [Rd Ld]]]]]]]]]. unfold body.
    assert (index ts (-1) = Ok CMS) as ->.
    { rewrite E, app_comm_cons. change [lit "OP_" ++ [48 + count keys]; CMS] with ([lit "OP_" ++ [48 + count keys]] ++ [CMS]). rewrite app_assoc. apply index_last. }
    cbn [bind]. change (leqb CMS (lit "OP_CHECKSIG")) with false. cbn [andb bind]. change (leqb CMS (lit "OP_CHECKMULTISIG")) with true. cbv iota.
    assert (index ts (-2) = Ok (lit "OP_" ++ [48 + count keys])) as -> by (rewrite E, app_comm_cons; apply index_2nd). cbn [bind].
    assert (leqb (lit "OP_" ++ [48 + count keys]) (lit "OP_1") || leqb (lit "OP_" ++ [48 + count keys]) (lit "OP_2") || leqb (lit "OP_" ++ [48 + count keys]) (lit "OP_3") = true) as ->.
    { assert (count keys = 1 \/ count keys = 2 \/ count keys = 3) as [->|[->| ->]] by lia; reflexivity. }
    unfold standard_multisig. rewrite index_last. cbn [bind]. rewrite (proj2 (int_char_ok _ (count keys))) by lia. cbn [bind].
    assert (index ts 0 = Ok first) as -> by (rewrite E; apply index_0). cbn [bind]. rewrite Ef, index_last. cbn [bind]. rewrite (proj2 (int_char_ok _ d)) by lia. cbn [bind].
    destruct (Z.ltb_spec (count keys) d); [lia|].
    assert (zlen ts = count keys + 3) as ->. { rewrite E, zlen_cons, zlen_app. change (zlen [lit "OP_" ++ [48 + count keys]; CMS]) with 2. unfold count, zlen. lia. }
    rewrite Z.eqb_refl. cbn [orb negb]. assert (slice ts 1 (-2) = keys) as -> by (rewrite E; apply slice_mid). apply all_pubkeys_ok, F.
Qed.

(* from words back to elements *)
Section Elements.
  Context (name : str) (net : network) (En : get_network name = Ok net).

  Lemma pubkey_element e : element_ok name e -> is_pubkey_hex (text e) = Ok true <-> exists f k, e = Push f k /\ pubkey_size k.
  Proof using All.
    intros O. unfold is_pubkey_hex, pubkey_size. destruct e as [c n|f d]; cbn [text].
    - rewrite (fromhex_opname name net c n En) by apply O. cbn [bind]. split; [discriminate|]. intros [f [k [X _]]]. discriminate.
    - rewrite fromhex_hex by apply O. cbn [bind]. unfold zmem. cbn [existsb]. split.
      + intros X. apply Ok_inj in X. exists f, d. split; [reflexivity|]. change (len d) with (zlen d). rewrite orb_false_r, orb_true_iff, !Z.eqb_eq in X. lia.
      + intros [f' [k [X [L|L]]]]; injection X as <- <-; change (zlen d) with (len d); rewrite L; reflexivity.
  Qed.

  Definition op_only (c : Z) (n : str) : bool :=
    forallb (fun o => negb (leqb (snd o) n) || (fst o =? c)) (opcodes_b name) && match fromhex n with Err _ => true | Ok _ => false end.
  Lemma op_text c n e : op_only c n = true -> element_ok name e -> text e = n -> e = Op c n.
  Proof using All.
    intros B O T. apply andb_true_iff in B. destruct B as [B X]. destruct e as [c' n'|f d]; cbn [text] in T.
    - subst n'. f_equal. destruct O as [I _]. rewrite opcodes_of_b in I. rewrite forallb_forall in B. specialize (B _ I). cbn [fst snd] in B.
      rewrite leqb_refl in B. cbn [negb orb] in B. apply Z.eqb_eq, B.
    - exfalso. subst n. rewrite fromhex_hex in X by apply O. discriminate X.
  Qed.
  Lemma ops_only : forallb (fun o => op_only (fst o) (snd o)) [(81, lit "OP_1"); (82, lit "OP_2"); (83, lit "OP_3"); (174, CMS)] = true.
  Proof using All. unfold op_only, opcodes_b. destruct (str_mem name decred_names); vm_compute; reflexivity. Qed.

  Lemma loose_body es : Forall (element_ok name) es -> body (map text es) = Ok true <-> loose_multisig es.
  Proof using All.
    intros F. rewrite body_true. pose proof ops_only as OO. cbn [forallb fst snd] in OO. rewrite !andb_true_iff in OO. destruct OO as [O1 [O2 [O3 [O4 _]]]].
    assert (forall n, 1 <= n <= 3 -> op_only (80 + n) (lit "OP_" ++ [48 + n]) = true /\ small_int n = Op (80 + n) (lit "OP_" ++ [48 + n])) as Sm.
    { intros n R. assert (n = 1 \/ n = 2 \/ n = 3) as [->|[->| ->]] by lia; (split; [assumption|reflexivity]). }
    split.
    - intros [first [keys [w [d [E [R [P [Ef [Rd Ld]]]]]]]]].
      destruct es as [|e es]; [discriminate E|]. cbn [map] in E. injection E as Te E. inversion F as [|? ? Fe Fs]; subst.
      apply map_eq_app in E. destruct E as [ks [tl [-> [<- T]]]]. apply Forall_app in Fs. destruct Fs as [Fk Ft].
      assert (count (map text ks) = count ks) as C by (unfold count; rewrite map_length; reflexivity). rewrite C in *.
      destruct tl as [|a [|b [|]]]; try discriminate T. cbn [map] in T. injection T as Ta Tb.
      inversion Ft as [|? ? Fa Ft']; subst. inversion Ft' as [|? ? Fb _]; subst.
      destruct (Sm (count ks) R) as [On Es]. rewrite (op_text _ _ a On Fa Ta), (op_text _ _ b O4 Fb Tb), <- Es.
      exists e, ks, w, d. repeat split; try assumption; try lia.
      rewrite Forall_map in P. rewrite Forall_forall in *. intros k I. apply pubkey_element; auto.
    - intros [first [keys [w [d [-> [R [P [Ef [Rd Ld]]]]]]]]]. inversion F as [|? ? Fe Fs]; subst. apply Forall_app in Fs. destruct Fs as [Fk _].
      exists (text first), (map text keys), w, d.
      assert (count (map text keys) = count keys) as C by (unfold count; rewrite map_length; reflexivity). rewrite C.
      destruct (Sm (count keys) R) as [_ Es]. rewrite Es. cbn [map]. rewrite map_app. cbn [map text].
      repeat split; try assumption; try lia.
      apply Forall_map. rewrite Forall_forall in *. intros k I. apply pubkey_element; auto.
  Qed.

  Lemma split_words es : Forall (element_ok name) es -> Forall (fun e => text e <> []) es ->
    deserialize net (concat (map wire es)) = Ok (join (lit " ") (map text es)) /\ split_ws (join (lit " ") (map text es)) = map text es.
  Proof using All.
    intros F N. split; [apply (deserialize_wires name net es En F)|]. rewrite split_ws_join.
    - apply filter_all. apply Forall_map. eapply Forall_impl; [|exact N]. intros e X. cbv beta in X |- *. destruct (text e); [contradiction|reflexivity].
    - apply Forall_map. eapply Forall_impl; [|exact F]. intros e X. destruct e as [c n|f d]; cbn [text].
      + pose proof (op_facts_of _ _ _ _ En (proj1 X)) as [F1 F2 F3 F4 F5 F6]. assumption.
      + apply hex_no_space, X.
  Qed.
End Elements.

Section Types.
  Context (H : hashes) (name : str) (net : network) (K : hashes_ok H) (En : get_network name = Ok net).

  Lemma looks_like_kind k h k' h' s : len h = hash_len k -> len h' = hash_len k' -> looks_like k h s -> looks_like k' h' s -> k = k'.
  Proof using All.
    intros L L' X Y. destruct k, k'; cbn [looks_like template] in *; try reflexivity;
      repeat match goal with Q : exists _, _ |- _ => destruct Q end; subst; cbn [app] in *; discriminate.
  Qed.

  Lemma address_or_not k h script : all_bytes h -> len h = hash_len k -> looks_like k h script ->
    (exists s, from_output_script H net script true = Ok s /\ (is_witness_payment k = true -> In name segwit_names \/ exists p, cash_network name p)) \/
    (from_output_script H net script true = Err ValueError /\ is_witness_payment k = true /\ ~ In name segwit_names /\ forall p, ~ cash_network name p).
  Proof using All.
    intros B L Lk. rewrite (from_output_script_looks H name net K En k h script true B L Lk).
    destruct (cash_dec H name net K En) as [[p C]|N].
    - left. destruct (cash_payment H name net K En k h p B C) as [s [E _]]. exists (Some s). split; [exact E|]. eauto.
    - destruct (is_witness_payment k) eqn:W.
      + destruct (witness_some H name net K En) as [w Ww]. pose proof (witness_payment H name net K En k h true w W B L Ww (or_intror N)) as P.
        pose proof (witness_known H name net K En w Ww) as Kw. destruct w.
        * right. auto.
        * left. destruct P as [s [E _]]. exists (Some s). split; [exact E|]. intros _. left. apply Kw.
        * left. destruct P as [s [E _]]. exists (Some s). split; [exact E|]. intros _. left. apply Kw.
      + left. destruct (payment_network H name net K En k h true B L (or_intror N)) as [[s [E _]]|[X _]]; [|congruence]. exists (Some s). split; [exact E|discriminate].
  Qed.

  Lemma standard_type_exact es o : Forall (element_ok name) es -> Forall (fun e => text e <> []) es ->
    MTx.to_output_script o = concat (map wire es) ->
    is_standard_output_type H net o = Ok true <->
    (exists k h, len h = hash_len k /\ looks_like k h (concat (map wire es)) /\
       (is_witness_payment k = true -> In name segwit_names \/ exists p, cash_network name p)) \/
    loose_multisig es.
  Proof using All.
    intros F N E. destruct (split_words name net En es F N) as [D X].
    assert (is_bytes (concat (map wire es))) as B by (apply (wires_bytes name net es En), F).
    unfold is_standard_output_type. rewrite E.
    assert (forall e, (script <- deserialize net (concat (map wire es)) ;; body (split_ws script)) = e <-> body (map text es) = e) as Bd.
    { intros e. rewrite D. cbn [bind]. rewrite X. reflexivity. }
    destruct (c15_cases_lemma H name net (concat (map wire es)) true K En (proj2 (all_bytes_is_bytes _) B)) as [[k [h [Bh [Lh [Lk _]]]]]|[Ev Nv]].
    - destruct (address_or_not k h _ Bh Lh Lk) as [[s [Es Sk]]|[Es [Wk [Ns Nc]]]]; rewrite Es.
      + split; [|reflexivity]. intros _. left. exists k, h. auto.
      + rewrite (Bd (Ok true)), (loose_body name net En es F). split; [auto|]. intros [[k' [h' [Lh' [Lk' Sk]]]]|Y]; [|exact Y].
        rewrite (looks_like_kind k h k' h' _ Lh Lh' Lk Lk') in Wk. destruct (Sk Wk) as [Q|[p Q]]; [contradiction|destruct (Nc p Q)].
    - rewrite Ev, (Bd (Ok true)), (loose_body name net En es F). split; [auto|].
      intros [[k [h [Lh [Lk _]]]]|Y]; [|exact Y]. destruct (Nv k h Lh Lk).
  Qed.
End Types.
