(* Addresses by network parameters, and texts that two networks accept *)
From Coq Require Import String.
From Verif Require Import Py MNet MUtils MScript MBase58 MBech32 MCashaddr MAddr SNum SHash SNet SBase58 SBits SBch SBech32 SCashaddr SAddr SParams
  LBase LNet LBase58 LBech32 LAddr.
Open Scope list_scope.
Open Scope Z_scope.

Definition row_is (name : str) (net : network) (r : string * Z * Z * witness_format) : bool :=
  let '(n, p, q, w) := r in
  leqb name (lit n) && leqb (P2PKH_PREFIX net) (version_bytes p) && leqb (P2SH_PREFIX net) (version_bytes q) &&
  match w, BECH32_HRP net, SEGWIT_ENCODER net with
  | no_witness, None, Enc_bech32 => negb (str_mem name segwit_names)
  | bech32_witness h, Some hrp, Enc_bech32 => leqb hrp (lit h) && str_mem name segwit_names
  | base58_witness, _, Enc_base58 => str_mem name segwit_names
  | _, _, _ => false
  end.
Definition cash_is (name : str) (net : network) : bool :=
  match CASHADDR_PREFIX net with
  | Some p => existsb (fun r => leqb name (lit (fst r)) && leqb p (lit (snd r))) cash_table
  | None => forallb (fun r => negb (leqb name (lit (fst r)))) cash_table
  end.

Lemma row_exists name net : get_network name = Ok net -> exists r, In r address_table /\ row_is name net r = true.
Proof.
  intros E. assert (existsb (row_is name net) address_table = true) as B.
  { revert name net E. apply (supported_forall (fun name net => existsb (row_is name net) address_table)). vm_compute. reflexivity. }
  apply existsb_exists in B. exact B.
Qed.
Lemma cash_known name net : get_network name = Ok net -> cash_is name net = true.
Proof. revert name net. apply (supported_forall cash_is). vm_compute. reflexivity. Qed.

(* the table names each network once *)
Lemma row_fun name n p q w n' p' q' w' : In (n, p, q, w) address_table -> In (n', p', q', w') address_table ->
  name = lit n -> name = lit n' -> (n, p, q, w) = (n', p', q', w').
Proof.
  assert (U : forallb (fun r => forallb (fun r' => negb (leqb (lit (fst (fst (fst r)))) (lit (fst (fst (fst r'))))) ||
    (String.eqb (fst (fst (fst r))) (fst (fst (fst r'))) && (snd (fst (fst r)) =? snd (fst (fst r'))) && (snd (fst r) =? snd (fst r')) &&
     match snd r, snd r' with no_witness, no_witness | base58_witness, base58_witness => true | bech32_witness a, bech32_witness b => String.eqb a b | _, _ => false end))
    address_table) address_table = true) by (vm_compute; reflexivity).
  intros I I' E E'. rewrite forallb_forall in U. specialize (U _ I). rewrite forallb_forall in U. specialize (U _ I').
  cbn [fst snd] in U. rewrite <- E, <- E', leqb_refl in U. cbn [negb orb] in U. rewrite !andb_true_iff in U.
  destruct U as [[[A B] C] D]. apply String.eqb_eq in A. apply Z.eqb_eq in B, C. subst n' p' q'.
  destruct w, w'; try discriminate D; try reflexivity. apply String.eqb_eq in D. subst. reflexivity.
Qed.

Section Net.
  Context (H : hashes) (name : str) (net : network).
  Context (K : hashes_ok H) (En : get_network name = Ok net).
  Let S : shape name net := shapes name net En.

  Lemma versions_known : legacy_version name P2PKH (P2PKH_PREFIX net) /\ legacy_version name P2SH (P2SH_PREFIX net).
  Proof using All.
    destruct (row_exists name net En) as [[[[n p] q] w] [I B]]. unfold row_is in B. rewrite !andb_true_iff in B.
    destruct B as [[[A B] C] _]. apply leqb_eq in A, B, C. rewrite B, C.
    split; exists n, p, q, w; auto.
  Qed.
  Lemma witness_known w : witness_addresses name w ->
    match w with
    | no_witness => ~ In name segwit_names
    | bech32_witness h => In name segwit_names /\ SEGWIT_ENCODER net = Enc_bech32 /\ BECH32_HRP net = Some (lit h)
    | base58_witness => In name segwit_names /\ SEGWIT_ENCODER net = Enc_base58
    end.
  Proof using All.
    intros [n [p [q [I E]]]]. destruct (row_exists name net En) as [[[[n' p'] q'] w'] [I' B]].
    assert (name = lit n') as E'.
    { unfold row_is in B. rewrite !andb_true_iff in B. apply leqb_eq. apply B. }
    pose proof (row_fun name _ _ _ _ _ _ _ _ I I' E E') as Q. injection Q as <- <- <- <-.
    unfold row_is in B. rewrite !andb_true_iff in B. destruct B as [_ B].
    destruct w, (BECH32_HRP net), (SEGWIT_ENCODER net); try discriminate B.
    - intros Q. apply str_mem_In in Q. rewrite Q in B. discriminate B.
    - apply andb_true_iff in B. destruct B as [B C]. apply leqb_eq in B. subst. apply str_mem_In in C. auto.
    - apply str_mem_In in B. auto.
    - apply str_mem_In in B. auto.
  Qed.
  Lemma cash_some p : cash_network name p -> CASHADDR_PREFIX net = Some p.
  Proof using All.
    intros [n [q [I [E ->]]]]. pose proof (cash_known name net En) as B. unfold cash_is in B.
    destruct (CASHADDR_PREFIX net) as [p'|].
    - apply existsb_exists in B. destruct B as [[n' q'] [I' B]]. apply andb_true_iff in B. destruct B as [A B]. cbn [fst snd] in A, B.
      apply leqb_eq in A, B. subst p'. f_equal.
      rewrite E in A. clear E. revert A. revert I I'. unfold cash_table. cbn [In]. intros I I'.
      repeat match goal with X : _ \/ _ |- _ => destruct X as [X|X] | X : False |- _ => destruct X end;
        injection I as <- <-; injection I' as <- <-; intros A; reflexivity || (exfalso; vm_compute in A; discriminate A).
    - rewrite forallb_forall in B. specialize (B _ I). cbn [fst] in B. rewrite <- E, leqb_refl in B. discriminate B.
  Qed.
  Lemma cash_none : (forall p, ~ cash_network name p) -> CASHADDR_PREFIX net = None.
  Proof using All.
    intros N. pose proof (cash_known name net En) as B. unfold cash_is in B. destruct (CASHADDR_PREFIX net) as [p'|]; [|reflexivity].
    apply existsb_exists in B. destruct B as [[n q] [I B]]. apply andb_true_iff in B. destruct B as [A B]. apply leqb_eq in A, B. cbn [fst snd] in *.
    destruct (N p'). exists n, q. auto.
  Qed.

  (* legacy *)
  Lemma pkh_legacy h w ca : all_bytes h -> w = false -> ca = false \/ (forall p, ~ cash_network name p) ->
    exists v s, legacy_version name P2PKH v /\ make_pkh_address_of_hash H net h w ca = Ok (Some s) /\ base58check_of H name (v ++ h) s.
  Proof using All.
    intros B -> C. destruct versions_known as [V _]. destruct (legacy_encode_text H name net K En (P2PKH_PREFIX net) h (sh_pkh_bytes _ _ S) B) as [s [E T]].
    exists (P2PKH_PREFIX net), s. split; [exact V|split; [|exact T]]. unfold make_pkh_address_of_hash.
    destruct C as [->|N]; [destruct (CASHADDR_P2PKH net); exact E|].
    destruct (sh_cash _ _ S) as [[_ [X _]]|[_ [_ [[p X] _]]]]; [rewrite X; exact E|].
    rewrite (cash_none N) in X. discriminate X.
  Qed.
  Lemma sh_legacy h w ca : all_bytes h -> w = false -> ca = false \/ (forall p, ~ cash_network name p) ->
    exists v s, legacy_version name P2SH v /\ hash_to_sh_address H net h w ca = Ok (Some s) /\ base58check_of H name (v ++ h) s.
  Proof using All.
    intros B -> C. destruct versions_known as [_ V]. destruct (legacy_encode_text H name net K En (P2SH_PREFIX net) h (sh_sh_bytes _ _ S) B) as [s [E T]].
    exists (P2SH_PREFIX net), s. split; [exact V|split; [|exact T]]. unfold hash_to_sh_address.
    destruct C as [->|N]; [destruct (CASHADDR_P2SH net); exact E|].
    destruct (sh_cash _ _ S) as [[X _]|[_ [_ [[p X] _]]]]; [rewrite X; exact E|].
    rewrite (cash_none N) in X. discriminate X.
  Qed.
  Lemma cash_payment k h p : all_bytes h -> cash_network name p ->
    exists s, payment_address H net k h true = Ok (Some s) /\ cashaddr_of p (cash_kind k :: h) s.
  Proof using All.
    intros B C. pose proof (cash_some p C) as Ep. destruct (sh_cash _ _ S) as [[_ [_ X]]|[X [Y _]]]; [congruence|].
    destruct k; cbn [payment_address]; unfold make_pkh_address_of_hash, hash_to_sh_address; rewrite ?X, ?Y; cbn [cash_kind].
    - apply (cash_encode_text H name net K En p [0] h Ep); [repeat constructor; lia|exact B].
    - apply (cash_encode_text H name net K En p [8] h Ep); [repeat constructor; lia|exact B].
    - apply (cash_encode_text H name net K En p [0] h Ep); [repeat constructor; lia|exact B].
    - apply (cash_encode_text H name net K En p [8] h Ep); [repeat constructor; lia|exact B].
  Qed.
  Lemma witness_payment k h ca w : is_witness_payment k = true -> all_bytes h -> len h = hash_len k ->
    witness_addresses name w -> ca = false \/ (forall p, ~ cash_network name p) ->
    match w with
    | no_witness => payment_address H net k h ca = Err ValueError
    | bech32_witness hrp => exists s, payment_address H net k h ca = Ok (Some s) /\ segwit_address (lit hrp) 0 h s
    | base58_witness => exists s, payment_address H net k h ca = Ok (Some s) /\ base58check_of H name (0 :: len h :: h) s
    end.
  Proof using All.
    intros Wk B L W C. pose proof (witness_known w W) as Kw. destruct (segwit_encode_text H name net K En k h Wk B L) as [Y N].
    assert (payment_address H net k h ca = segwit_encoder_encode H net (template k h)) as ->.
    { assert (ca = false \/ (CASHADDR_P2SH net = None /\ CASHADDR_P2PKH net = None)) as D.
      { destruct C as [->|C]; [auto|]. right. destruct (sh_cash _ _ S) as [[X [Y' _]]|[_ [_ [[p X] _]]]]; [auto|]. rewrite (cash_none C) in X. discriminate X. }
      destruct k; try discriminate Wk; cbn [payment_address template]; unfold make_pkh_address_of_hash, hash_to_sh_address;
        rewrite ?(sh_wpkh _ _ S), ?(sh_wsh _ _ S); destruct D as [->|[X X']]; rewrite ?X, ?X'; try reflexivity;
        [destruct (CASHADDR_P2PKH net)|destruct (CASHADDR_P2SH net)]; reflexivity. }
    destruct w as [|hrp|].
    - apply N, Kw.
    - destruct Kw as [I [Ee Eh]]. destruct (Y I) as [s [E A]]. exists s. split; [exact E|].
      unfold address_for in A. rewrite Ee in A. destruct k; try discriminate Wk; destruct A as [_ [hrp' [Q A]]]; rewrite Eh in Q; injection Q as <-; exact A.
    - destruct Kw as [I Ee]. destruct (Y I) as [s [E A]]. exists s. split; [exact E|].
      unfold address_for in A. rewrite Ee in A. rewrite L. destruct k; try discriminate Wk; apply A.
  Qed.
End Net.

(* C59: two networks and one text *)
Lemma split_last (x : Z) a b c d : ~ In x b -> ~ In x d -> a ++ x :: b = c ++ x :: d -> a = c /\ b = d.
Proof.
  revert c. induction a as [|y a IH]; intros [|z c] Nb Nd E; cbn [app] in E.
  - injection E as ->. auto.
  - injection E as -> ->. destruct Nb. apply in_or_app. right. left. reflexivity.
  - injection E as -> <-. destruct Nd. apply in_or_app. right. left. reflexivity.
  - injection E as -> E. destruct (IH c Nb Nd E) as [-> ->]. auto.
Qed.

Lemma base58_payload H n1 n2 p q s : hashes_ok H -> base58check_of H n1 p s -> base58check_of H n2 q s -> p = q.
Proof.
  intros K [B1 E1] [B2 E2].
  assert (forall n (m : bytes), zlen (if in_dec list_eq_dec_Z n decred_names then blake256d H m else sha256d H m) = 32 /\
    is_bytes (if in_dec list_eq_dec_Z n decred_names then blake256d H m else sha256d H m)) as D.
  { intros n m. unfold blake256d, sha256d. destruct K as [K1 [_ [K3 _]]]. destruct (in_dec list_eq_dec_Z n decred_names); [apply K3|apply K1]. }
  assert (forall n (m : bytes), length (firstn 4 (if in_dec list_eq_dec_Z n decred_names then blake256d H m else sha256d H m)) = 4%nat) as L.
  { intros n m. rewrite firstn_length. destruct (D n m) as [X _]. unfold zlen in X. lia. }
  pose proof (base58_of_inj _ _ _ ltac:(apply is_bytes_app; split; [exact B1|apply is_bytes_firstn, D])
    ltac:(apply is_bytes_app; split; [exact B2|apply is_bytes_firstn, D]) E1 E2) as E.
  apply (f_equal (@rev Z)) in E. rewrite !rev_app_distr in E. apply app_inj_len in E; [|rewrite !rev_length, !L; reflexivity].
  destruct E as [_ E]. apply (f_equal (@rev Z)) in E. rewrite !rev_involutive in E. exact E.
Qed.

Lemma bech32_payload hrp hrp' v v' prog prog' s : witness_program v prog -> witness_program v' prog' ->
  segwit_address hrp v prog s -> segwit_address hrp' v' prog' s -> v = v' /\ prog = prog'.
Proof.
  intros W W' A A'. assert (hrp = hrp') as ->.
  { destruct A as [g [_ [[c [G [_ [_ E]]]] _]]], A' as [g' [_ [[c' [G' [_ [_ E']]]] _]]]. rewrite E in E'.
    change (lit "1") with [49] in E'. cbn [app] in E'.
    assert (forall l, Forall gf l -> ~ In 49 (map b32_char l)) as N.
    { intros l F I. apply in_map_iff in I. destruct I as [d [Q I]]. rewrite Forall_forall in F. apply F, b32_char_facts in I. lia. }
    apply (split_last 49) in E'; [apply E'|apply N, G|apply N, G']. }
  eapply segwit_address_program; eassumption.
Qed.

Lemma bech32_no_colon hrp v prog s : ~ In 58 hrp -> segwit_address hrp v prog (lower s) -> ~ In 58 s.
Proof.
  intros Nh [g [_ [[c [G [_ [_ E]]]] _]]] I.
  assert (In 58 (lower s)) as J. { unfold lower. apply in_map_iff. exists 58. split; [reflexivity|exact I]. }
  rewrite E in J. apply in_app_or in J. destruct J as [J|J]; [contradiction|]. cbn [app] in J. change (lit "1") with [49] in J. cbn [app] in J.
  destruct J as [J|J]; [discriminate|]. apply in_map_iff in J. destruct J as [d [Q I']]. rewrite Forall_forall in G. apply G, b32_char_facts in I'. lia.
Qed.

Lemma cash_payload p p' vals vals' s b b' : cashaddr_text p vals s -> cashaddr_text p' vals' s ->
  leading_bytes vals b -> leading_bytes vals' b' -> len b = Z.max 0 ((5 * len vals + 7) / 8 - 6) -> len b' = Z.max 0 ((5 * len vals' + 7) / 8 - 6) -> b = b'.
Proof.
  intros [G [_ E]] [G' [_ E']] L L' N N'. rewrite E in E'. change (lit ":") with [58] in E'. cbn [app] in E'.
  apply (split_last 58) in E'; [|apply LCashaddr.not_in_b32, G|apply LCashaddr.not_in_b32, G'].
  destruct E' as [_ E']. apply map_b32_inj in E'; [|exact G|exact G']. subst vals'.
  apply (LCashaddr.leading_bytes_unique vals); [assumption|assumption|congruence].
Qed.

Definition payments := [P2PKH; P2SH; P2WPKH; P2WSH].
Lemma payments_all k : In k payments. Proof. destruct k; cbn; auto. Qed.
Definition confused_b (a b : str) : bool := existsb (fun r => leqb a (lit (fst r)) && leqb b (lit (snd r))) confusable.
Lemma confused_b_ok a b : confused_b a b = true -> confused a b.
Proof.
  intros E. apply existsb_exists in E. destruct E as [[x y] [I E]]. apply andb_true_iff in E. cbn [fst snd] in E.
  destruct E as [E F]. apply leqb_eq in E, F. exists x, y. auto.
Qed.
Definition agree_b (a b : str) (k k' : payment) : bool :=
  match k, k' with
  | P2PKH, P2PKH | P2SH, P2SH | P2WPKH, P2WPKH | P2WSH, P2WSH => true
  | P2PKH, P2SH => confused_b a b
  | P2SH, P2PKH => confused_b b a
  | _, _ => false
  end.
Definition pair_b (a : str) (na : network) (b : str) (nb : network) : bool :=
  forallb (fun k => forallb (fun k' => forallb (fun v => forallb (fun v' =>
    if zlen v + hash_len k =? zlen v' + hash_len k' then negb (leqb v v') || agree_b a b k k' else true)
    (versions nb k')) (versions na k)) payments) payments.
Definition lengths_b (a : str) (na : network) (b : str) (nb : network) : bool :=
  forallb (fun k => forallb (fun k' => forallb (fun v => forallb (fun v' =>
    if zlen v + hash_len k =? zlen v' + hash_len k' then zlen v =? zlen v' else true)
    (versions nb k')) (versions na k)) payments) payments.

Lemma supported_forall2 (P : str -> network -> str -> network -> bool) :
  forallb (fun p => forallb (fun q => P (fst p) (snd p) (fst q) (snd q)) SUPPORTED) SUPPORTED = true ->
  forall a na b nb, get_network a = Ok na -> get_network b = Ok nb -> P a na b nb = true.
Proof.
  intros F a na b nb Ea Eb. apply get_network_In in Ea, Eb.
  rewrite forallb_forall in F. specialize (F _ Ea). rewrite forallb_forall in F. apply (F _ Eb).
Qed.
Lemma pairs_ok a na b nb : get_network a = Ok na -> get_network b = Ok nb -> pair_b a na b nb = true /\ lengths_b a na b nb = true.
Proof.
  intros Ea Eb. split.
  - revert Ea Eb. revert a na b nb. apply supported_forall2. vm_compute. reflexivity.
  - revert Ea Eb. revert a na b nb. apply supported_forall2. vm_compute. reflexivity.
Qed.
Lemma hrp_clean a na : get_network a = Ok na -> match BECH32_HRP na with Some h => zmem 58 h = false | None => True end.
Proof.
  intros E. pose proof (supported_forall (fun _ n => match BECH32_HRP n with Some h => negb (zmem 58 h) | None => true end) ltac:(vm_compute; reflexivity) a na E) as B.
  cbv beta in B. destruct (BECH32_HRP na); [|exact I]. destruct zmem; [discriminate|reflexivity].
Qed.

Section Two.
  Context (H : hashes) (a b : str) (na nb : network) (K : hashes_ok H).
  Context (Ea : get_network a = Ok na) (Eb : get_network b = Ok nb).

  (* Base58Check on one network, bech32 on the other *)
  Lemma base58_bech32 k w h p s hrp v prog : In w (versions na k) -> zlen h = hash_len k -> base58check_of H a (w ++ h) s ->
    BECH32_HRP nb = Some hrp -> segwit_address hrp v prog (lower s) -> p = witness_bytes v prog ->
    zlen p = 21 \/ zlen p = 22 \/ zlen p = 34 -> False.
  Proof using All.
    intros I L B Eh A -> Lp. destruct (sh_hrp _ _ (shapes b nb Eb)) as [[X _]|[hrp' [X [_ [Y Z]]]]]; [congruence|].
    rewrite Eh in X. injection X as <-.
    apply (accident_len H a na K Ea hrp v prog (w ++ h) s Y Z A B).
    - unfold witness_bytes in Lp. rewrite !zlen_cons in Lp. lia.
    - apply (payment_lengths H a na K Ea k w h I L).
  Qed.
End Two.

Lemma same_payload H a b na nb s k v h k' v' h' : hashes_ok H -> get_network a = Ok na -> get_network b = Ok nb ->
  In v (versions na k) -> zlen h = hash_len k -> address_text H a na s (v ++ h) ->
  In v' (versions nb k') -> zlen h' = hash_len k' -> address_text H b nb s (v' ++ h') -> v ++ h = v' ++ h'.
Proof.
  intros K Ea Eb I L T I' L' T'.
  pose proof (payment_lengths H a na K Ea k v h I L) as P. pose proof (payment_lengths H b nb K Eb k' v' h' I' L') as P'.
  assert (forall n m hrp w prog, get_network n = Ok m -> BECH32_HRP m = Some hrp -> segwit_address hrp w prog (lower s) -> ~ In 58 s) as NC.
  { intros n m hrp w prog En Eh A. apply (bech32_no_colon hrp w prog s); [|exact A].
    pose proof (hrp_clean n m En) as C. rewrite Eh in C. intros Q. apply zmem_In in Q. congruence. }
  assert (forall q vals, cashaddr_text q vals s -> In 58 s) as CC.
  { intros q vals [_ [_ ->]]. apply in_or_app. right. left. reflexivity. }
  destruct T as [T|hrp w prog Ee Eh Eq W C A|p sx vals Ep Ns T Lb Ln], T' as [T'|hrp' w' prog' Ee' Eh' Eq' W' C' A'|p' sx' vals' Ep' Ns' T' Lb' Ln'].
  - exact (base58_payload H a b _ _ s K T T').
  - destruct (base58_bech32 H a b na nb K Ea Eb k v h _ s hrp' w' prog' I L T Eh' A' Eq' P').
  - destruct (no_colon_base58 H a na K Ea _ _ T). eapply CC, T'.
  - destruct (base58_bech32 H b a nb na K Eb Ea k' v' h' _ s hrp w prog I' L' T' Eh A Eq P).
  - destruct (bech32_payload _ _ _ _ _ _ _ W W' A A') as [-> ->]. congruence.
  - destruct (NC a na hrp w prog Ea Eh A). eapply CC, T'.
  - destruct (no_colon_base58 H b nb K Eb _ _ T'). eapply CC, T.
  - destruct (NC b nb hrp' w' prog' Eb Eh' A'). eapply CC, T.
  - exact (cash_payload _ _ _ _ s _ _ T T' Lb Lb' Ln Ln').
Qed.

Lemma c59_lemma H a b na nb s x y : hashes_ok H -> get_network a = Ok na -> get_network b = Ok nb ->
  to_output_script H na s = Ok x -> to_output_script H nb s = Ok y ->
  x = y \/ (exists h, x = template P2PKH h /\ y = template P2SH h /\ confused a b) \/
  (exists h, x = template P2SH h /\ y = template P2PKH h /\ confused b a).
Proof.
  intros K Ea Eb X Y. apply (to_output_script_inv H a na K Ea) in X. apply (to_output_script_inv H b nb K Eb) in Y.
  destruct X as [k [v [h [-> [L [B [I T]]]]]]], Y as [k' [v' [h' [-> [L' [B' [I' T']]]]]]].
  change (zlen h = hash_len k) in L. change (zlen h' = hash_len k') in L'.
  pose proof (same_payload H a b na nb s k v h k' v' h' K Ea Eb I L T I' L' T') as E.
  destruct (pairs_ok a na b nb Ea Eb) as [F G]. unfold pair_b, lengths_b in F, G.
  rewrite forallb_forall in F, G. specialize (F k (payments_all k)). specialize (G k (payments_all k)).
  rewrite forallb_forall in F, G. specialize (F k' (payments_all k')). specialize (G k' (payments_all k')).
  rewrite forallb_forall in F, G. specialize (F v I). specialize (G v I).
  rewrite forallb_forall in F, G. specialize (F v' I'). specialize (G v' I').
  assert (zlen v + hash_len k = zlen v' + hash_len k') as Q. { rewrite <- L, <- L', <- !zlen_app, E. reflexivity. }
  rewrite (proj2 (Z.eqb_eq _ _) Q) in F, G. apply Z.eqb_eq in G. apply app_inj_zlen in E; [|exact G]. destruct E as [-> ->].
  rewrite leqb_refl in F. cbn [negb orb] in F. clear G Q I I' T T' L L' v' .
  destruct k, k'; cbn [agree_b] in F; try discriminate F; auto; apply confused_b_ok in F; right; [left|right]; eauto.
Qed.

(* a Base58Check text always pays *)
Lemma base58_pays H a na s k v h : hashes_ok H -> get_network a = Ok na -> In v (versions na k) -> len h = hash_len k ->
  base58check_of H a (v ++ h) s -> to_output_script H na s = Ok (template k h).
Proof.
  intros K Ea I L B. destruct (to_output_script_pays H a na K Ea s k v h I L (text_base58 _ _ _ _ _ B)) as [E|[_ [hrp [w [prog [p [Eh [Q [A _]]]]]]]]]; [exact E|].
  destruct (base58_bech32 H a a na na K Ea Ea k v h _ s hrp w prog I L B Eh A Q (payment_lengths H a na K Ea k v h I L)).
Qed.

Lemma confused_facts a b na nb : confused a b -> get_network a = Ok na -> get_network b = Ok nb ->
  P2PKH_PREFIX na = P2SH_PREFIX nb /\ ~ In a decred_names /\ ~ In b decred_names.
Proof.
  intros [x [y [I [-> ->]]]] Ea Eb.
  assert (forallb (fun r => match get_network (lit (fst r)), get_network (lit (snd r)) with
    | Ok m, Ok n => leqb (P2PKH_PREFIX m) (P2SH_PREFIX n) && negb (str_mem (lit (fst r)) decred_names) && negb (str_mem (lit (snd r)) decred_names)
    | _, _ => false end) confusable = true) as B by (vm_compute; reflexivity).
  rewrite forallb_forall in B. specialize (B _ I). cbn [fst snd] in B. rewrite Ea, Eb, !andb_true_iff in B. destruct B as [[B C] D].
  apply leqb_eq in B. rewrite <- !str_mem_In. split; [exact B|].
  split; intros Q; rewrite Q in *; discriminate.
Qed.

Lemma c59_refuted_lemma H a b na nb h : hashes_ok H -> confused a b -> get_network a = Ok na -> get_network b = Ok nb ->
  all_bytes h -> len h = 20 -> exists s, from_output_script H na (template P2PKH h) false = Ok (Some s) /\
    to_output_script H na s = Ok (template P2PKH h) /\ to_output_script H nb s = Ok (template P2SH h).
Proof.
  intros K C Ea Eb B L. destruct (confused_facts a b na nb C Ea Eb) as [E [Na Nb]].
  destruct (legacy_encode_text H a na K Ea (P2PKH_PREFIX na) h (sh_pkh_bytes _ _ (shapes a na Ea)) B) as [s [Q T]].
  exists s. split.
  - rewrite (from_output_script_looks H a na K Ea P2PKH h (template P2PKH h) false B L) by (cbn [looks_like template]; eauto).
    cbn [payment_address]. unfold make_pkh_address_of_hash. destruct (CASHADDR_P2PKH na); exact Q.
  - split.
    + apply (base58_pays H a na s P2PKH (P2PKH_PREFIX na) h K Ea); [left; reflexivity|exact L|exact T].
    + apply (base58_pays H b nb s P2SH (P2SH_PREFIX nb) h K Eb); [left; reflexivity|exact L|].
      rewrite <- E. unfold base58check_of in *. destruct (in_dec list_eq_dec_Z a decred_names); [contradiction|].
      destruct (in_dec list_eq_dec_Z b decred_names); [contradiction|]. exact T.
Qed.

(* C58 *)
Section Makers.
  Context (H : hashes) (name : str) (net : network) (K : hashes_ok H) (En : get_network name = Ok net).

  Lemma cash_dec : (exists p, cash_network name p) \/ forall p, ~ cash_network name p.
  Proof using All.
    pose proof (cash_known name net En) as B. unfold cash_is in B. destruct (CASHADDR_PREFIX net) as [p'|].
    - left. apply existsb_exists in B. destruct B as [[n q] [I B]]. apply andb_true_iff in B. destruct B as [A B]. apply leqb_eq in A, B. cbn [fst snd] in *.
      exists p', n, q. auto.
    - right. intros p [n [q [I [E _]]]]. rewrite forallb_forall in B. specialize (B _ I). cbn [fst] in B. rewrite <- E, leqb_refl in B. discriminate B.
  Qed.
  Lemma witness_some : exists w, witness_addresses name w.
  Proof using All.
    destruct (row_exists name net En) as [[[[n p] q] w] [I B]]. unfold row_is in B. rewrite !andb_true_iff in B.
    destruct B as [[[A _] _] _]. apply leqb_eq in A. exists w, n, p, q. auto.
  Qed.

  Lemma payment_network k h ca : all_bytes h -> len h = hash_len k -> ca = false \/ (forall p, ~ cash_network name p) ->
    (exists s, payment_address H net k h ca = Ok (Some s) /\ network_address H name k h s) \/
    (is_witness_payment k = true /\ witness_addresses name no_witness /\ payment_address H net k h ca = Err ValueError).
  Proof using All.
    intros B L C. destruct k; cbn [is_witness_payment].
    - destruct (pkh_legacy H name net K En h false ca B eq_refl C) as [v [s [V [E T]]]]. left. exists s. split; [exact E|]. exists v. auto.
    - destruct (sh_legacy H name net K En h false ca B eq_refl C) as [v [s [V [E T]]]]. left. exists s. split; [exact E|]. exists v. auto.
    - destruct witness_some as [w W]. pose proof (witness_payment H name net K En P2WPKH h ca w eq_refl B L W C) as P. destruct w.
      + right. auto.
      + left. destruct P as [s [E A]]. exists s. split; [exact E|]. exists (bech32_witness hrp). auto.
      + left. destruct P as [s [E A]]. exists s. split; [exact E|]. exists base58_witness. auto.
    - destruct witness_some as [w W]. pose proof (witness_payment H name net K En P2WSH h ca w eq_refl B L W C) as P. destruct w.
      + right. auto.
      + left. destruct P as [s [E A]]. exists s. split; [exact E|]. exists (bech32_witness hrp). auto.
      + left. destruct P as [s [E A]]. exists s. split; [exact E|]. exists base58_witness. auto.
  Qed.

  Lemma pkh_is pubkey w ca : make_pkh_address H net pubkey w ca = payment_address H net (if w then P2WPKH else P2PKH) (key_hash H name pubkey) ca.
  Proof using All. unfold make_pkh_address. rewrite (hash160_key_hash H name net pubkey En). destruct w; reflexivity. Qed.
  Lemma sh_is script b w ca : serialize net script = Ok b ->
    make_sh_address H net script w ca = payment_address H net (if w then P2WSH else P2SH) (if w then h_sha256 H b else key_hash H name b) ca.
  Proof using All.
    intros E. unfold make_sh_address. rewrite E. cbn [bind]. unfold ser_script_to_sh_address. rewrite (hash160_key_hash H name net b En).
    destruct w; reflexivity.
  Qed.
End Makers.

Lemma c58_legacy_lemma H name net : hashes_ok H -> get_network name = Ok net ->
  (forall pubkey, exists s, make_legacy_p2pkh_address H net pubkey = Ok (Some s) /\
    network_address H name P2PKH (key_hash H name pubkey) s) /\
  (forall script b, serialize net script = Ok b -> exists s, make_legacy_p2sh_address H net script = Ok (Some s) /\
    network_address H name P2SH (key_hash H name b) s).
Proof.
  intros K En. split.
  - intros m. unfold make_legacy_p2pkh_address. rewrite (pkh_is H name net K En). destruct (key_hash_ok H name m K) as [B L].
    destruct (payment_network H name net K En P2PKH _ false B L (or_introl eq_refl)) as [X|[X _]]; [exact X|discriminate X].
  - intros m b Eb. unfold make_legacy_p2sh_address. rewrite (sh_is H name net K En m b _ _ Eb). destruct (key_hash_ok H name b K) as [B L].
    destruct (payment_network H name net K En P2SH _ false B L (or_introl eq_refl)) as [X|[X _]]; [exact X|discriminate X].
Qed.
Lemma c58_plain_lemma H name net : hashes_ok H -> get_network name = Ok net -> (forall p, ~ cash_network name p) ->
  (forall pubkey, exists s, make_p2pkh_address H net pubkey = Ok (Some s) /\
    network_address H name P2PKH (key_hash H name pubkey) s) /\
  (forall script b, serialize net script = Ok b -> exists s, make_p2sh_address H net script = Ok (Some s) /\
    network_address H name P2SH (key_hash H name b) s).
Proof.
  intros K En N. split.
  - intros m. unfold make_p2pkh_address. rewrite (pkh_is H name net K En). destruct (key_hash_ok H name m K) as [B L].
    destruct (payment_network H name net K En P2PKH _ true B L (or_intror N)) as [X|[X _]]; [exact X|discriminate X].
  - intros m b Eb. unfold make_p2sh_address. rewrite (sh_is H name net K En m b _ _ Eb). destruct (key_hash_ok H name b K) as [B L].
    destruct (payment_network H name net K En P2SH _ true B L (or_intror N)) as [X|[X _]]; [exact X|discriminate X].
Qed.
Lemma c58_cash_lemma H name net p : hashes_ok H -> get_network name = Ok net -> cash_network name p ->
  (forall pubkey, exists s, make_p2pkh_address H net pubkey = Ok (Some s) /\ make_p2wpkh_address H net pubkey = Ok (Some s) /\
    cashaddr_of p (0 :: key_hash H name pubkey) s) /\
  (forall script b, serialize net script = Ok b ->
    (exists s, make_p2sh_address H net script = Ok (Some s) /\ cashaddr_of p (8 :: key_hash H name b) s) /\
    (exists s, make_p2wsh_address H net script = Ok (Some s) /\ cashaddr_of p (8 :: h_sha256 H b) s)).
Proof.
  intros K En C. split.
  - intros m. unfold make_p2pkh_address, make_p2wpkh_address. rewrite !(pkh_is H name net K En). destruct (key_hash_ok H name m K) as [B L].
    destruct (cash_payment H name net K En P2PKH _ p B C) as [s [E A]]. exists s. split; [exact E|]. split; [|exact A].
    rewrite <- E. cbn [payment_address]. unfold make_pkh_address_of_hash.
    destruct (sh_cash _ _ (shapes name net En)) as [[_ [_ X]]|[_ [Y _]]]; [pose proof (cash_some H name net K En p C); congruence|]. rewrite Y. reflexivity.
  - intros m b Eb. unfold make_p2sh_address, make_p2wsh_address. rewrite !(sh_is H name net K En m b _ _ Eb).
    split; [apply (cash_payment H name net K En P2SH _ p); [apply key_hash_ok, K|exact C]|apply (cash_payment H name net K En P2WSH _ p); [apply script_hash_ok, K|exact C]].
Qed.
Lemma c58_witness_lemma H name net : hashes_ok H -> get_network name = Ok net -> (forall p, ~ cash_network name p) ->
  (forall pubkey,
    (witness_addresses name no_witness /\ make_p2wpkh_address H net pubkey = Err ValueError) \/
    (exists s, make_p2wpkh_address H net pubkey = Ok (Some s) /\ network_address H name P2WPKH (key_hash H name pubkey) s)) /\
  (forall script b, serialize net script = Ok b ->
    (witness_addresses name no_witness /\ make_p2wsh_address H net script = Err ValueError) \/
    (exists s, make_p2wsh_address H net script = Ok (Some s) /\ network_address H name P2WSH (h_sha256 H b) s)).
Proof.
  intros K En N. split.
  - intros m. unfold make_p2wpkh_address. rewrite (pkh_is H name net K En). destruct (key_hash_ok H name m K) as [B L].
    destruct (payment_network H name net K En P2WPKH _ true B L (or_intror N)) as [X|[_ X]]; [right; exact X|left; exact X].
  - intros m b Eb. unfold make_p2wsh_address. rewrite (sh_is H name net K En m b _ _ Eb). destruct (script_hash_ok H b K) as [B L].
    destruct (payment_network H name net K En P2WSH _ true B L (or_intror N)) as [X|[_ X]]; [right; exact X|left; exact X].
Qed.
Lemma c58_script_lemma H name net k h cashaddr : hashes_ok H -> get_network name = Ok net ->
  all_bytes h -> len h = hash_len k ->
  (exists p s, cashaddr = true /\ cash_network name p /\
     from_output_script H net (template k h) cashaddr = Ok (Some s) /\ cashaddr_of p (cash_kind k :: h) s) \/
  ((cashaddr = false \/ forall p, ~ cash_network name p) /\
   ((exists s, from_output_script H net (template k h) cashaddr = Ok (Some s) /\ network_address H name k h s) \/
    (is_witness_payment k = true /\ witness_addresses name no_witness /\
     from_output_script H net (template k h) cashaddr = Err ValueError))).
Proof.
  intros K En B L. rewrite (from_output_script_looks H name net K En k h (template k h) cashaddr B L) by (destruct k; cbn [looks_like template]; eauto).
  destruct (cash_dec H name net K En) as [[p C]|N].
  - destruct cashaddr.
    + left. destruct (cash_payment H name net K En k h p B C) as [s [E A]]. exists p, s. auto.
    + right. split; [left; reflexivity|]. apply payment_network; auto.
  - right. split; [right; exact N|]. apply payment_network; auto.
Qed.
Lemma c58_unique_lemma name net : get_network name = Ok net ->
  (exists v w, legacy_version name P2PKH v /\ legacy_version name P2SH w /\ v <> w) /\
  (forall k v w, legacy_version name k v -> legacy_version name k w -> v = w) /\
  (forall v w, witness_addresses name v -> witness_addresses name w -> v = w).
Proof.
  intros En. split; [|split].
  - destruct (versions_known toy name net toy_ok En) as [A B]. exists (P2PKH_PREFIX net), (P2SH_PREFIX net). split; [exact A|split; [exact B|]].
    destruct (LAddr.sh_legacy _ _ (shapes name net En)) as [[a [b [-> [-> [N _]]]]]|[_ [a [a' [b [b' [-> [-> [N _]]]]]]]]]; congruence.
  - intros k v w [n [p [q [x [I [E ->]]]]]] [n' [p' [q' [x' [I' [E' ->]]]]]].
    pose proof (row_fun name _ _ _ _ _ _ _ _ I I' E E') as Q. injection Q as <- <- <- <-. reflexivity.
  - intros v w [n [p [q [I E]]]] [n' [p' [q' [I' E']]]].
    pose proof (row_fun name _ _ _ _ _ _ _ _ I I' E E') as Q. injection Q as <- <- <- <-. reflexivity.
Qed.
