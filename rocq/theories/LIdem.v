(* Lemmas about MTx.v: what was parsed from any bytes is parsed again as itself *)
From Coq Require Import String.
From Verif Require Import Py LBase MNet MUtils MShared MScript MTx SNum SNet SScript STx LNet LUtils LVarint LScript LBase58 LTx LVarRead LTxParse LTrunc LTrunc2 SIdem.
Open Scope list_scope.
Open Scope Z_scope.
Ltac Zify.zify_post_hook ::= idtac.

(** * script sigs *)

(* the tokens of a text that serialize accepts are those of standard elements *)
Lemma token_element name net w x : get_network name = Ok net -> is_text name w -> serialize_token net w = Ok x ->
  exists e, standard_element name e /\ x = wire e /\ w = text e.
Proof.
  intros En T E. pose proof E as E0. destruct T as [[c [n [I [N ->]]]]|[d [B ->]]].
  - rewrite (op_serial _ _ _ (op_facts_of _ _ _ _ En I) N) in E. apply Ok_inj in E. subst.
    exists (Op c n). split; [split; assumption|split; reflexivity].
  - rewrite (serialize_token_data name) in E by assumption.
    destruct (Z_le_dec (zlen d) 0) as [Z|NZ].
    { pose proof (zlen_nonneg d). destruct d; [|rewrite zlen_cons in Z; pose proof (zlen_nonneg d); lia].
      rewrite serialize_push_0 in E. discriminate. }
    destruct (Z_lt_dec 1000 (zlen d)) as [G|G]; [rewrite serialize_push_big in E by exact G; discriminate|].
    rewrite serialize_push_small in E by (try exact B; norm_spec; lia). apply Ok_inj in E. subst.
    exists (Push (smallest d) d). split; [|split; reflexivity]. split; [exact B|split; [norm_spec; lia|reflexivity]].
Qed.

Lemma tokens_elements name net ws xs : get_network name = Ok net -> Forall (is_text name) ws ->
  mapM (serialize_token net) ws = Ok xs -> exists es, Forall (standard_element name) es /\ xs = map wire es /\ ws = map text es.
Proof.
  intros En F. revert xs. induction F as [|w ws Fw F IH]; intros xs E.
  - apply Ok_inj in E. subst. exists []. split; [constructor|split; reflexivity].
  - cbn [mapM] in E. apply bind_Ok in E. destruct E as [x [E1 E]]. apply bind_Ok in E. destruct E as [ys [E2 E]].
    apply Ok_inj in E. subst. destruct (token_element _ _ _ _ En Fw E1) as [e [S [-> Ew]]].
    destruct (IH _ E2) as [es [Fs [-> Es]]]. exists (e :: es). split; [constructor; assumption|]. cbn [map]. split; congruence.
Qed.

(* the words of any script that can be read *)
Lemma script_words name net s t : get_network name = Ok net -> is_bytes s -> deserialize net s = Ok t ->
  exists ws, ws = split_ws t /\ Forall (is_text name) ws /\ Forall (fun w => w <> []) ws.
Proof.
  intros En B D. destruct (decompose name net s En B) as [es [r [out [-> [F E]]]]].
  assert (is_bytes r) as Br by (eapply is_bytes_app; exact B).
  rewrite (deserialize_ending name net es r out En F Br E) in D. destruct out as [ws|]; [|discriminate].
  cbn [texts] in D. apply Ok_inj in D. subst t.
  assert (Forall (is_text name) (map text es ++ ws)) as T by (apply Forall_app; split; [apply texts_all, F|eapply ending_texts; eassumption]).
  exists (filter nonempty (map text es ++ ws)). split; [|split].
  - symmetry. apply split_ws_join. eapply Forall_impl; [|exact T]. intros w. apply (is_text_space name net w En).
  - apply Forall_filter, T.
  - apply Forall_forall. intros w I. apply filter_In in I. destruct I as [_ I]. intros ->. discriminate I.
Qed.

Lemma last_split {A} (l : list A) x : index l (-1) = Ok x -> exists l', l = l' ++ [x].
Proof.
  destruct (rev l) as [|y r] eqn:R.
  - apply (f_equal (@rev A)) in R. rewrite rev_involutive in R. subst l. discriminate.
  - assert (l = rev r ++ [y]) as E by (apply (f_equal (@rev A)) in R; rewrite rev_involutive in R; exact R).
    rewrite E, index_last. intros X. apply Ok_inj in X. subst y. eauto.
Qed.

(* the split of a script sig is stable *)
Lemma parse_script_sig_again name net s a b : get_network name = Ok net -> is_bytes s ->
  TxIn_parse_script_sig net s = Ok (a, b) -> (a = s /\ b = []) \/
  exists es e, Forall (standard_element name) (es ++ [e]) /\ a = concat (map wire es) /\ b = wire e /\
    (exists t, deserialize net s = Ok t /\ split_ws t = map text (es ++ [e])) /\
    TxIn_parse_script_sig net (a ++ b) = Ok (a, b).
Proof.
  intros En B P. pose proof P as P0. unfold TxIn_parse_script_sig in P.
  match type of P with match ?x with Ok _ => _ | Err _ => _ end = _ => destruct x as [[a' b']|x'] eqn:At end.
  2:{ left. destruct x'; try discriminate P; apply Ok_inj in P; injection P as <- <-; auto. }
  right. apply Ok_inj in P. injection P as -> ->.
  apply bind_Ok in At. destruct At as [t [D At]]. cbv zeta in At.
  destruct (script_words name net s t En B D) as [ws [Ew [Tw Nw]]]. rewrite <- Ew in At.
  apply bind_Ok in At. destruct At as [last [L At]]. apply bind_Ok in At. destruct At as [h [Hx At]].
  apply bind_Ok in At. destruct At as [st [S1 At]]. apply bind_Ok in At. destruct At as [rd [S2 At]].
  apply Ok_inj in At. injection At as -> ->.
  apply last_split in L. destruct L as [ws0 Ews]. rewrite Ews in Ew, Tw, Nw, S1. clear Ews ws.
  apply Forall_app in Tw. destruct Tw as [Tw Tl]. inversion Tl as [|? ? Tlast _]; subst.
  apply Forall_app in Nw. destruct Nw as [Nw Nl]. inversion Nl as [|? ? Nlast _]; subst.
  rewrite slice_to_neg_app in S1 by (try reflexivity; lia).
  assert (forall w, w <> [] -> nonempty w = true) as NE by (intros w Hw; unfold nonempty; rewrite leqb_false by exact Hw; reflexivity).
  rewrite (serialize_texts name) in S1 by assumption.
  rewrite filter_all in S1 by (eapply Forall_impl; [|exact Nw]; exact NE).
  apply bind_Ok in S1. destruct S1 as [xs [X1 X2]]. apply Ok_inj in X2.
  apply (tokens_elements name) in X1; [|exact En|exact Tw]. destruct X1 as [es [F1 [-> Et]]].
  assert (serialize net last = serialize net (join (lit " ") [last])) as J by reflexivity. rewrite J in S2.
  rewrite (serialize_texts name) in S2; [|exact En|constructor; [exact Tlast|constructor]].
  cbn [filter] in S2. rewrite (NE last Nlast) in S2. cbn [mapM bind] in S2.
  apply bind_Ok in S2. destruct S2 as [ys [Y1 Y2]]. apply bind_Ok in Y1. destruct Y1 as [y [Y1 Y3]]. apply Ok_inj in Y2, Y3. subst ys.
  cbn [concat] in Y2. rewrite app_nil_r in Y2.
  apply (token_element name) in Y1; [|exact En|exact Tlast]. destruct Y1 as [e [Se [-> El]]].
  assert (Forall (standard_element name) (es ++ [e])) as F by (apply Forall_app; split; [exact F1|constructor; [exact Se|constructor]]).
  exists es, e. split; [exact F|]. split; [symmetry; exact X2|]. split; [symmetry; exact Y2|]. split.
  { exists t. split; [exact D|]. rewrite <- Ew, map_app, Et, El. reflexivity. }
  subst a b.
  assert (concat (map wire es) ++ wire e = concat (map wire (es ++ [e]))) as Ec by (rewrite map_app, concat_app; cbn [map concat]; rewrite app_nil_r; reflexivity).
  rewrite Ec, (parse_script_sig_canonical name) by assumption.
  replace (redeem_of net e) with true; [reflexivity|]. symmetry. subst last. destruct e as [c n|f d]; cbn [text redeem_of] in *.
  - unfold hex_deserialize in Hx. cbn [standard_element] in Se. rewrite (fromhex_opname name net c n En) in Hx by apply Se. discriminate Hx.
  - unfold hex_deserialize in Hx. destruct Se as [Bd _]. rewrite fromhex_hex in Hx by exact Bd. cbn [bind] in Hx. rewrite Hx. reflexivity.
Qed.

(** * parts *)

Lemma is_bytes_slice (b : bytes) i j : is_bytes b -> 0 <= i -> 0 <= j -> is_bytes (slice b i j).
Proof.
  intros B I J. unfold is_bytes in *. rewrite Forall_forall in *. intros x X. apply B. rewrite slice_firstn in X by lia.
  rewrite <- (firstn_skipn (Z.to_nat i) b). apply in_or_app. right.
  rewrite <- (firstn_skipn (Z.to_nat (j - i)) (skipn (Z.to_nat i) b)). apply in_or_app. left. exact X.
Qed.

Lemma is_bytes_slice_from (b : bytes) i : is_bytes b -> 0 <= i -> is_bytes (slice_from b i).
Proof.
  intros B I. unfold is_bytes in *. rewrite Forall_forall in *. intros x X. apply B.
  destruct (Z.leb_spec (zlen b) i) as [L|L]; [rewrite slice_beyond in X by exact L; destruct X|].
  rewrite <- (firstn_skipn (Z.to_nat i) b). apply in_or_app. right.
  replace (slice_from b i) with (skipn (Z.to_nat i) b) in X; [exact X|].
  symmetry. rewrite <- (firstn_skipn (Z.to_nat i) b) at 1. apply slice_from_app. unfold zlen in *. rewrite firstn_length. lia.
Qed.

Lemma Outpoint_again b o : Outpoint_from_bytes b = Ok o -> outpoint_obj o.
Proof.
  intros E. unfold Outpoint_from_bytes in E. unfold outpoint_obj. pose proof E as E1. rewrite Outpoint_spec in E1.
  destruct (_ && _) in E1; [|discriminate]. apply Ok_inj in E1. subst o. exact E.
Qed.

(* an input read from any bytes is an object, and is read as itself again *)
Lemma TxIn_again name net b i : get_network name = Ok net -> is_bytes b -> TxIn_from_bytes net b = Ok i ->
  txin_obj i /\ (readable net (zlen (ti_script_sig i)) -> forall r, TxIn_from_bytes net (ti_bytes i ++ r) = Ok i).
Proof.
  intros En B E. unfold TxIn_from_bytes in E. apply bind_Ok in E. destruct E as [o [Eo E]].
  apply bind_Ok in E. destruct E as [v [V E]]. pose proof (VarInt_read_shape _ _ _ V) as [V1 [V2 _]].
  cbv zeta in E. set (s := slice b (36 + _) _) in E. set (q := slice b _ _) in E.
  assert (is_bytes s) as Bs by (unfold s; apply is_bytes_slice; [exact B|lia|lia]).
  apply bind_Ok in E. destruct E as [[st rd] [Sp E]].
  assert (outpoint_obj o) as Oo by exact (Outpoint_again _ _ Eo).
  pose proof E as E1. rewrite TxIn_spec in E1. destruct (_ && _) in E1; [|discriminate]. apply Ok_inj in E1.
  assert (ti_script_sig i = st ++ rd) as Si by (subst i; reflexivity).
  assert (ti_outpoint i = o) as Oi by (subst i; reflexivity). assert (ti_sequence i = q) as Qi by (subst i; reflexivity).
  assert (txin_obj i) as O.
  { unfold txin_obj. subst i. cbn [txin_of ti_outpoint ti_stack_script ti_redeem_script ti_sequence]. split; [exact Oo|exact E]. }
  split; [exact O|]. intros R r. rewrite TxIn_parse_raw by assumption. rewrite Si, Oi, Qi. clear E1 R.
  destruct (leqb_spec s []) as [Z|N].
  { apply Ok_inj in Sp. injection Sp as <- <-. exact E. }
  unfold Outpoint_null in Sp. rewrite Outpoint_spec in Sp.
  change ((zlen (zrepeat 0 32) =? 32) && (zlen (zrepeat 255 4) =? 4)) with true in Sp. cbn [bind op_bytes] in Sp.
  destruct (leqb (op_bytes o) (zrepeat 0 32 ++ zrepeat 255 4)) eqn:Nl.
  { apply Ok_inj in Sp. injection Sp as <- <-. rewrite app_nil_r. rewrite leqb_false by exact N. exact E. }
  destruct (parse_script_sig_again name net s st rd En Bs Sp) as [[-> ->]|[es [e [F [-> [-> [_ P]]]]]]].
  - rewrite app_nil_r, leqb_false, Sp by exact N. exact E.
  - rewrite P. rewrite leqb_false; [exact E|]. intros Z. apply app_eq_nil in Z. destruct Z as [_ Z].
    destruct e as [|[] ?]; discriminate Z.
Qed.

(** * sizes *)

Lemma zlen_pad_to b k : k <= zlen (pad_to b k).
Proof.
  unfold pad_to. rewrite zlen_app. unfold zrepeat, zlen. rewrite repeat_length. lia.
Qed.

Lemma le2i_small (b : bytes) n : is_bytes b -> zlen b <= n -> le2i b false < 256 ^ n.
Proof.
  intros B L. pose proof (zlen_nonneg b). unfold le2i, from_bytes. pose proof (from_le_range b B) as X.
  eapply Z.lt_le_trans; [apply X|]. apply Z.pow_le_mono_r; lia.
Qed.

(* a number is never read from less space than its CompactSize takes *)
Lemma VarInt_read_size net b v : is_bytes b -> VarInt_from_bytes net b = Ok v ->
  zlen (compactsize (vi_number v)) <= zlen (vi_bytes v).
Proof.
  intros B E. pose proof (VarInt_read_shape _ _ _ E) as [V0 [V1 _]]. unfold VarInt_from_bytes in E.
  apply bind_Ok in E. destruct E as [f [F E]].
  match type of E with (match ?x with pair _ _ => _ end) = _ => destruct x as [num nc] eqn:X end.
  assert (is_bytes num) as Bn.
  { destruct (f <=? 252); [injection X as <- _; apply is_bytes_slice; [exact B|lia|lia]|].
    destruct (f =? 253); [injection X as <- _; apply is_bytes_slice; [exact B|lia|lia]|].
    destruct (f =? 254); injection X as <- _; apply is_bytes_slice; (exact B || lia). }
  clear X. destruct (negb (zmem (zlen num) [1; 2; 4; 8])) eqn:M; [discriminate E|]. cbn [guard bind] in E.
  destruct (nc && compact_only net); [discriminate E|]. cbn [guard bind] in E.
  pose proof (VarInt_shape _ _ _ E) as [Vn _]. pose proof (le2i_small num 2 Bn) as S2. rewrite <- Vn in E, S2.
  set (n := vi_number v) in *. set (l := if nc then zlen num + 1 else 0) in *.
  assert (l = 3 -> n < 65536) as L3.
  { unfold l. destruct nc; [|lia]. intros L. change (256 ^ 2) with 65536 in S2. apply S2. lia. }
  rewrite zlen_compactsize. unfold VarInt in E. cbv zeta in E.
  destruct (n <? 0) eqn:N; [discriminate E|]. cbn [guard bind] in E.
  destruct (0xffffffffffffffff <? n) eqn:N'; [discriminate E|]. cbn [guard bind] in E.
  destruct (Z.leb_spec n 252).
  - destruct (Z.ltb_spec n 253); lia.
  - destruct (Z.ltb_spec n 253); [lia|]. cbn [orb] in E. change (2 ^ 16) with 65536. change (2 ^ 32) with 4294967296.
    destruct ((n <=? 65535) || (l =? 3)) eqn:C3.
    { destruct (Z.ltb_spec n 65536); [|lia]. apply bind_Ok in E. destruct E as [x [_ E]]. apply Ok_inj in E. rewrite <- E. apply zlen_pad_to. }
    destruct (Z.ltb_spec n 65536); [lia|].
    destruct ((n <=? 4294967295) || (l =? 5)) eqn:C5.
    { apply bind_Ok in E. destruct E as [x [_ E]]. apply Ok_inj in E. rewrite <- E. cbn [vi_bytes].
      destruct (Z.ltb_spec n 4294967296); [apply zlen_pad_to|]. exfalso.
      assert (l = 5) as L5 by lia. pose proof (le2i_small num 4 Bn) as S4. rewrite <- Vn in S4.
      change (256 ^ 4) with 4294967296 in S4. fold n in S4. unfold l in L5. destruct nc; lia. }
    destruct (Z.ltb_spec n 4294967296); [lia|]. destruct ((n <=? 18446744073709551615) || (l =? 9)) eqn:C9; [|lia].
    apply bind_Ok in E. destruct E as [x [_ E]]. apply Ok_inj in E. rewrite <- E. apply zlen_pad_to.
Qed.

Lemma from_le_zero (l : bytes) : is_bytes l -> from_le l = 0 -> l = repeat 0 (length l).
Proof.
  induction l as [|x l IH]; intros B E; [reflexivity|]. cbn [from_le] in E. inversion B as [|? ? Bx Bl]; subst. unfold is_byte in Bx.
  pose proof (from_le_range l Bl) as [P _]. cbn [length repeat]. assert (x = 0) as -> by lia. f_equal. apply IH; [exact Bl|lia].
Qed.

(* a number that an upgraded Zcash network would refuse can only be read at the very end *)
Lemma VarInt_read_readable net b v : is_bytes b -> VarInt_from_bytes net b = Ok v -> readable net (vi_number v) \/ zlen b <= 5.
Proof.
  intros B E. unfold readable. destruct (compact_only net) eqn:C; [|left; left; reflexivity].
  destruct (Z_lt_dec 5 (zlen b)) as [L|L]; [|right; lia]. left. right. intros N.
  destruct b as [|first rest]; [rewrite zlen_nil in L; lia|]. rewrite zlen_cons in L.
  assert (is_byte first) as Bf by (inversion B; assumption). assert (is_bytes rest) as Br by (inversion B; assumption).
  assert (forall k j, (first = 253 /\ k = 2%nat /\ j = 1%nat) \/ (first = 254 /\ k = 4%nat /\ j = 2%nat) \/ (first = 255 /\ k = 8%nat /\ j = 4%nat) -> False) as X.
  { intros k j K. rewrite (varint_wide_read net first rest k j K) in E. cbv zeta in E. rewrite C, andb_true_r in E.
    set (x := firstn k rest) in *. assert (is_bytes x) as Bx by (unfold is_bytes in *; rewrite Forall_forall in *; intros y Y; apply Br; rewrite <- (firstn_skipn k rest); apply in_or_app; left; exact Y).
    destruct (negb (zmem (zlen x) [1; 2; 4; 8])) eqn:M; [discriminate E|]. cbn [guard bind] in E.
    destruct (leqb (slice_from x (- Z.of_nat j)) (repeat 0 j)) eqn:Zr; [discriminate E|]. cbn [guard bind] in E.
    apply VarInt_shape in E. destruct E as [En _]. rewrite En in N.
    assert (length x = k) as Lx.
    { unfold x. unfold zlen in L. assert (zlen x <> 5 /\ zlen x <> 6 /\ zlen x <> 7) as Nx.
      { apply negb_false_iff in M. unfold zmem in M. cbn [existsb] in M. lia. }
      unfold x, zlen in Nx. rewrite firstn_length in Nx |- *. destruct K as [[_ [-> _]]|[[_ [-> _]]|[_ [-> _]]]]; lia. }
    enough (leqb (slice_from x (- Z.of_nat j)) (repeat 0 j) = true) by congruence.
    apply top_zero; [destruct K as [[_ [_ ->]]|[[_ [_ ->]]|[_ [_ ->]]]]; lia|].
    assert (0 < k)%nat as K0 by (destruct K as [[_ [-> _]]|[[_ [-> _]]|[_ [-> _]]]]; lia).
    destruct x as [|x0 x']; [cbn in Lx; lia|]. cbn [from_le] in N. assert (is_bytes x') as Bx' by (inversion Bx; assumption).
    assert (is_byte x0) as Bx0 by (inversion Bx; assumption). unfold is_byte in Bx0. pose proof (from_le_range x' Bx') as [P _].
    assert (from_le x' = 0) as Z0 by lia. apply from_le_zero in Z0; [|exact Bx'].
    rewrite Z0. cbn [length] in Lx.
    exists (x0 :: repeat 0 (length x' - j)). cbn [app]. f_equal. rewrite <- repeat_app. f_equal.
    destruct K as [[_ [-> ->]]|[[_ [-> ->]]|[_ [-> ->]]]]; lia. }
  unfold is_byte in Bf. destruct (Z.leb_spec first 252) as [F|F].
  - unfold VarInt_from_bytes in E. rewrite index_0 in E. cbn [bind] in E. destruct (Z.leb_spec first 252); [|lia].
    rewrite slice_firstn in E by lia. change (firstn (Z.to_nat (1 - 0)) (skipn (Z.to_nat 0) (first :: rest))) with [first] in E. cbn in E. apply VarInt_shape in E. destruct E as [E _]. rewrite E in N. 
    cbn in N. lia.
  - destruct (Z.eq_dec first 253); [apply (X 2%nat 1%nat); auto|]. destruct (Z.eq_dec first 254); [apply (X 4%nat 2%nat); auto|].
    apply (X 8%nat 4%nat). right. right. split; [lia|auto].
Qed.

Lemma zlen_compactsize_mono a b : a <= b -> zlen (compactsize a) <= zlen (compactsize b).
Proof.
  intros L. rewrite !zlen_compactsize. change (2 ^ 16) with 65536. change (2 ^ 32) with 4294967296.
  destruct (Z.ltb_spec a 253), (Z.ltb_spec b 253), (Z.ltb_spec a 65536), (Z.ltb_spec b 65536), (Z.ltb_spec a 4294967296), (Z.ltb_spec b 4294967296); lia.
Qed.

(* the standard form of an element is its shortest *)
Lemma push_smallest d f : push_fits f d -> zlen (wire (Push (smallest d) d)) <= zlen (wire (Push f d)).
Proof.
  intros [B F]. norm_spec. cbn [wire]. unfold smallest. norm_spec.
  assert (forall g, zlen (push g d) = zlen d + match g with Direct => 1 | Pushdata1 => 2 | Pushdata2 => 3 end) as P.
  { intros []; cbn [push]; rewrite ?zlen_cons, ?zlen_app; [lia|lia|]. change (zlen (le_bytes 2 (len d))) with 2. lia. }
  rewrite !P. destruct f; destruct (Z.leb_spec (zlen d) 75); try lia; destruct (Z.leb_spec (zlen d) 255); lia.
Qed.

Lemma element_length name net e0 e : get_network name = Ok net -> element_ok name e0 -> standard_element name e ->
  text e0 = text e -> zlen (wire e) <= zlen (wire e0).
Proof.
  intros En K S T. destruct e0 as [c n|f d], e as [c' n'|f' d']; cbn [text] in T.
  - reflexivity.
  - exfalso. destruct K as [I _]. destruct S as [B _]. pose proof (fromhex_opname _ _ _ _ En I) as X. rewrite T, fromhex_hex in X by exact B. discriminate X.
  - exfalso. destruct S as [I _]. destruct K as [B _]. pose proof (fromhex_opname _ _ _ _ En I) as X. rewrite <- T, fromhex_hex in X by exact B. discriminate X.
  - destruct S as [B [_ ->]]. apply hex_inj in T; [|apply K|exact B]. subst d'. apply push_smallest, K.
Qed.

Lemma filter_nonempty_cons w ws : w <> [] -> filter nonempty (w :: ws) = w :: filter nonempty ws.
Proof. intros N. cbn [filter]. unfold nonempty at 1. rewrite leqb_false by exact N. reflexivity. Qed.

Lemma words_length name net es0 r ws es : get_network name = Ok net -> Forall (element_ok name) es0 -> ending name r (Ok ws) -> is_bytes r ->
  Forall (standard_element name) es -> filter nonempty (map text es0 ++ ws) = map text es ->
  zlen (concat (map wire es)) <= zlen (concat (map wire es0)) + zlen r.
Proof.
  intros En F0 E Br. revert es. induction F0 as [|e0 es0 K0 F0 IH]; intros es F X.
  - cbn [map concat app] in *. rewrite zlen_nil. pose proof (zlen_nonneg r).
    assert (forall d, is_bytes d -> (d = [] \/ zlen (wire (Push (smallest d) d)) <= zlen r) -> ws = [hex d] -> zlen (concat (map wire es)) <= 0 + zlen r) as D.
    { intros d Bd Hd ->. destruct Hd as [->|Hd].
      - cbn in X. destruct es; [cbn [map concat]; rewrite zlen_nil; lia|discriminate].
      - destruct (list_eq_dec Z.eq_dec d []) as [->|Nd].
        { cbn in X. destruct es; [cbn [map concat]; rewrite zlen_nil; lia|discriminate]. }
        rewrite filter_nonempty_cons in X.
        2:{ destruct d; [contradiction|]. discriminate. }
        cbn [filter] in X. destruct es as [|e [|e' es]]; try discriminate X. cbn [map] in X. injection X as X.
        cbn [map concat]. rewrite app_nil_r. inversion F as [|? ? Se _]; subst. destruct e as [c n|f d'].
        + exfalso. destruct Se as [I _]. pose proof (fromhex_opname _ _ _ _ En I) as Y. cbn [text] in X. rewrite <- X, fromhex_hex in Y by exact Bd. discriminate Y.
        + cbn [text] in X. destruct Se as [Bd' [_ ->]]. apply hex_inj in X; [|exact Bd|exact Bd']. subst d'. lia. }
    assert (forall d, zlen (wire (Push (smallest d) d)) <= zlen d + (if zlen d <=? 255 then 2 else 3)) as P.
    { intros d. cbn [wire]. unfold smallest. norm_spec. destruct (Z.leb_spec (zlen d) 75).
      - cbn [push]. rewrite zlen_cons. destruct (zlen d <=? 255); lia.
      - destruct (Z.leb_spec (zlen d) 255); cbn [push]; rewrite ?zlen_cons, ?zlen_app; [lia|]. change (zlen (le_bytes 2 (len d))) with 2. lia. }
    inversion E as [| | |r' d Nr Ov|r' d Ov| |]; subst.
    + cbn in X. destruct es; [cbn [map concat]; rewrite zlen_nil; lia|discriminate].
    + inversion Ov as [| |n d' Hn Hd| |]; subst; [contradiction|]. norm_spec. apply (D d); [|right|reflexivity].
      * inversion Br as [|? ? _ Br1]; subst. inversion Br1; assumption.
      * pose proof (P d). rewrite !zlen_cons. destruct (Z.leb_spec (zlen d) 255); lia.
    + inversion Ov as [| | |l Hl|n d' Hn Hd]; subst.
      * apply (D []); [constructor|left; reflexivity|reflexivity].
      * apply (D d); [|right|reflexivity].
        { change (77 :: le_bytes 2 n ++ d) with ((77 :: le_bytes 2 n) ++ d) in Br. eapply is_bytes_app; exact Br. }
        pose proof (P d). rewrite zlen_cons, zlen_app. change (zlen (le_bytes 2 n)) with 2. destruct (zlen d <=? 255); lia.
  - cbn [map concat app] in *. rewrite zlen_app. pose proof (zlen_nonneg (wire e0)).
    destruct (list_eq_dec Z.eq_dec (text e0) []) as [Z0|N0].
    + cbn [filter] in X. rewrite Z0 in X. cbn [nonempty] in X. change (nonempty []) with false in X. cbn iota in X. specialize (IH es F X). lia.
    + rewrite filter_nonempty_cons in X by exact N0. destruct es as [|e es]; [discriminate X|]. cbn [map] in X. injection X as X1 X2.
      inversion F as [|? ? Se Fs]; subst. specialize (IH es Fs X2). cbn [map concat]. rewrite zlen_app.
      pose proof (element_length name net e0 e En K0 Se X1). lia.
Qed.

Lemma script_length name net s t es : get_network name = Ok net -> is_bytes s -> deserialize net s = Ok t ->
  Forall (standard_element name) es -> split_ws t = map text es -> zlen (concat (map wire es)) <= zlen s.
Proof.
  intros En B D F X. destruct (decompose name net s En B) as [es0 [r [out [-> [F0 E]]]]].
  assert (is_bytes r) as Br by (eapply is_bytes_app; exact B).
  rewrite (deserialize_ending name net es0 r out En F0 Br E) in D. destruct out as [ws|]; [|discriminate].
  cbn [texts] in D. apply Ok_inj in D. subst t. rewrite zlen_app. apply (words_length name net es0 r ws); try assumption.
  rewrite <- X. symmetry. apply split_ws_join.
  assert (Forall (is_text name) (map text es0 ++ ws)) as T by (apply Forall_app; split; [apply texts_all, F0|eapply ending_texts; eassumption]).
  eapply Forall_impl; [|exact T]. intros w. apply (is_text_space name net w En).
Qed.

Lemma parse_script_sig_length name net s a b : get_network name = Ok net -> is_bytes s ->
  TxIn_parse_script_sig net s = Ok (a, b) -> zlen (a ++ b) <= zlen s.
Proof.
  intros En B P. destruct (parse_script_sig_again name net s a b En B P) as [[-> ->]|[es [e [F [-> [-> [[t [D X]] _]]]]]]].
  - rewrite app_nil_r. lia.
  - pose proof (script_length name net s t (es ++ [e]) En B D F X) as L. rewrite map_app, concat_app in L. cbn [map concat] in L.
    rewrite app_nil_r in L. exact L.
Qed.

(** * objects are never longer than what they were read from *)

Lemma TxIn_size name net b i : get_network name = Ok net -> is_bytes b -> TxIn_from_bytes net b = Ok i -> zlen (ti_bytes i) <= zlen b.
Proof.
  intros En B E. unfold TxIn_from_bytes in E. apply bind_Ok in E. destruct E as [o [Eo E]].
  apply bind_Ok in E. destruct E as [v [V E]]. pose proof (VarInt_read_shape _ _ _ V) as [V1 [V2 _]].
  assert (is_bytes (slice b 36 45)) as Bv by (apply is_bytes_slice; [exact B|lia|lia]).
  pose proof (VarInt_read_size _ _ _ Bv V) as V3.
  cbv zeta in E. set (s := slice b (36 + _) _) in E. set (q := slice b _ _) in E.
  assert (is_bytes s) as Bs by (unfold s; apply is_bytes_slice; [exact B|lia|lia]).
  apply bind_Ok in E. destruct E as [[st rd] [Sp E]].
  assert (zlen (st ++ rd) <= zlen s) as L.
  { destruct (leqb_spec s []) as [Z|N].
    { apply Ok_inj in Sp. injection Sp as <- <-. rewrite Z. reflexivity. }
    apply bind_Ok in Sp. destruct Sp as [nl [_ Sp]]. destruct (leqb (op_bytes o) (op_bytes nl)).
    { apply Ok_inj in Sp. injection Sp as <- <-. rewrite app_nil_r. lia. }
    apply (parse_script_sig_length name net); assumption. }
  rewrite TxIn_spec in E. destruct ((zlen (op_bytes o) =? 36) && (zlen q =? 4) && (zlen (st ++ rd) <=? 1650)) eqn:C; [|discriminate].
  apply Ok_inj in E. subst i. rewrite !andb_true_iff, !Z.eqb_eq in C. destruct C as [[C1 C2] _].
  unfold txin_of. cbn [ti_bytes]. rewrite !zlen_app, C1, C2. rewrite zlen_app in L.
  assert (36 + zlen (vi_bytes v) + vi_number v + 4 <= zlen b) as Lb.
  { unfold q in C2. rewrite zlen_slice in C2 by lia. lia. }
  assert (zlen s <= vi_number v) as Ls by (unfold s; rewrite zlen_slice by lia; lia).
  pose proof (zlen_compactsize_mono (zlen st + zlen rd) (vi_number v) ltac:(lia)). lia.
Qed.

Lemma TxOut_size net b o : is_bytes b -> TxOut_from_bytes net b = Ok o ->
  txout_obj o /\ zlen (to_output_script o) < 252 /\ zlen (to_bytes_ o) <= zlen b.
Proof.
  intros B E. unfold TxOut_from_bytes in E. apply bind_Ok in E. destruct E as [v [V E]].
  pose proof (VarInt_read_shape _ _ _ V) as [V1 [V2 V3]]. cbv zeta in E.
  destruct (Z.ltb_spec (vi_number v) 252) as [Lv|Lv]; [|discriminate].
  pose proof E as E1. rewrite TxOut_spec in E1. set (s := slice b _ _) in *.
  destruct ((zlen (slice_to b 8) =? 8) && (zlen s <? 2 ^ 64)) eqn:C; [|discriminate]. apply Ok_inj in E1. subst o.
  unfold txout_obj. cbn [to_value to_output_script to_bytes_]. split; [exact E|].
  assert (zlen s <= vi_number v) as Ls by (unfold s; rewrite zlen_slice by lia; lia). split; [lia|].
  rewrite !zlen_app, zlen_compactsize. destruct (Z.ltb_spec (zlen s) 253); [|lia].
  rewrite andb_true_iff, Z.eqb_eq in C. destruct C as [C _]. rewrite C.
  pose proof (zlen_nonneg b). rewrite zlen_slice_from in V3 by lia.
  unfold s. rewrite zlen_slice by lia. lia.
Qed.

Lemma WitnessStackItem_size net b w : is_bytes b -> WitnessStackItem_from_bytes net b = Ok w -> witem_obj w /\ zlen (wi_bytes w) <= zlen b.
Proof.
  intros B E. unfold WitnessStackItem_from_bytes in E. apply bind_Ok in E. destruct E as [v [V E]].
  pose proof (VarInt_read_shape _ _ _ V) as [V1 [V2 V3]]. pose proof (VarInt_read_size _ _ _ B V) as V4. cbv zeta in E.
  pose proof E as E1. rewrite WitnessStackItem_spec in E1. set (s := slice b _ _) in *.
  destruct (zlen s <? 2 ^ 64) eqn:C; [|discriminate]. apply Ok_inj in E1. subst w. split; [exact E|]. cbn [wi_bytes].
  assert (zlen s <= vi_number v) as Ls by (unfold s; rewrite zlen_slice by lia; lia).
  rewrite zlen_app. pose proof (zlen_compactsize_mono (zlen s) (vi_number v) ltac:(lia)).
  assert (zlen s = 0 \/ zlen (vi_bytes v) + zlen s <= zlen b) as [Z|L] by (unfold s; rewrite zlen_slice by lia; lia); [|lia].
  rewrite Z. change (zlen (compactsize 0)) with 1. lia.
Qed.

Lemma read_many_size {A} (fb : bytes -> res A) size p : is_bytes p ->
  (forall b z, is_bytes b -> fb b = Ok z -> 0 < size z <= zlen b) ->
  forall fuel n c zs c', 0 <= c -> read_many fb size fuel p n c = Ok (zs, c') ->
  zlen zs = Z.max 0 n /\ c' = c + fold_right Z.add 0 (map size zs) /\ c + Z.max 0 n <= c' /\ (1 <= n -> c' <= zlen p) /\
  Forall (fun z => exists b, is_bytes b /\ fb b = Ok z) zs.
Proof.
  intros B Sz. induction fuel as [|f IH]; intros n c zs c' C E.
  - cbn [read_many] in E. destruct (Z.leb_spec n 0); [|discriminate]. apply Ok_inj in E. injection E as <- <-.
    rewrite zlen_nil. cbn. repeat split; try lia. constructor.
  - destruct (Z.leb_spec n 0) as [N|N].
    + rewrite read_many_done in E by exact N. apply Ok_inj in E. injection E as <- <-.
      rewrite zlen_nil. cbn. repeat split; try lia. constructor.
    + cbn [read_many] in E. destruct (Z.leb_spec n 0); [lia|]. apply bind_Ok in E. destruct E as [x [Ex E]].
      apply bind_Ok in E. destruct E as [[xs c1] [Er E]]. apply Ok_inj in E. injection E as <- <-.
      assert (is_bytes (slice_from p c)) as Bp by (apply is_bytes_slice_from; assumption).
      pose proof (Sz _ _ Bp Ex) as Sx. rewrite zlen_slice_from in Sx by lia.
      assert (0 <= c + size x) as C1 by lia. destruct (IH _ _ _ _ C1 Er) as [I1 [I2 [I3 [I4 I5]]]].
      rewrite zlen_cons. cbn [map fold_right]. repeat split; try lia.
      * intros _. destruct (Z.leb_spec 1 (n - 1)); [auto|]. assert (n = 1) by lia.
        assert (xs = []) as -> by (apply zlen_0; lia). cbn [map fold_right] in I2. lia.
      * constructor; [eauto|exact I5].
Qed.

(* the count in front of a list that was read *)
Lemma count_readable {A} net (fb : bytes -> res A) size p k v fuel zs c' : is_bytes p -> 0 <= k ->
  (forall b z, is_bytes b -> fb b = Ok z -> 0 < size z <= zlen b) ->
  VarInt_from_bytes net (slice_from p k) = Ok v -> read_many fb size fuel p (vi_number v) (k + zlen (vi_bytes v)) = Ok (zs, c') ->
  readable net (zlen zs).
Proof.
  intros B K Sz V R. pose proof (VarInt_read_shape _ _ _ V) as [V1 [V2 _]].
  apply (read_many_size _ _ _ B Sz) in R; [|lia]. destruct R as [R1 [_ [R3 [R4 _]]]].
  assert (zlen zs = vi_number v) as -> by lia.
  destruct (VarInt_read_readable _ _ _ (is_bytes_slice_from p k B K) V) as [X|X]; [exact X|].
  right. intros N. rewrite zlen_slice_from in X by exact K. specialize (R4 ltac:(lia)). lia.
Qed.
Lemma readable_size_of name net n : get_network name = Ok net -> readable net n -> readable_size name n.
Proof.
  intros En [C|C]; [|right; exact C]. left. intros I. apply (compact_only_names name net En) in I. congruence.
Qed.

Lemma witem_positive w : witem_obj w -> 0 < zlen (wi_bytes w).
Proof.
  intros O. apply witem_obj_iff in O. destruct O as [_ ->]. rewrite zlen_app. pose proof (zlen_compactsize_pos (zlen (wi_item w))). pose proof (zlen_nonneg (wi_item w)). lia.
Qed.

Lemma sum_bytes {A} (w : A -> bytes) l : zlen (concat (map w l)) = fold_right Z.add 0 (map (fun x => zlen (w x)) l).
Proof. induction l as [|x l IH]; [reflexivity|]. cbn [map concat fold_right]. rewrite zlen_app, IH. reflexivity. Qed.

Lemma InputWitness_size net b w : is_bytes b -> InputWitness_from_bytes net b = Ok w ->
  witness_obj w /\ readable net (zlen (wit_stack w)) /\ 0 < zlen (wit_bytes w) <= zlen b.
Proof.
  intros B E. unfold InputWitness_from_bytes in E. apply bind_Ok in E. destruct E as [v [V E]].
  pose proof (VarInt_read_shape _ _ _ V) as [V1 [V2 V3]]. pose proof (VarInt_read_size _ _ _ B V) as V4. cbv zeta in E.
  apply bind_Ok in E. destruct E as [[its c'] [R E]].
  assert (forall b0 z, is_bytes b0 -> WitnessStackItem_from_bytes net b0 = Ok z -> 0 < zlen (wi_bytes z) <= zlen b0) as Sz
    by (intros b0 z B0 Z0; destruct (WitnessStackItem_size _ _ _ B0 Z0) as [Oz Lz]; split; [apply witem_positive, Oz|exact Lz]).
  assert (readable net (zlen its)) as Rd.
  { apply (count_readable net _ (fun i => zlen (wi_bytes i)) b 0 v (S (length b)) its c' B (Z.le_refl 0) Sz); [rewrite slice_from_skipn by lia; exact V|exact R]. }
  apply (read_many_size _ _ _ B) in R; [|exact Sz|lia].
  destruct R as [R1 [R2 [R3 [R4 R5]]]].
  pose proof E as E1. rewrite InputWitness_spec in E1. destruct (zlen its <? 2 ^ 64) eqn:C; [|discriminate]. apply Ok_inj in E1. subst w.
  unfold witness_obj. cbn [wit_stack wit_bytes]. split.
  { split; [|exact E]. eapply Forall_impl; [|exact R5]. intros z [b0 [B0 Z0]]. apply (WitnessStackItem_size _ _ _ B0 Z0). }
  split; [exact Rd|].
  rewrite zlen_app, sum_bytes. pose proof (zlen_compactsize_pos (zlen its)).
  destruct (Z.leb_spec 1 (vi_number v)) as [N|N].
  - assert (zlen its = vi_number v) as Ln by lia. rewrite Ln in *. specialize (R4 N). lia.
  - assert (its = []) as -> by (apply zlen_0; lia). cbn [map fold_right]. change (zlen (compactsize (zlen []))) with 1. lia.
Qed.

Lemma txin_room name net : get_network name = Ok net ->
  forall b z, is_bytes b -> TxIn_from_bytes net b = Ok z -> 0 < zlen (ti_bytes z) <= zlen b.
Proof.
  intros En b z Bb Ez. destruct (TxIn_again name net b z En Bb Ez) as [Oz _]. split; [|apply (TxIn_size name net b z En Bb Ez)].
  rewrite (txin_bytes z Oz), !zlen_app. pose proof (zlen_compactsize_pos (zlen (ti_script_sig z))). pose proof (zlen_nonneg (op_bytes (ti_outpoint z))).
  pose proof (zlen_nonneg (ti_script_sig z)). pose proof (zlen_nonneg (ti_sequence z)). lia.
Qed.
Lemma txout_room net : forall b z, is_bytes b -> TxOut_from_bytes net b = Ok z -> 0 < zlen (to_bytes_ z) <= zlen b.
Proof.
  intros b z Bb Ez. destruct (TxOut_size _ _ _ Bb Ez) as [Oz [_ Lz]]. split; [|exact Lz].
  apply txout_obj_iff in Oz. destruct Oz as [Y1 [_ Y]]. rewrite Y, zlen_app, Y1.
  pose proof (zlen_nonneg (compactsize (zlen (to_output_script z)) ++ to_output_script z)). lia.
Qed.

Section Again.
Context (H : hashes).

Lemma Tx_size name net p t : get_network name = Ok net -> is_bytes p -> Tx_from_bytes H net p = Ok t ->
  tx_obj H net t /\ zlen (tx_bytes t) <= zlen p /\
  Forall (fun i => exists b, is_bytes b /\ TxIn_from_bytes net b = Ok i) (tx_tx_ins t) /\
  Forall (fun o => zlen (to_output_script o) < 252) (tx_tx_outs t) /\
  tx_tx_witnesses t = Some (the_witnesses t) /\
  readable net (zlen (tx_tx_ins t)) /\ readable net (zlen (tx_tx_outs t)) /\
  Forall (fun w => readable net (zlen (wit_stack w))) (the_witnesses t).
Proof.
  intros En B E. pose proof (segwit_flag name net En) as SF.
  destruct (Tx_from_bytes_inv H net p t E) as [k [fl [v1 [is [c2 [v2 [os [c4 [ws [c5 [K [V1 [R1 [V2 [R2 [R3 T]]]]]]]]]]]]]]]].
  assert ((k = 6 /\ fl = Some marker_and_flag) \/ (k = 4 /\ fl = None)) as Kf.
  { rewrite SF in K. destruct (leqb (slice p 4 6) marker_and_flag); injection K as <- <-; auto. }
  assert (0 <= k) as K0 by lia. clear K.
  pose proof (VarInt_read_shape _ _ _ V1) as [A1 [A2 _]]. pose proof (VarInt_read_size _ _ _ (is_bytes_slice_from p k B K0) V1) as A3.
  pose proof (count_readable net _ _ p k v1 _ _ _ B K0 (txin_room name net En) V1 R1) as Rd1.
  apply (read_many_size _ _ _ B) in R1; [|exact (txin_room name net En)|lia].
  destruct R1 as [I1 [I2 [I3 [I4 I5]]]].
  pose proof (VarInt_read_shape _ _ _ V2) as [B1 [B2 _]]. pose proof (VarInt_read_size _ _ _ (is_bytes_slice_from p c2 B ltac:(lia)) V2) as B3.
  assert (0 <= c2) as K2 by lia.
  pose proof (count_readable net _ _ p c2 v2 _ _ _ B K2 (txout_room net) V2 R2) as Rd2.
  apply (read_many_size _ _ _ B) in R2; [|exact (txout_room net)|lia].
  destruct R2 as [O1 [O2 [O3 [O4 O5]]]].
  assert (c5 = c4 + fold_right Z.add 0 (map (fun w => zlen (wit_bytes w)) ws) /\ c4 <= c5 /\ Forall (fun w => witness_obj w /\ readable net (zlen (wit_stack w))) ws) as [W1 [W2 W3]].
  { destruct ((match fl with Some f => negb (leqb f []) | None => false end) && (4 <? zlen (slice_from p c4))).
    - apply (read_many_size _ _ _ B) in R3; [|intros b z Bb Ez; apply (InputWitness_size _ _ _ Bb Ez)|lia].
      destruct R3 as [_ [Y1 [Y2 [_ Y3]]]]. split; [exact Y1|split; [lia|]]. eapply Forall_impl; [|exact Y3].
      intros z [b [Bb Ez]]. destruct (InputWitness_size _ _ _ Bb Ez) as [Y4 [Y5 _]]. split; [exact Y4|exact Y5].
    - apply Ok_inj in R3. injection R3 as <- <-. cbn. split; [lia|split; [lia|constructor]]. }
  pose proof T as T1. rewrite Tx_spec in T1.
  destruct (tx_args_ok net (slice p 0 4) fl is os (Some ws) (slice p c5 (c5 + 4))) eqn:Ar; [|discriminate]. apply Ok_inj in T1. subst t.
  cbn [tx_of tx_bytes tx_tx_ins tx_tx_outs tx_tx_witnesses the_witnesses].
  split; [|split; [|split; [exact I5|split; [|split; [reflexivity|split; [exact Rd1|split; [exact Rd2|]]]]]]].
  - unfold tx_obj. cbn [tx_of tx_bytes tx_tx_ins tx_tx_outs tx_tx_witnesses tx_version tx_flag tx_lock_time].
    split; [eapply Forall_impl; [|exact I5]; intros z [b [Bb Ez]]; apply (TxIn_again name net b z En Bb Ez)|].
    split; [eapply Forall_impl; [|exact O5]; intros z [b [Bb Ez]]; apply (TxOut_size _ _ _ Bb Ez)|]. split; [eapply Forall_impl; [|exact W3]; intros z Y; apply Y|exact T].
  - unfold body. rewrite !zlen_app, !sum_bytes.
    unfold tx_args_ok in Ar. rewrite !andb_true_iff in Ar. destruct Ar as [[[[[[[A4 A5] _] _] A6] A7] _] _].
    apply Z.eqb_eq in A4, A5. rewrite A4, A5. rewrite I1, O1 by lia. rewrite !Z.max_r by lia.
    assert (zlen (match fl with Some f => f | None => [] end) + 4 = k) as Lf by (destruct Kf as [[-> ->]|[-> ->]]; reflexivity).
    assert (c5 + 4 <= zlen p) as Lp by (rewrite zlen_slice in A5 by lia; lia).
    clear - Lf Lp W1 O2 I2 A3 B3. unfold bytes in *. lia.
  - eapply Forall_impl; [|exact O5]. intros z [b [Bb Ez]]. apply (TxOut_size _ _ _ Bb Ez).
  - eapply Forall_impl; [|exact W3]. intros z Y. apply Y.
Qed.

(* what was read from any bytes is read as itself from its own *)
Lemma Tx_again name net p t rest : get_network name = Ok net -> is_bytes p -> Tx_from_bytes H net p = Ok t ->
  readable_tx name (the_tx t) -> bip144 (the_tx t) \/ rest = [] -> Tx_from_bytes H net (tx_bytes t ++ rest) = Ok t.
Proof.
  intros En B E0 P Hr. destruct (Tx_size name net p t En B E0) as [O [_ [Ii [Po [Ws [R1 [R2 Rs]]]]]]].
  apply tx_obj_iff in O. destruct O as [Fi [Fo [Fw [A E]]]].
  destruct P as [Pi Pw]. unfold readable_scripts, the_tx in Pi, Pw. cbn [t_ins t_outs t_witness] in *.
  rewrite Forall_map in Pi.
  assert (Forall2 (fun i i' => (forall r, TxIn_from_bytes net (ti_bytes i ++ r) = Ok i') /\ zlen (ti_bytes i') = zlen (ti_bytes i)) (tx_tx_ins t) (tx_tx_ins t)) as F2.
  { apply Forall2_refl_in. intros i I. rewrite Forall_forall in Ii, Pi. split; [|reflexivity].
    destruct (Ii i I) as [b [Bb Eb]]. apply (TxIn_again name net b i En Bb Eb). apply (readable_spec name net _ En). exact (Pi i I). }
  pose proof A as A'. unfold tx_args_ok in A'. rewrite !andb_true_iff in A'.
  destruct A' as [[[[[[[A1 A2] A3] A4] A5] A6] A7] A8].
  apply Z.eqb_eq in A1, A2.
  assert (SEGWIT_TX_FLAG net = marker_and_flag) as SF by (apply (segwit_flag name), En).
  assert (tx_bytes t = body (tx_flag t) (tx_version t) (tx_tx_ins t) (tx_tx_outs t) (tx_tx_witnesses t) (tx_lock_time t)) as Eb
    by (rewrite E; reflexivity).
  enough (Tx_from_bytes H net (tx_bytes t ++ rest) = Tx H net (tx_version t) (tx_flag t) (tx_tx_ins t) (tx_tx_outs t) (tx_tx_witnesses t) (tx_lock_time t)) as T.
  { rewrite T, Tx_spec, A, <- E. reflexivity. }
  unfold Tx_from_bytes. rewrite Eb, SF. unfold body. rewrite Ws in *.
  destruct (tx_flag t) as [f|] eqn:Ef.
  - unfold flag_ok in A3. apply leqb_eq in A3. rewrite SF in A3. subst f.
    set (wsb := concat (map wit_bytes (the_witnesses t))).
    rewrite <- !app_assoc.
    match goal with |- context [slice ?b 4 6] => set (bs := b) end.
    replace (leqb (slice bs 4 6) marker_and_flag) with true by (symmetry; unfold bs; apply flagged_head, A1).
    replace (slice bs 0 4) with (tx_version t) by (unfold bs; symmetry; apply (slice_app [] (tx_version t)); [reflexivity|lia]).
    destruct (tx_parse_prefix name net (tx_version t ++ marker_and_flag) (tx_tx_ins t) (tx_tx_outs t) (tx_tx_ins t) 6 (wsb ++ tx_lock_time t ++ rest) En F2 Fi Fo Po) with (bs := bs)
      as [X1 [X2 [X3 [X4 [pre [X5 X6]]]]]];
      [exact R1|exact R2|lia|lia|rewrite zlen_app, A1; reflexivity|unfold bs; rewrite <- !app_assoc; reflexivity|].
    rewrite X1. cbn [bind vi_number vi_bytes]. rewrite X2. cbn [bind]. rewrite X3. cbn [bind vi_number vi_bytes]. rewrite X4. cbn [bind].
    replace (negb (leqb marker_and_flag [])) with true by reflexivity. cbn [andb].
    set (c4 := 6 + _ + _ + _ + _) in *.
    assert (slice_from bs c4 = wsb ++ tx_lock_time t ++ rest) as -> by (rewrite X5; apply slice_from_app, X6).
    destruct (Z.eq_dec (zlen (the_witnesses t)) 0) as [W0|W0].
    + assert (the_witnesses t = []) as W by (apply zlen_0; exact W0).
      assert (wsb = []) as Wb by (unfold wsb; rewrite W; reflexivity).
      destruct Hr as [Hr|Hr].
      { exfalso. unfold bip144, the_tx in Hr. cbn [t_witness t_ins] in Hr. rewrite Ef in Hr. unfold count in Hr.
        rewrite !map_length, W in Hr. cbn [length] in Hr. unfold zlen in A5. lia. }
      rewrite Wb, Hr, !app_nil_r. cbn [app]. rewrite A2. cbn [Z.ltb Z.compare Pos.compare Pos.compare_cont]. cbn [bind].
      rewrite X5, Wb, Hr. cbn [app]. rewrite slice_app by lia. rewrite W. reflexivity.
    + unfold wits_ok in A4. cbn [andb] in A4.
      destruct (Z.eqb_spec (zlen (the_witnesses t)) 0); [contradiction|]. cbn [orb] in A4. apply Z.eqb_eq in A4.
      assert (Forall (parsable_stack name) (map the_stack (the_witnesses t))) as Pw'.
      { rewrite Forall_map in Pw |- *. rewrite Forall_forall in Pw, Rs |- *. intros w I. split; [|exact (Pw w I)].
        unfold the_stack, count. rewrite map_length. fold (zlen (wit_stack w)). apply (readable_size_of name net _ En), Rs, I. }
      pose proof (parsable_ws name net _ En Fw Pw') as Rw.
      assert (length (the_witnesses t) <= length wsb)%nat as Lw.
      { unfold wsb. apply length_concat_ge. intros x I. apply witness_nonempty. rewrite Forall_forall in Fw. apply Fw, I. }
      assert (1 <= zlen wsb) as Lw'. { pose proof (zlen_nonneg (the_witnesses t)). unfold zlen in *. lia. }
      pose proof (zlen_nonneg rest). rewrite !zlen_app, A2.
      destruct (Z.ltb_spec 4 (zlen wsb + (4 + zlen rest))); [|lia].
      rewrite <- A4. rewrite X5 at 2. unfold wsb.
      rewrite (read_many_ok _ _ wit_bytes (the_witnesses t) (the_witnesses t)).
      * cbn [bind]. fold wsb. rewrite X5, (app_assoc pre), slice_app by (rewrite ?zlen_app; lia). reflexivity.
      * apply Forall2_refl_in. intros x I. rewrite Forall_forall in Rw. specialize (Rw x I). split; [|reflexivity].
        intros r. apply InputWitness_parse; apply Rw.
      * rewrite X5, !app_length. lia.
      * reflexivity.
      * symmetry. exact X6.
  - unfold wits_ok in A4. cbn [andb] in A4. rewrite orb_false_r in A4. apply Z.eqb_eq, zlen_0 in A4. rewrite A4. cbn [map concat].
    rewrite <- !app_assoc. cbn [app].
    match goal with |- context [slice ?b 4 6] => set (bs := b) end.
    replace (leqb (slice bs 4 6) marker_and_flag) with false by (symmetry; unfold bs; apply legacy_head; [exact A1|lia]).
    replace (slice bs 0 4) with (tx_version t) by (unfold bs; symmetry; apply (slice_app [] (tx_version t)); [reflexivity|lia]).
    destruct (tx_parse_prefix name net (tx_version t) (tx_tx_ins t) (tx_tx_outs t) (tx_tx_ins t) 4 (tx_lock_time t ++ rest) En F2 Fi Fo Po) with (bs := bs)
      as [X1 [X2 [X3 [X4 [pre [X5 X6]]]]]];
      [exact R1|exact R2|lia|lia|exact A1|reflexivity|].
    rewrite X1. cbn [bind vi_number vi_bytes]. rewrite X2. cbn [bind]. rewrite X3. cbn [bind vi_number vi_bytes]. rewrite X4. cbn [bind andb].
    rewrite X5, slice_app by lia. reflexivity.
Qed.
End Again.
