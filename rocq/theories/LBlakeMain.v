(* Lemmas for blake256.py: whole messages *)
From Verif Require Import Py SNum SBlake MBlake LBase LUtils LBlake LBlakeTop LBlakeFinal.
Open Scope Z_scope.
Ltac Zify.zify_post_hook ::= idtac.

Fixpoint updates (o : blake) (ds : list bytes) : res blake :=
  match ds with
  | [] => Ok o
  | d :: ds => o <- blake_update o (DBytes d) ;; updates o ds
  end.


Section Agree.
Context {n : Z} {p : bparams} {V : variant} (A : agrees n p V).
Local Notation w := (word V).
Local Notation W := (word_bytes V).
Local Notation B := (block_bytes V).

Lemma final_eq o d : b_state o <> 3 ->
  (forall o', blake_update o (DBytes d) = Ok o' -> b_state o' = 2) ->
  blake_final o (DBytes d) = (o <- (if zlen d =? 0 then Ok o else blake_update o (DBytes d)) ;; blake_final o (DBytes [])).
Proof.
  intros S U. unfold blake_final at 1. destruct (Z.eqb_spec (b_state o) 3); [contradiction|].
  destruct (Z.eqb_spec (zlen d) 0) as [E|E]; cbn [negb].
  - cbn [bind]. unfold blake_final. destruct (Z.eqb_spec (b_state o) 3); [contradiction|]. reflexivity.
  - destruct (blake_update o (DBytes d)) as [o'|e]; [|reflexivity]. cbn [bind]. unfold blake_final. rewrite (U o' eq_refl). reflexivity.
Qed.

Lemma final_msg salt msg o d : wordsp V 4 salt -> absorbed p V salt msg o -> b_state o <> 3 -> 8 * zlen (msg ++ d) < 2 ^ (2 * w) ->
  exists o', blake_final o (DBytes d) = Ok (o', blake_digest V salt (msg ++ d)) /\ b_state o' = 3 /\ b_hash o' = blake_digest V salt (msg ++ d).
Proof.
  intros Hs Ab St F. destruct (update_absorbed A salt msg o d Hs Ab F) as [o1 [U [Ab1 S1]]].
  rewrite final_eq; [|exact St|intros o' U'; rewrite U in U'; apply Ok_inj in U'; subst o'; exact S1].
  destruct (Z.eqb_spec (zlen d) 0) as [E|E].
  - apply zlen_0 in E. subst d. rewrite app_nil_r in *. exact (final_absorbed A salt msg o Hs Ab St F).
  - rewrite U. cbn [bind]. apply (final_absorbed A salt (msg ++ d) o1 Hs Ab1); [rewrite S1; discriminate|exact F].
Qed.

Lemma updates_absorbed salt ds : wordsp V 4 salt -> forall msg o, absorbed p V salt msg o -> b_state o <> 3 -> 8 * zlen (msg ++ concat ds) < 2 ^ (2 * w) ->
  exists o', updates o ds = Ok o' /\ absorbed p V salt (msg ++ concat ds) o' /\ b_state o' <> 3.
Proof.
  intros Hs. induction ds as [|d ds IH]; intros msg o Ab St F.
  - cbn [concat]. rewrite app_nil_r. exists o. split; [reflexivity|]. split; assumption.
  - cbn [concat] in *. rewrite app_assoc in F |- *. cbn [updates].
    destruct (update_absorbed A salt msg o d Hs Ab) as [o1 [U [Ab1 S1]]]; [rewrite zlen_app in F; pose proof (zlen_nonneg (concat ds)); lia|].
    rewrite U. cbn [bind]. apply (IH _ _ Ab1); [rewrite S1; discriminate|exact F].
Qed.

Lemma final_again o x : b_state o = 3 -> blake_final o x = Ok (o, b_hash o).
Proof. intros S. unfold blake_final. rewrite S. reflexivity. Qed.

(** * Too many bits *)

Definition counted (len : Z) (o : blake) : Prop :=
  exists h t c s st nl hs, o = Build_blake p h t c s st nl hs /\ zlen c < B /\ t + 8 * zlen c = 8 * len.
Lemma run_counted k h t s nl buf h' t' c' : Z.of_nat k * B <= zlen buf -> run (p:=p) (V:=V) k h t s nl buf = (h', t', c') ->
  t' = t + 8 * B * Z.of_nat k /\ zlen c' = zlen buf - Z.of_nat k * B.
Proof.
  pose proof (B_pos A) as Bp. revert h t buf. induction k as [|k IH]; intros h t buf L E.
  - cbn [run] in E. injection E as <- <- <-. lia.
  - cbn [run] in E. assert (zlen (skipn (Z.to_nat B) buf) = zlen buf - B) as Ls by (rewrite <- (slice_from_skipn buf B), zlen_slice_from by lia; lia).
    apply IH in E; [|lia]. lia.
Qed.
Lemma update_counted len o d : counted len o -> exists o', blake_update o (DBytes d) = Ok o' /\ counted (len + zlen d) o' /\ b_state o' = 2.
Proof.
  intros [h [t [c [s [st [nl [hs [-> [L T]]]]]]]]]. pose proof (B_pos A) as Bp. rewrite (update_bytes A) by exact L.
  destruct (run _ h t s nl (c ++ d)) as [[h' t'] c'] eqn:R. eexists. split; [reflexivity|]. split; [|reflexivity].
  pose proof (zlen_nonneg (c ++ d)) as N. pose proof (Z.div_pos (zlen (c ++ d)) B N Bp).
  apply run_counted in R; [|rewrite Z2Nat.id by lia; pose proof (Z.mul_div_le (zlen (c ++ d)) B Bp); lia]. rewrite Z2Nat.id in R by lia.
  pose proof (Z.div_mod (zlen (c ++ d)) B ltac:(lia)). pose proof (Z.mod_pos_bound (zlen (c ++ d)) B Bp).
  exists h', t', c', s, 2, nl, hs. split; [reflexivity|]. rewrite zlen_app in *. split; lia.
Qed.
Lemma final_big len o d : counted len o -> b_state o <> 3 -> 2 ^ (2 * w) <= 8 * (len + zlen d) -> blake_final o (DBytes d) = Err StructError.
Proof.
  intros C St F. destruct (update_counted len o d C) as [o1 [U [C1 S1]]].
  rewrite final_eq; [|exact St|intros o' U'; rewrite U in U'; apply Ok_inj in U'; subst o'; exact S1].
  assert (forall len o, counted len o -> b_state o <> 3 -> 2 ^ (2 * w) <= 8 * len -> blake_final o (DBytes []) = Err StructError) as X.
  { clear - A. intros len o [h [t [c [s [st [nl [hs [-> [L T]]]]]]]]] St F. cbn [b_state] in St. unfold blake_final. cbn [b_state].
    destruct (Z.eqb_spec st 3); [contradiction|]. change (zlen (@nil Z) =? 0) with true. cbn [negb bind]. cbv zeta. cbn [b_p b_t b_cache].
    rewrite !Z.shiftl_mul_pow2 by lia. change (2 ^ 3) with 8.
    pose proof (length_field_big A (t + zlen c * 8) ltac:(lia)) as Q. unfold length_field in Q. cbv zeta in Q. rewrite Q. reflexivity. }
  destruct (Z.eqb_spec (zlen d) 0) as [E|E].
  - rewrite E, Z.add_0_r in F. cbn [bind]. exact (X _ _ C St F).
  - rewrite U. cbn [bind]. apply (X _ _ C1); [rewrite S1; discriminate|exact F].
Qed.

(** * str *)

Lemma utf8_len x b : utf8 x = Ok b -> zlen x <= zlen b.
Proof.
  revert b. induction x as [|c x IH]; intros b E; cbn [utf8] in E.
  - apply Ok_inj in E. subst b. reflexivity.
  - destruct (utf8_char c) as [u|] eqn:Ec; [|discriminate]. cbn [bind] in E. destruct (utf8 x) as [r|] eqn:Ex; [|discriminate]. cbn [bind] in E. apply Ok_inj in E. subst b.
    rewrite zlen_app, zlen_cons. specialize (IH _ eq_refl). enough (1 <= zlen u) by lia.
    unfold utf8_char in Ec. repeat match type of Ec with (if ?c then _ else _) = _ => destruct c end; try discriminate; apply Ok_inj in Ec; subst u; vm_compute; discriminate.
Qed.
Lemma update_str len o x b : counted len o -> utf8 x = Ok b -> blake_update o (DStr x) = blake_update o (DBytes (firstn (length x) b)).
Proof.
  intros [h [t [c [s [st [nl [hs [-> [L T]]]]]]]]] E. pose proof (utf8_len x b E) as Lx. pose proof (zlen_nonneg x).
  rewrite (update_run A h t c s st nl hs (DStr x) b (zlen x) L); [|lia|reflexivity|exact E].
  assert (firstn (Z.to_nat (zlen x)) b = firstn (length x) b) as -> by (f_equal; unfold zlen; lia).
  rewrite (update_bytes A) by exact L. rewrite zlen_app.
  replace (zlen (firstn (length x) b)) with (zlen x); [reflexivity|]. unfold zlen in *. rewrite firstn_length. lia.
Qed.

(** * Salt *)

Lemma salt_wordsp salt : is_bytes salt -> 4 * W <= zlen salt -> wordsp V 4 (salt_words V salt).
Proof.
  intros Hb L. pose proof (wbytes_pos A) as Wp. split; [reflexivity|]. unfold salt_words, words. apply Forall_forall. intros x I. apply in_map_iff in I. destruct I as [i [<- I]].
  apply in_seq in I. unfold wordp. rewrite (pow_w A). unfold be_value.
  match goal with |- context [le_value (rev ?l)] => set (y := l) end. 
  assert (is_bytes (rev y)) as Hy by (apply is_bytes_rev; subst y; apply is_bytes_firstn, is_bytes_skipn, is_bytes_skipn, Hb).
  pose proof (from_le_range (rev y) Hy) as R. change (from_le (rev y)) with (le_value (rev y)) in R.
  replace (zlen (rev y)) with W in R; [exact R|]. rewrite zlen_rev. subst y. unfold zlen in *. rewrite firstn_length, !skipn_length. nia.
Qed.
Lemma addsalt_Ok o salt : b_p o = p -> b_state o = 1 -> 4 * W <= zlen salt -> blake_addsalt o salt = Ok (set_salt o (salt_words V salt)).
Proof.
  intros P S L. pose proof (wbytes_pos A) as Wp. unfold blake_addsalt. rewrite S, P. change (1 =? 1) with true. cbv [negb guard]. cbn [bind]. cbv zeta. rewrite (ag_wbytes _ _ _ A).
  destruct (Z.ltb_spec (zlen salt) (W * 4)); [lia|]. cbn [bind].
  assert (slice_from salt (- (W * 4)) = skipn (length salt - Z.to_nat (4 * W)) salt) as ->.
  { unfold slice_from, clampi. destruct (Z.ltb_spec (- (W * 4)) 0); [|lia]. f_equal. unfold zlen in *. lia. }
  set (y := skipn (length salt - Z.to_nat (4 * W)) salt).
  assert (zlen y = 4 * W) as Ly by (subst y; unfold zlen in *; rewrite skipn_length; lia).
  pose proof (ag_mul' _ _ _ A). assert (forall k, Z.shiftl (4 * k) (p_mul p) = k * W) as Sh by (intros k; rewrite Z.shiftl_mul_pow2, <- (ag_mul _ _ _ A) by lia; ring).
  change 4 with (4 * 1) at 1 2. change 8 with (4 * 2). change 12 with (4 * 3). rewrite !Sh.
  assert (forall i j l, 0 <= i -> i + 1 = j -> j <= 4 -> l = slice y (i * W) (j * W) -> byte2int W l = Ok (be_value (firstn (Z.to_nat W) (skipn (Z.to_nat i * Z.to_nat W) y)))) as X.
  { intros i j l Hi Hj H4 ->. assert (zlen (slice y (i * W) (j * W)) = W) as Ls by (rewrite zlen_slice by nia; nia).
    unfold byte2int. rewrite Ls, Z.eqb_refl, from_bytes_unsigned. f_equal. unfold be_value. change le_value with from_le. cbv iota.
    rewrite slice_firstn by nia. do 2 f_equal. f_equal; [f_equal; nia|]. f_equal. nia. }
  rewrite (X 0 1); [|lia|lia|lia|rewrite slice_to_firstn, slice_firstn by lia; rewrite Z.mul_0_l, Z.sub_0_r; reflexivity]. cbn [bind].
  rewrite (X 1 2); [|lia|lia|lia|reflexivity]. cbn [bind]. rewrite (X 2 3); [|lia|lia|lia|reflexivity]. cbn [bind].
  rewrite (X 3 4); [reflexivity|lia|lia|lia|]. rewrite slice_from_skipn, slice_firstn by lia. symmetry. apply firstn_all2. rewrite skipn_length. unfold zlen in Ly. lia.
Qed.
End Agree.

Lemma variant_unique n V V' : variant_of n V -> variant_of n V' -> V = V'.
Proof. intros [] X; inversion X; reflexivity. Qed.
Lemma init_variant n V o : variant_of n V -> blake_init n = Ok o ->
  agrees n (b_p o) V /\ absorbed (b_p o) V no_salt [] o /\ b_state o = 1 /\ counted (p:=b_p o) (V:=V) 0 o /\ wordsp V 4 no_salt.
Proof.
  intros Hv E. destruct (init_agrees n o E) as [V' [Hv' [Ag [Eh [Et [Ec [Es [Est En]]]]]]]]. rewrite (variant_unique _ _ _ Hv Hv') in *. pose proof (B_pos Ag) as Bp.
  split; [exact Ag|]. split; [|split; [exact Est|split]].
  - exists (b_state o), (b_hash o). change (zlen (@nil Z)) with 0. rewrite Z.div_0_l by lia. change (Z.to_nat 0) with O. cbn [Nat.mul skipn]. change (chain V' no_salt [] 0) with (iv V').
    destruct o. cbn in *. subst. rewrite Z.mul_0_r. reflexivity.
  - exists (b_h o), 0, [], (b_salt o), (b_state o), 0, (b_hash o). split; [destruct o; cbn in *; subst; reflexivity|]. split; [exact Bp|reflexivity].
  - split; [reflexivity|]. pose proof (modulus_pos Ag). repeat (constructor; [unfold wordp; lia|]). constructor.
Qed.
Lemma init_exists n V : variant_of n V -> exists o, blake_init n = Ok o.
Proof. intros []; eexists; reflexivity. Qed.

(* the digest of a message fed in pieces *)
Definition digest_in_pieces (o : blake) (ds : list bytes) (d : bytes) : res bytes :=
  o <- updates o ds ;; ' (_, h) <- blake_final o (DBytes d) ;; Ok h.

Lemma updates_counted {n p V} (Ag : agrees n p V) ds : forall len o, counted (p:=p) (V:=V) len o -> b_state o <> 3 ->
  exists o', updates o ds = Ok o' /\ counted (p:=p) (V:=V) (len + zlen (concat ds)) o' /\ b_state o' <> 3.
Proof.
  induction ds as [|d ds IH]; intros len o C S.
  - exists o. split; [reflexivity|]. cbn [concat]. change (zlen (@nil Z)) with 0. rewrite Z.add_0_r. split; assumption.
  - cbn [updates concat]. destruct (update_counted Ag len o d C) as [o1 [U [C1 S1]]]. rewrite U. cbn [bind].
    rewrite zlen_app, Z.add_assoc. apply (IH _ _ C1). rewrite S1. discriminate.
Qed.

Lemma pieces_exact n V o ds d : variant_of n V -> blake_init n = Ok o ->
  (message_fits V (concat ds ++ d) -> digest_in_pieces o ds d = Ok (blake_digest V no_salt (concat ds ++ d))) /\
  (~ message_fits V (concat ds ++ d) -> digest_in_pieces o ds d = Err StructError).
Proof.
  intros Hv E. destruct (init_variant n V o Hv E) as [Ag [Ab [St [C Hs]]]]. unfold message_fits, digest_in_pieces. change (len (concat ds ++ d)) with (zlen (concat ds ++ d)). split; intros F.
  - destruct (updates_absorbed Ag no_salt ds Hs [] o Ab) as [o1 [U [Ab1 S1]]]; [rewrite St; discriminate|rewrite zlen_app in F; cbn [app]; pose proof (zlen_nonneg d); lia|].
    rewrite U. cbn [bind]. destruct (final_msg Ag no_salt _ o1 d Hs Ab1 S1 F) as [o2 [-> _]]. reflexivity.
  - destruct (updates_counted Ag ds 0 o C) as [o1 [U [C1 S1]]]; [rewrite St; discriminate|]. rewrite U. cbn [bind].
    rewrite (final_big Ag _ o1 d C1 S1); [reflexivity|]. rewrite zlen_app in F. lia.
Qed.

Lemma salted_exact n V o salt ds d : variant_of n V -> blake_init n = Ok o -> is_bytes salt -> 4 * word_bytes V <= zlen salt ->
  message_fits V (concat ds ++ d) ->
  exists o', blake_addsalt o salt = Ok o' /\ digest_in_pieces o' ds d = Ok (blake_digest V (salt_words V salt) (concat ds ++ d)).
Proof.
  intros Hv E Hb L F. destruct (init_variant n V o Hv E) as [Ag [Ab [St [C _]]]]. rewrite (addsalt_Ok Ag o salt eq_refl St L). eexists. split; [reflexivity|].
  pose proof (salt_wordsp Ag salt Hb L) as Hs. unfold message_fits in F. change (len (concat ds ++ d)) with (zlen (concat ds ++ d)) in F.
  assert (absorbed (b_p o) V (salt_words V salt) [] (set_salt o (salt_words V salt))) as Ab0.
  { destruct Ab as [st [hs Eo]]. exists st, hs. rewrite Eo. unfold set_salt. cbn [b_p b_h b_t b_cache b_salt b_state b_nullt b_hash]. pose proof (B_pos Ag).
    change (zlen (@nil Z)) with 0. rewrite Z.div_0_l by lia. change (Z.to_nat 0) with O. reflexivity. }
  unfold digest_in_pieces.
  destruct (updates_absorbed Ag _ ds Hs [] _ Ab0) as [o1 [U [Ab1 S1]]]; [cbn [set_salt b_state]; rewrite St; discriminate|rewrite zlen_app in F; cbn [app]; pose proof (zlen_nonneg d); lia|].
  rewrite U. cbn [bind]. destruct (final_msg Ag _ _ o1 d Hs Ab1 S1 F) as [o2 [-> _]]. reflexivity.
Qed.

Lemma digest_size n V salt msg : variant_of n V -> zlen (blake_digest V salt msg) = n / 8 /\ is_bytes (blake_digest V salt msg).
Proof.
  intros Hv. destruct (init_exists n V Hv) as [o E]. destruct (init_variant n V o Hv E) as [Ag [_ [_ [_ Hs]]]]. pose proof (wbytes_pos Ag) as Wp.
  unfold blake_digest. match goal with |- context [map _ ?l] => set (h := l) end. cbv zeta.
  assert (is_bytes (concat (map (be_bytes (word_bytes V)) h))) as Hb.
  { apply is_bytes_concat, Forall_forall. intros x I. apply in_map_iff in I. destruct I as [y [<- _]]. unfold be_bytes. apply is_bytes_rev. rewrite le_bytes_to_le. apply to_le_bytes. }
  split; [|apply is_bytes_firstn, Hb].
  assert (length h = 8%nat) as Lh.
  { subst h. match goal with |- length (fold_left ?f ?l (iv V)) = _ => assert (forall x, length x = 8%nat -> length (fold_left f l x) = 8%nat) as X end; [|apply X, (ag_iv _ _ _ Ag)].
    generalize (seq 0 (Z.to_nat (len (pad V msg) / block_bytes V))). intros l. induction l as [|i l IH]; intros x Lx; [exact Lx|]. cbn [fold_left]. apply IH.
    unfold compress. cbv zeta. destruct (fold_left (round V _) _ _) as [[[[[[? ?] ?] ?] [[[? ?] ?] ?]] [[[? ?] ?] ?]] [[[? ?] ?] ?]]. reflexivity. }
  assert (zlen (concat (map (be_bytes (word_bytes V)) h)) = 8 * word_bytes V) as Lc.
  { replace 8 with (zlen h) by (unfold zlen; lia). clear - Wp. induction h as [|x h IH]; [reflexivity|]. cbn [map concat]. rewrite zlen_app, zlen_be_bytes, zlen_cons, IH by lia. ring. }
  rewrite <- slice_to_firstn, zlen_slice_to, Lc by (destruct Hv; vm_compute; discriminate). destruct Hv; reflexivity.
Qed.
