(* Lemmas for C93 *)
From Coq Require Import String.
From Verif Require Import Py SNum MShared MByteData SByteData SRead LBase LIndex.
Open Scope list_scope.
Open Scope Z_scope.

Lemma is_prefix_iff p l : is_prefix p l = true <-> exists post, l = p ++ post.
Proof.
  revert l. induction p as [|x p IH]; intros l.
  - cbn. split; [intros _; exists l; reflexivity|reflexivity].
  - destruct l as [|y l]; cbn [is_prefix].
    + split; [discriminate|]. intros [post E]. discriminate.
    + rewrite andb_true_iff, Z.eqb_eq, IH. split.
      * intros [-> [post ->]]. exists post. reflexivity.
      * intros [post E]. injection E as -> ->. split; [reflexivity|]. exists post. reflexivity.
Qed.
Lemma occurs_0 p b : occurs p b 0 <-> is_prefix p b = true.
Proof.
  rewrite is_prefix_iff. split.
  - intros [pre [post [E L]]]. destruct pre; [|unfold len in L; cbn in L; lia]. exists post. exact E.
  - intros [post E]. exists [], post. split; [exact E|reflexivity].
Qed.
Lemma occurs_cons p x b k : occurs p (x :: b) k <-> (k = 0 /\ is_prefix p (x :: b) = true) \/ (1 <= k /\ occurs p b (k - 1)).
Proof.
  split.
  - intros [pre [post [E L]]]. destruct pre as [|y pre].
    + left. split; [unfold len in L; cbn in L; lia|]. apply is_prefix_iff. exists post. exact E.
    + right. injection E as -> ->. unfold len in L. cbn [length] in L. split; [lia|]. exists pre, post. split; [reflexivity|]. unfold len. lia.
  - intros [[-> E]|[L [pre [post [-> E]]]]].
    + apply occurs_0, E.
    + exists (x :: pre), post. split; [reflexivity|]. unfold len in *. cbn [length]. lia.
Qed.
Lemma occurs_nonneg p b k : occurs p b k -> 0 <= k.
Proof. intros [pre [post [_ <-]]]. unfold len. lia. Qed.
Lemma find_from_spec p b i :
  (exists k, occurs p b k /\ find_from p b i = i + k /\ forall j, occurs p b j -> k <= j) \/
  (find_from p b i = -1 /\ forall j, ~ occurs p b j).
Proof.
  revert i. induction b as [|x b IH]; intros i; cbn [find_from].
  - destruct (is_prefix p []) eqn:E.
    + left. exists 0. split; [apply occurs_0, E|]. split; [lia|]. intros j. apply occurs_nonneg.
    + right. split; [reflexivity|]. intros j [pre [post [Q L]]]. destruct pre; [|discriminate]. cbn in Q.
      assert (is_prefix p [] = true) by (apply is_prefix_iff; exists post; exact Q). congruence.
  - destruct (is_prefix p (x :: b)) eqn:E.
    + left. exists 0. split; [apply occurs_0, E|]. split; [lia|]. intros j. apply occurs_nonneg.
    + destruct (IH (i + 1)) as [[k [O [F M]]]|[F M]].
      * left. exists (k + 1). pose proof (occurs_nonneg _ _ _ O). split; [apply occurs_cons; right; split; [lia|]; replace (k + 1 - 1) with k by lia; exact O|].
        split; [lia|]. intros j J. apply occurs_cons in J. destruct J as [[_ J]|[J1 J]]; [congruence|]. specialize (M _ J). lia.
      * right. split; [exact F|]. intros j J. apply occurs_cons in J. destruct J as [[_ J]|[_ J]]; [congruence|]. exact (M _ J).
Qed.

Lemma slice_part (b : bytes) i j : 0 <= i <= j -> j <= len b -> part_of b i j (slice b i j).
Proof.
  intros R L. change len with (@zlen Z) in L. rewrite slice_firstn by lia.
  exists (firstn (Z.to_nat i) b), (skipn (Z.to_nat (j - i)) (skipn (Z.to_nat i) b)).
  split; [rewrite firstn_skipn, firstn_skipn; reflexivity|]. unfold len. rewrite !firstn_length, skipn_length. unfold zlen, bytes in *. split; lia.
Qed.
Lemma slice_clamp (b : bytes) i j i' j' : clampi (zlen b) i = clampi (zlen b) i' -> clampi (zlen b) j = clampi (zlen b) j' -> slice b i j = slice b i' j'.
Proof. unfold slice. intros -> ->. reflexivity. Qed.
Lemma slice_nil (b : bytes) i j : 0 <= j <= i -> slice b i j = [].
Proof. intros R. rewrite slice_firstn by lia. replace (Z.to_nat (j - i)) with 0%nat by lia. reflexivity. Qed.

Lemma upper_hexdigit d : 0 <= d < 16 -> unhexdigit (upper1 (hexdigit d)) = Some d.
Proof.
  intros R. assert (d = 0 \/ d = 1 \/ d = 2 \/ d = 3 \/ d = 4 \/ d = 5 \/ d = 6 \/ d = 7 \/ d = 8 \/ d = 9 \/ d = 10 \/ d = 11 \/ d = 12 \/ d = 13 \/ d = 14 \/ d = 15) as X by lia.
  repeat (destruct X as [->|X]; [reflexivity|]). subst. reflexivity.
Qed.
Lemma upper_not_space d : 0 <= d < 16 -> ascii_space (upper1 (hexdigit d)) = false.
Proof. intros R. unfold upper1, ascii_space, hexdigit. destruct (d <? 10) eqn:E; destruct (_ && _)%bool eqn:F; lia. Qed.
Lemma fromhex_upper l : is_bytes l -> fromhex (upper (hex l)) = Ok l.
Proof.
  induction l as [|b l IH]; intros Hl; [reflexivity|].
  inversion Hl as [|? ? Hb Hl']; subst. unfold is_byte in Hb. unfold upper in *. cbn [hex map fromhex].
  rewrite upper_not_space by lia. rewrite !upper_hexdigit by lia.
  rewrite IH by assumption. cbn [bind]. do 2 f_equal. lia.
Qed.

(** * repr *)
Definition unrepr (s : str) : option (Z * str) :=
  match s with
  | 92 :: 120 :: h :: l :: t => match unhexdigit h, unhexdigit l with Some a, Some b => Some (16 * a + b, t) | _, _ => None end
  | 92 :: 116 :: t => Some (9, t)
  | 92 :: 110 :: t => Some (10, t)
  | 92 :: 114 :: t => Some (13, t)
  | 92 :: c :: t => Some (c, t)
  | c :: t => Some (c, t)
  | [] => None
  end.
Lemma unrepr_other c s : c <> 92 -> unrepr (c :: s) = Some (c, s).
Proof.
  intros N. unfold unrepr. destruct c as [|c|c]; try reflexivity.
  do 7 (destruct c as [c|c|]; try reflexivity). contradiction N. reflexivity.
Qed.
Lemma unrepr_repr q c s : q = 39 \/ q = 34 -> 0 <= c < 256 -> unrepr (repr_byte q c ++ s) = Some (c, s).
Proof.
  intros Q R. unfold repr_byte. destruct (Z.eqb_spec c q) as [->|Nq]; [destruct Q as [->| ->]; reflexivity|].
  destruct (Z.eqb_spec c 92) as [->|N2]; [reflexivity|]. cbn [orb].
  destruct (Z.eqb_spec c 9) as [->|N3]; [reflexivity|]. destruct (Z.eqb_spec c 10) as [->|N4]; [reflexivity|]. destruct (Z.eqb_spec c 13) as [->|N5]; [reflexivity|].
  destruct ((c <? 32) || (127 <=? c)) eqn:E.
  - change (lit "\x") with [92; 120]. cbn [app unrepr]. rewrite !hexdigit_inv by lia. do 2 f_equal. lia.
  - cbn [app]. apply unrepr_other, N2.
Qed.
Lemma repr_byte_head q c s : q = 39 \/ q = 34 -> exists x t, repr_byte q c ++ s = x :: t /\ x <> q.
Proof.
  intros Q. unfold repr_byte. change (lit "\t") with [92; 116]. change (lit "\n") with [92; 110]. change (lit "\r") with [92; 114]. change (lit "\x") with [92; 120].
  destruct (Z.eqb_spec c q) as [->|Nq]; [do 2 eexists; split; [reflexivity|]; lia|].
  destruct (Z.eqb_spec c 92) as [->|N2]; [do 2 eexists; split; [reflexivity|]; lia|]. cbn [orb].
  destruct (Z.eqb_spec c 9); [do 2 eexists; split; [reflexivity|]; lia|]. destruct (Z.eqb_spec c 10); [do 2 eexists; split; [reflexivity|]; lia|].
  destruct (Z.eqb_spec c 13); [do 2 eexists; split; [reflexivity|]; lia|].
  destruct ((c <? 32) || (127 <=? c)); do 2 eexists; (split; [reflexivity|]); lia.
Qed.
Lemma repr_all q a b r s : q = 39 \/ q = 34 -> is_bytes a -> is_bytes b ->
  concat (map (repr_byte q) a) ++ q :: r = concat (map (repr_byte q) b) ++ q :: s -> a = b /\ r = s.
Proof.
  intros Q. revert b. induction a as [|x a IH]; intros b Fa Fb E; destruct b as [|y b]; cbn [map concat app] in E.
  - injection E as ->. auto.
  - rewrite <- app_assoc in E. destruct (repr_byte_head q y (concat (map (repr_byte q) b) ++ q :: s) Q) as [h [t [X N]]]. rewrite X in E. injection E as E _. congruence.
  - rewrite <- app_assoc in E. destruct (repr_byte_head q x (concat (map (repr_byte q) a) ++ q :: r) Q) as [h [t [X N]]]. rewrite X in E. injection E as E _. congruence.
  - inversion Fa as [|? ? Hx Fa']; subst. inversion Fb as [|? ? Hy Fb']; subst. rewrite <- !app_assoc in E.
    apply (f_equal unrepr) in E. rewrite !unrepr_repr in E by assumption. injection E as -> E. destruct (IH _ Fa' Fb' E) as [-> ->]. auto.
Qed.
Lemma repr_quote_cases b : repr_quote b = 39 \/ repr_quote b = 34.
Proof. unfold repr_quote. destruct (_ && _); auto. Qed.
Lemma bytes_repr_inj a b r s : is_bytes a -> is_bytes b -> bytes_repr a ++ r = bytes_repr b ++ s -> a = b /\ r = s.
Proof.
  intros Fa Fb. unfold bytes_repr. change (lit "b") with [98]. cbn [app]. rewrite <- !app_assoc. cbn [app]. intros E. injection E as Eq E.
  rewrite Eq in E. exact (repr_all _ _ _ _ _ (repr_quote_cases b) Fa Fb E).
Qed.
Lemma inner_repr_inj d e : is_bytes (bd_bytes d) -> is_bytes (bd_bytes e) -> inner_repr d = inner_repr e ->
  bd_immutable d = bd_immutable e /\ bd_bytes d = bd_bytes e.
Proof.
  intros Fd Fe. unfold inner_repr.
  assert (forall a b c, bytes_repr a = lit "bytearray(" ++ bytes_repr b ++ c -> False) as X.
  { intros a b c E. unfold bytes_repr in E at 1. change (lit "b") with [98] in E. change (lit "bytearray(") with (98 :: 121 :: lit "tearray(") in E.
    cbn [app] in E. injection E as E _. destruct (repr_quote_cases a); lia. }
  destruct (bd_immutable d), (bd_immutable e); intros E.
  - split; [reflexivity|]. apply (bytes_repr_inj _ _ [] [] Fd Fe). rewrite !app_nil_r. exact E.
  - destruct (X _ _ _ E).
  - symmetry in E. destruct (X _ _ _ E).
  - split; [reflexivity|]. apply app_inv_head in E. apply (bytes_repr_inj _ _ _ _ Fd Fe E).
Qed.
Lemma upto_colon (a b r s : str) : ~ In 58 a -> ~ In 58 b -> a ++ 58 :: r = b ++ 58 :: s -> a = b /\ r = s.
Proof.
  revert b. induction a as [|x a IH]; intros b Na Nb E; destruct b as [|y b]; cbn [app] in E.
  - injection E as ->. auto.
  - injection E as E _. destruct Nb. left. auto.
  - injection E as E _. destruct Na. left. auto.
  - injection E as -> E. destruct (IH b) as [-> ->]; [intros I; apply Na; right; exact I|intros I; apply Nb; right; exact I|exact E|auto].
Qed.
Lemma bd_repr_inj c c' d e : ~ In 58 c -> ~ In 58 c' -> is_bytes (bd_bytes d) -> is_bytes (bd_bytes e) -> bd_repr c d = bd_repr c' e ->
  c = c' /\ bd_immutable d = bd_immutable e /\ bd_bytes d = bd_bytes e.
Proof.
  intros Nc Nc' Fd Fe. unfold bd_repr. change (lit ": ") with [58; 32]. cbn [app]. intros E. apply upto_colon in E; [|assumption|assumption].
  destruct E as [-> E]. injection E as E. split; [reflexivity|]. apply inner_repr_inj; assumption.
Qed.
Ltac each_char := repeat (apply Forall_cons; [lia|]); apply Forall_nil.
Lemma repr_byte_printable q c : q = 39 \/ q = 34 -> 0 <= c < 256 -> Forall (fun x => 32 <= x < 127) (repr_byte q c).
Proof.
  intros Q R. unfold repr_byte. change (lit "\t") with [92; 116]. change (lit "\n") with [92; 110]. change (lit "\r") with [92; 114]. change (lit "\x") with [92; 120].
  destruct (Z.eqb_spec c q); cbn [orb]; [each_char|]. destruct (Z.eqb_spec c 92); [each_char|].
  destruct (c =? 9); [each_char|]. destruct (c =? 10); [each_char|]. destruct (c =? 13); [each_char|].
  destruct ((c <? 32) || (127 <=? c)) eqn:E.
  - cbn [app]. pose proof (hexdigit_range (c / 16) ltac:(lia)). pose proof (hexdigit_range (c mod 16) ltac:(lia)).
    each_char.
  - each_char.
Qed.
Lemma bytes_repr_printable b : is_bytes b -> Forall (fun x => 32 <= x < 127) (bytes_repr b).
Proof.
  intros F. unfold bytes_repr. pose proof (repr_quote_cases b) as Q. change (lit "b") with [98]. cbn [app]. constructor; [lia|]. constructor; [lia|].
  apply Forall_app. split; [|constructor; [lia|constructor]]. apply Forall_concat. apply Forall_map. revert F. apply Forall_impl. intros c R. apply repr_byte_printable; assumption.
Qed.
Lemma inner_repr_printable d : is_bytes (bd_bytes d) -> Forall (fun x => 32 <= x < 127) (inner_repr d).
Proof.
  intros F. unfold inner_repr. pose proof (bytes_repr_printable _ F). destruct (bd_immutable d); [assumption|].
  apply Forall_app. split; [change (lit "bytearray(") with [98; 121; 116; 101; 97; 114; 114; 97; 121; 40]; each_char|]. apply Forall_app. split; [assumption|change (lit ")") with [41]; each_char].
Qed.

(** * building *)
Lemma contains_1 (s : str) c : contains s [c] = true <-> In c s.
Proof.
  unfold contains. destruct (find_from_spec [c] s 0) as [[k [O [F M]]]|[F M]]; unfold find; rewrite F.
  - pose proof (occurs_nonneg _ _ _ O). destruct (Z.eqb_spec (0 + k) (-1)); [lia|]. split; [intros _|reflexivity].
    destruct O as [pre [post [-> _]]]. apply in_app_iff. right. left. reflexivity.
  - split; [discriminate|]. intros I. destruct (in_split _ _ I) as [pre [post ->]]. destruct (M (len pre)). exists pre, post. auto.
Qed.

Lemma iadd_all_Ok self parts xs : bd_immutable self = false -> Forall2 (fun p x => content_of p = Some x) parts xs ->
  bd_iadd_all self parts = Ok {| bd_bytes := bd_bytes self ++ concat xs; bd_immutable := false; bd_attrs := bd_attrs self |}.
Proof.
  intros M F. revert self M. induction F as [|p x ps xs E F IH]; intros self M; cbn [bd_iadd_all concat].
  - rewrite app_nil_r. destruct self as [b m a]. cbn in *. subst m. reflexivity.
  - destruct p as [b|d|]; cbn [content_of] in E; try discriminate; injection E as <-;
      cbn [bd_iadd]; unfold bd_extend; rewrite M; cbn [bind]; rewrite IH by reflexivity; cbn [bd_bytes bd_attrs]; rewrite <- app_assoc; reflexivity.
Qed.
Lemma iadd_all_Err self parts : bd_immutable self = false -> Exists (fun p => content_of p = None) parts -> bd_iadd_all self parts = Err TypeError.
Proof.
  intros M E. revert self M. induction E as [p ps E|p ps E IH]; intros self M; cbn [bd_iadd_all].
  - destruct p; try discriminate E. reflexivity.
  - destruct p as [b|d|]; cbn [bd_iadd]; [| |reflexivity]; unfold bd_extend; rewrite M; cbn [bind]; apply IH; reflexivity.
Qed.

(** * hexadecimal text *)
Lemma digit_unhex c d : digit c d <-> unhexdigit c = Some d.
Proof.
  unfold digit. split.
  - intros [R D].
    assert (forall n, (n < 16)%nat \/ (16 <= n)%nat) as X by (intros; lia).
    destruct (X (Z.to_nat d)) as [L|L].
    + assert (d = 0 \/ d = 1 \/ d = 2 \/ d = 3 \/ d = 4 \/ d = 5 \/ d = 6 \/ d = 7 \/ d = 8 \/ d = 9 \/ d = 10 \/ d = 11 \/ d = 12 \/ d = 13 \/ d = 14 \/ d = 15) as Y by lia.
      repeat (destruct Y as [->|Y]; [destruct D as [D|D]; vm_compute in D; injection D as <-; reflexivity|]). subst d.
      destruct D as [D|D]; vm_compute in D; injection D as <-; reflexivity.
    + assert (nth_error (A := Z) (lit "0123456789abcdef") (Z.to_nat d) = None) as N1 by (apply nth_error_None; cbn; lia).
      assert (nth_error (A := Z) (lit "0123456789ABCDEF") (Z.to_nat d) = None) as N2 by (apply nth_error_None; cbn; lia).
      destruct D; congruence.
  - unfold unhexdigit. intros E.
    destruct ((48 <=? c) && (c <=? 57)) eqn:E1; [injection E as <-|destruct ((97 <=? c) && (c <=? 102)) eqn:E2; [injection E as <-|destruct ((65 <=? c) && (c <=? 70)) eqn:E3; [injection E as <-|discriminate]]].
    + split; [lia|]. left. assert (c = 48 \/ c = 49 \/ c = 50 \/ c = 51 \/ c = 52 \/ c = 53 \/ c = 54 \/ c = 55 \/ c = 56 \/ c = 57) as Y by lia.
      repeat (destruct Y as [->|Y]; [reflexivity|]). subst. reflexivity.
    + split; [lia|]. left. assert (c = 97 \/ c = 98 \/ c = 99 \/ c = 100 \/ c = 101 \/ c = 102) as Y by lia.
      repeat (destruct Y as [->|Y]; [reflexivity|]). subst. reflexivity.
    + split; [lia|]. right. assert (c = 65 \/ c = 66 \/ c = 67 \/ c = 68 \/ c = 69 \/ c = 70) as Y by lia.
      repeat (destruct Y as [->|Y]; [reflexivity|]). subst. reflexivity.
Qed.
Lemma space_iff c : ascii_space c = true <-> c = 32 \/ 9 <= c <= 13.
Proof. unfold ascii_space. lia. Qed.
Lemma fromhex_text s b : hex_text s b -> fromhex s = Ok b.
Proof.
  induction 1 as [|c s b E T IH|c d h l s b D1 D2 T IH]; cbn [fromhex]; [reflexivity| |].
  - apply space_iff in E. rewrite E. exact IH.
  - apply digit_unhex in D1, D2. rewrite D1, D2, IH.
    destruct (ascii_space c) eqn:E; [|reflexivity]. apply space_iff in E. unfold unhexdigit in D1.
    destruct ((48 <=? c) && (c <=? 57)) eqn:E1; [lia|]. destruct ((97 <=? c) && (c <=? 102)) eqn:E2; [lia|]. destruct ((65 <=? c) && (c <=? 70)) eqn:E3; [lia|discriminate].
Qed.
Lemma fromhex_total s : (exists b, hex_text s b /\ fromhex s = Ok b) \/ fromhex s = Err ValueError.
Proof.
  remember (length s) as n eqn:En. assert (length s <= n)%nat as Hn by lia. clear En.
  revert s Hn; induction n as [|n IH]; intros s Hn.
  - destruct s; [|cbn in Hn; lia]. left. exists []. split; [constructor|reflexivity].
  - destruct s as [|c t]; [left; exists []; split; [constructor|reflexivity]|]. cbn [length] in Hn. cbn [fromhex].
    destruct (ascii_space c) eqn:E.
    + destruct (IH t) as [[b [T F]]|F]; [lia| |right; exact F]. left. exists b. split; [|exact F]. constructor; [apply space_iff, E|exact T].
    + destruct t as [|d t]; [right; reflexivity|]. cbn [length] in Hn.
      destruct (unhexdigit c) as [h|] eqn:Ec; [|right; reflexivity]. destruct (unhexdigit d) as [l|] eqn:Ed; [|right; reflexivity].
      destruct (IH t) as [[b [T F]]|F]; [lia| |right; rewrite F; reflexivity]. left. exists (16 * h + l :: b). rewrite F. split; [|reflexivity].
      constructor; [apply digit_unhex, Ec|apply digit_unhex, Ed|exact T].
Qed.
Lemma fromhex_not s : (forall b, ~ hex_text s b) -> fromhex s = Err ValueError.
Proof. intros N. destruct (fromhex_total s) as [[b [T _]]|F]; [destruct (N _ T)|exact F]. Qed.
Lemma hex_text_hex b : is_bytes b -> hex_text (hex b) b /\ hex_text (upper (hex b)) b.
Proof.
  intros F. split.
  - destruct (fromhex_total (hex b)) as [[b' [T E]]|E]; rewrite fromhex_hex in E by assumption; [apply Ok_inj in E; subst; exact T|discriminate].
  - destruct (fromhex_total (upper (hex b))) as [[b' [T E]]|E]; rewrite fromhex_upper in E by assumption; [apply Ok_inj in E; subst; exact T|discriminate].
Qed.

Lemma repr_byte_literal q c s b : q = 39 \/ q = 34 -> 0 <= c < 256 -> literal q s b -> literal q (repr_byte q c ++ s) (c :: b).
Proof.
  intros Q R T. unfold repr_byte. destruct (Z.eqb_spec c q) as [->|Nq].
  { cbn [orb app]. apply literal_escape; [|exact T]. destruct Q as [->| ->]; cbn; tauto. }
  destruct (Z.eqb_spec c 92) as [->|N2]; cbn [orb]. { apply literal_escape; [cbn; tauto|exact T]. }
  destruct (Z.eqb_spec c 9) as [->|N3]. { apply literal_escape; [cbn; tauto|exact T]. }
  destruct (Z.eqb_spec c 10) as [->|N4]. { apply literal_escape; [cbn; tauto|exact T]. }
  destruct (Z.eqb_spec c 13) as [->|N5]. { apply literal_escape; [cbn; tauto|exact T]. }
  destruct ((c <? 32) || (127 <=? c)) eqn:E.
  - rewrite <- app_assoc. replace (c :: b) with (16 * (c / 16) + c mod 16 :: b) by (f_equal; lia).
    apply literal_hex; [apply digit_unhex, hexdigit_inv; lia|apply digit_unhex, hexdigit_inv; lia|exact T].
  - apply literal_plain; [lia|exact Nq|exact N2|exact T].
Qed.
Lemma repr_literal q b : q = 39 \/ q = 34 -> is_bytes b -> literal q (concat (map (repr_byte q) b)) b.
Proof.
  intros Q. induction 1 as [|c b R F IH]; cbn [map concat]; [constructor|]. apply repr_byte_literal; assumption.
Qed.
