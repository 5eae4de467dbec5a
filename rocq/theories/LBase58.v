(* Lemmas about MBase58.v *)
From Coq Require Import ZifyBool ZifyNat String.
From Verif Require Import Py LBase MNet MUtils MBase58 SBase58 SHash SNet LNet.
Open Scope list_scope.
Open Scope Z_scope.
Ltac Zify.zify_post_hook ::= Z.div_mod_to_equations.

(** * Digits *)

Definition digits (base : Z) (l : list Z) : Prop := Forall (fun d => 0 <= d < base) l.
Definition canon (l : list Z) : Prop := match l with [] => True | x :: _ => x <> 0 end.

Lemma be_num_snoc base l d : be_num base (l ++ [d]) = be_num base l * base + d.
Proof. unfold be_num. rewrite fold_left_app. reflexivity. Qed.

Lemma digits_app base a b : digits base (a ++ b) <-> digits base a /\ digits base b.
Proof. apply Forall_app. Qed.

Lemma be_num_nonneg base l : 0 < base -> digits base l -> 0 <= be_num base l.
Proof.
  intros Hb. induction l as [|d l IH] using rev_ind; intros Hl; [reflexivity|].
  apply digits_app in Hl. destruct Hl as [Hl Hd]. inversion Hd; subst.
  rewrite be_num_snoc. specialize (IH Hl). nia.
Qed.

Lemma be_num_pos base l : 2 <= base -> digits base l -> canon l -> l <> [] ->
  base ^ Z.of_nat (length l - 1) <= be_num base l.
Proof.
  intros Hb. induction l as [|d l IH] using rev_ind; intros Hl Hc Hne; [congruence|].
  apply digits_app in Hl. destruct Hl as [Hl Hd]. inversion Hd; subst.
  rewrite be_num_snoc, app_length. cbn [length].
  destruct l as [|x l].
  - cbn in Hc |- *. lia.
  - assert (canon (x :: l)) as Hc' by exact Hc. specialize (IH Hl Hc' ltac:(discriminate)).
    cbn [length] in *. replace (S (length l) + 1 - 1)%nat with (S (S (length l) - 1)) by lia.
    rewrite Nat2Z.inj_succ, Z.pow_succ_r by lia. nia.
Qed.

Lemma be_num_inj base a b : 2 <= base -> digits base a -> digits base b -> canon a -> canon b ->
  be_num base a = be_num base b -> a = b.
Proof.
  intros Hb. revert b. induction a as [|d a IH] using rev_ind; intros b Ha Hbb Ca Cb E.
  - destruct b as [|y b] using rev_ind; [reflexivity|]. exfalso.
    assert (0 < be_num base (b ++ [y])); [|cbn in E; lia].
    assert (b ++ [y] <> []) as N by (destruct b; discriminate).
    pose proof (be_num_pos base (b ++ [y]) Hb Hbb Cb N) as P.
    assert (0 < base ^ Z.of_nat (length (b ++ [y]) - 1)) by (apply Z.pow_pos_nonneg; lia). lia.
  - destruct b as [|y b IHb] using rev_ind.
    + exfalso. assert (a ++ [d] <> []) as N by (destruct a; discriminate).
      pose proof (be_num_pos base (a ++ [d]) Hb Ha Ca N) as P.
      assert (0 < base ^ Z.of_nat (length (a ++ [d]) - 1)) by (apply Z.pow_pos_nonneg; lia).
      cbn in E. lia.
    + clear IHb. rewrite !be_num_snoc in E. apply digits_app in Ha, Hbb.
      destruct Ha as [Ha Hd], Hbb as [Hbb Hy]. inversion Hd; inversion Hy; subst.
      pose proof (be_num_nonneg base a ltac:(lia) Ha). pose proof (be_num_nonneg base b ltac:(lia) Hbb).
      assert (be_num base a = be_num base b) as E1.
      { transitivity ((be_num base a * base + d) / base).
        - apply (Z.div_unique_pos _ _ _ d); lia.
        - symmetry. apply (Z.div_unique_pos _ _ _ y); lia. }
      rewrite E1 in E. assert (d = y) as -> by lia.
      f_equal. apply IH; try assumption.
      * destruct a; [exact I|exact Ca].
      * destruct b; [exact I|exact Cb].
Qed.

Lemma be_num_exists base v : 2 <= base -> 0 <= v ->
  exists l, digits base l /\ canon l /\ be_num base l = v.
Proof.
  intros Hb Hv. revert Hv. pattern v.
  destruct (Z.leb_spec 0 v) as [P|]; [|intros; lia].
  revert v P. apply (Z_lt_induction (fun v => 0 <= v -> exists l, digits base l /\ canon l /\ be_num base l = v)).
  intros v IH Hv. destruct (Z.eq_dec v 0) as [->|N].
  - exists []. repeat split; constructor.
  - destruct (IH (v / base)) as [l [Dl [Cl El]]]; [split; [apply Z.div_pos; lia|apply Z.div_lt; lia]|apply Z.div_pos; lia|].
    exists (l ++ [v mod base]). split; [|split].
    + apply digits_app. split; [exact Dl|]. constructor; [apply Z.mod_pos_bound; lia|constructor].
    + destruct l as [|x l]; [|exact Cl]. cbn in El |- *.
      pose proof (Z.div_mod v base ltac:(lia)). rewrite <- El in *. lia.
    + rewrite be_num_snoc, El. rewrite (Z.div_mod v base) at 3 by lia. lia.
Qed.

Lemma leading_split l : exists c, l = repeat 0 (leading 0 l) ++ c /\ canon c.
Proof.
  induction l as [|x l [c [E C]]]; [exists []; split; [reflexivity|exact I]|].
  cbn [leading]. destruct (x =? 0) eqn:X.
  - exists c. cbn [repeat app]. split; [f_equal; [lia|exact E]|exact C].
  - exists (x :: l). split; [reflexivity|cbn; lia].
Qed.

Lemma leading_app k c : canon c -> leading 0 (repeat 0 k ++ c) = k.
Proof.
  intros C. induction k as [|k IH]; cbn [repeat app leading]; [|rewrite IH; reflexivity].
  destruct c as [|x c]; [reflexivity|]. cbn in C |- *. destruct (x =? 0) eqn:E; [lia|reflexivity].
Qed.

Lemma be_num_zeros base k c : be_num base (repeat 0 k ++ c) = be_num base c.
Proof.
  unfold be_num. rewrite fold_left_app. f_equal. induction k as [|k IH]; [reflexivity|].
  cbn [repeat fold_left]. exact IH.
Qed.

Lemma digits_zeros base k : 0 < base -> digits base (repeat 0 k).
Proof. intros Hb. apply Forall_forall. intros x Hx. apply repeat_spec in Hx. subst. lia. Qed.

(* a digit string is determined by its value and its leading zeros *)
Lemma digits_determined base a b : 2 <= base -> digits base a -> digits base b ->
  be_num base a = be_num base b -> leading 0 a = leading 0 b -> a = b.
Proof.
  intros Hb Ha Hbb E L. destruct (leading_split a) as [c [Ec Cc]], (leading_split b) as [d [Ed Cd]].
  rewrite Ec, Ed, L. f_equal. rewrite Ec, Ed, !be_num_zeros in E.
  rewrite Ec in Ha. rewrite Ed in Hbb. apply digits_app in Ha, Hbb.
  apply (be_num_inj base); tauto.
Qed.

(** * to_long and from_long *)

Lemma to_long_loop_Ok base f s ds v p :
  2 <= base -> 0 <= v -> mapM f s = Ok ds -> digits base ds ->
  to_long_loop base f s v p =
    Ok (fold_left (fun v d => v * base + d) ds v,
        p + (if v =? 0 then Z.of_nat (leading 0 ds) else 0)).
Proof.
  intros Hb. revert ds v p. induction s as [|c s IH]; intros ds v p Hv E D; cbn [mapM to_long_loop] in *.
  - apply Ok_inj in E. subst ds. cbn [leading fold_left]. do 2 f_equal. destruct (v =? 0); lia.
  - inv_bind. apply Ok_inj in E. subst ds. rename x into d, x0 into ds.
    rewrite E0. inversion D as [|? ? Hd D']; subst. cbn [fold_left].
    rewrite (IH ds) by (try assumption; nia). do 2 f_equal. cbn [leading].
    destruct (v =? 0) eqn:V.
    + replace v with 0 by lia. cbn [Z.mul Z.add]. destruct (d =? 0) eqn:Dd; lia.
    + destruct (v * base + d =? 0) eqn:W; [nia|lia].
Qed.

Lemma to_long_Ok base f s ds :
  2 <= base -> mapM f s = Ok ds -> digits base ds ->
  to_long base f s = Ok (be_num base ds, Z.of_nat (leading 0 ds)).
Proof. intros. unfold to_long. rewrite (to_long_loop_Ok base f s ds); [reflexivity|lia..|assumption|assumption]. Qed.

Lemma to_long_loop_err base f s v p :
  (exists c e, In c s /\ f c = Err e) -> to_long_loop base f s v p = Err ValueError.
Proof.
  intros [c [e [Hc E]]]. revert v p. induction s as [|x s IH]; intros v p; [destruct Hc|].
  cbn [to_long_loop]. destruct (f x) eqn:F; [|reflexivity].
  destruct Hc as [->|Hc]; [congruence|]. apply IH, Hc.
Qed.

Lemma mapM_ok_or_err {A B} (f : A -> res B) s :
  (exists ds, mapM f s = Ok ds) \/ (exists c e, In c s /\ f c = Err e).
Proof.
  induction s as [|x s IH]; [left; exists []; reflexivity|].
  destruct (f x) as [d|e] eqn:F.
  - destruct IH as [[ds E]|[c [e [Hc E]]]].
    + left. exists (d :: ds). cbn [mapM]. rewrite F, E. reflexivity.
    + right. exists c, e. split; [right; exact Hc|exact E].
  - right. exists x, e. split; [left; reflexivity|exact F].
Qed.

Lemma from_long_loop_Ok base cs ds out fuel :
  2 <= base -> digits base ds -> canon ds -> (length ds <= fuel)%nat -> mapM cs (rev ds) = Ok out ->
  from_long_loop fuel (be_num base ds) base cs = Ok out.
Proof.
  intros Hb. revert out fuel. induction ds as [|d ds IH] using rev_ind; intros out fuel D C L E.
  - cbn in E. apply Ok_inj in E. subst. destruct fuel; reflexivity.
  - rewrite rev_unit in E. cbn [mapM] in E. inv_bind. apply Ok_inj in E. subst out.
    rename x into c, x0 into out. rewrite app_length in L. cbn [length] in L.
    destruct fuel as [|fuel]; [lia|]. cbn [from_long_loop].
    assert (0 < be_num base (ds ++ [d])) as P.
    { assert (ds ++ [d] <> []) as N by (destruct ds; discriminate).
      pose proof (be_num_pos base _ Hb D C N). 
      assert (0 < base ^ Z.of_nat (length (ds ++ [d]) - 1)) by (apply Z.pow_pos_nonneg; lia). lia. }
    replace (0 <? be_num base (ds ++ [d])) with true by lia.
    apply digits_app in D. destruct D as [D Dd]. inversion Dd as [|? ? Hd _]; subst.
    rewrite be_num_snoc. pose proof (be_num_nonneg base ds ltac:(lia) D) as NN.
    replace ((be_num base ds * base + d) mod base) with d
      by (rewrite Z.add_comm, Z.mod_add, Z.mod_small by lia; reflexivity).
    replace ((be_num base ds * base + d) / base) with (be_num base ds)
      by (rewrite Z.add_comm, Z.div_add, Z.div_small by lia; lia).
    rewrite E0. rewrite (IH out fuel); [reflexivity|exact D|destruct ds; [exact I|exact C]|lia|exact E1].
Qed.

Lemma from_long_fuel base ds : 2 <= base -> digits base ds -> canon ds ->
  (length ds <= S (Z.to_nat (Z.log2 (be_num base ds))))%nat.
Proof.
  intros Hb D C. destruct ds as [|d ds]; [cbn; lia|].
  pose proof (be_num_pos base (d :: ds) Hb D C ltac:(discriminate)) as P.
  assert (2 ^ Z.of_nat (length (d :: ds) - 1) <= be_num base (d :: ds)) as Q.
  { eapply Z.le_trans; [|exact P]. apply Z.pow_le_mono_l. lia. }
  apply Z.log2_le_mono in Q. rewrite Z.log2_pow2 in Q by lia. lia.
Qed.

Lemma mapM_repeat {A B} (f : A -> res B) a b k : f a = Ok b -> mapM f (repeat a k) = Ok (repeat b k).
Proof. intros E. induction k as [|k IH]; [reflexivity|]. cbn [repeat mapM]. rewrite E, IH. reflexivity. Qed.

(* from_long gives the digits of v, most significant first, after prefix zeros *)
Lemma from_long_Ok base cs ds out z :
  2 <= base -> digits base ds -> cs 0 = Ok z -> mapM cs ds = Ok out ->
  from_long (be_num base ds) (Z.of_nat (leading 0 ds)) base cs = Ok out.
Proof.
  intros Hb D Ez E. destruct (leading_split ds) as [c [Ec Cc]].
  rewrite Ec in D, E. apply digits_app in D. destruct D as [_ D].
  assert (exists oc, mapM cs c = Ok oc /\ out = repeat z (leading 0 ds) ++ oc) as [oc [Eoc ->]].
  { destruct (mapM_ok_or_err cs c) as [[oc Eoc]|[x [e [Hx Ex]]]].
    - exists oc. split; [exact Eoc|].
      rewrite (mapM_app cs _ _ _ _ (mapM_repeat cs 0 z (leading 0 ds) Ez) Eoc) in E. congruence.
    - exfalso. apply mapM_Ok_Forall2 in E.
      assert (In x (repeat 0 (leading 0 ds) ++ c)) as Hi by (apply in_or_app; right; exact Hx).
      clear - E Hi Ex. induction E as [|a b l r Eab E IH]; [destruct Hi|].
      destruct Hi as [->|Hi]; [congruence|auto]. }
  assert (be_num base ds = be_num base c) as -> by (rewrite Ec at 1; apply be_num_zeros).
  unfold from_long.
  rewrite (from_long_loop_Ok base cs c (rev oc)); [|assumption|assumption|assumption|apply from_long_fuel; assumption|].
  2:{ apply mapM_Ok_Forall2. apply mapM_Ok_Forall2 in Eoc. clear - Eoc.
      induction Eoc as [|a b l r Eab E IH]; cbn [rev]; [constructor|].
      apply Forall2_app; [exact IH|]. repeat constructor. exact Eab. }
  cbn [bind]. rewrite Ez. cbn [bind]. rewrite rev_app_distr, rev_involutive.
  unfold zrepeat. rewrite Nat2Z.id. do 2 f_equal.
  clear. induction (leading 0 ds) as [|k IH]; [reflexivity|]. cbn [repeat rev]. rewrite IH.
  clear. induction k as [|k IH]; [reflexivity|]. cbn [repeat app]. rewrite IH. reflexivity.
Qed.

(** * The alphabet *)

Lemma alphabet_char d : 0 <= d < 58 -> index BASE58_ALPHABET d = Ok (b58_char d).
Proof.
  intros Hd.
  assert (forallb (fun n => match index BASE58_ALPHABET (Z.of_nat n) with
                            | Ok c => c =? b58_char (Z.of_nat n) | Err _ => false end) (seq 0 58) = true) as F
    by (vm_compute; reflexivity).
  rewrite forallb_forall in F. specialize (F (Z.to_nat d)). rewrite Z2Nat.id in F by lia.
  assert (In (Z.to_nat d) (seq 0 58)) as I by (apply in_seq; lia). specialize (F I).
  destruct (index BASE58_ALPHABET d) as [c|e]; [|discriminate]. f_equal. lia.
Qed.

Lemma lookup_char d : 0 <= d < 58 -> BASE58_LOOKUP (b58_char d) = Ok d /\ 0 <= b58_char d < 128.
Proof.
  intros Hd.
  assert (forallb (fun n => match BASE58_LOOKUP (b58_char (Z.of_nat n)) with
                            | Ok x => x =? Z.of_nat n | Err _ => false end
                            && (0 <=? b58_char (Z.of_nat n)) && (b58_char (Z.of_nat n) <? 128))
                  (seq 0 58) = true) as F by (vm_compute; reflexivity).
  rewrite forallb_forall in F. specialize (F (Z.to_nat d)). rewrite Z2Nat.id in F by lia.
  assert (In (Z.to_nat d) (seq 0 58)) as I by (apply in_seq; lia). specialize (F I).
  destruct (BASE58_LOOKUP (b58_char d)) as [x|e]; [|discriminate]. split; [f_equal|]; lia.
Qed.

Lemma lookup_from_spec c l i d : lookup_from c l i = Ok d ->
  exists n, nth_error l n = Some c /\ d = i + Z.of_nat n.
Proof.
  revert i. induction l as [|x l IH]; intros i E; cbn [lookup_from] in E; [discriminate|].
  destruct (c =? x) eqn:X.
  - apply Ok_inj in E. exists O. cbn. split; [f_equal; lia|lia].
  - destruct (IH _ E) as [n [N D]]. exists (S n). split; [exact N|lia].
Qed.

Lemma lookup_Ok c d : BASE58_LOOKUP c = Ok d -> 0 <= d < 58 /\ c = b58_char d.
Proof.
  intros E. apply lookup_from_spec in E. destruct E as [n [N ->]].
  assert (n < 58)%nat as L.
  { change 58%nat with (length BASE58_ALPHABET). apply nth_error_Some. congruence. }
  split; [lia|]. unfold b58_char. rewrite Z.add_0_l, Nat2Z.id.
  symmetry. apply nth_error_nth. exact N.
Qed.

Lemma lookup_from_none c l i : ~ In c l -> lookup_from c l i = Err KeyError.
Proof.
  revert i. induction l as [|x l IH]; intros i N; [reflexivity|]. cbn [lookup_from].
  destruct (c =? x) eqn:X; [exfalso; apply N; left; lia|]. apply IH. intros C; apply N; right; exact C.
Qed.

Lemma lookup_In c : In c b58_digits <-> exists d, BASE58_LOOKUP c = Ok d.
Proof.
  split.
  - intros Hc. unfold BASE58_LOOKUP. change b58_digits with BASE58_ALPHABET in Hc.
    generalize 0 as i. induction BASE58_ALPHABET as [|x l IH]; [destruct Hc|]. intros i. cbn [lookup_from].
    destruct (c =? x) eqn:X; [eauto|]. apply IH. destruct Hc as [->|Hc]; [lia|exact Hc].
  - intros [d E]. apply lookup_from_spec in E. destruct E as [n [N _]].
    eapply nth_error_In. exact N.
Qed.

Lemma mapM_lookup ds : digits 58 ds -> mapM BASE58_LOOKUP (map b58_char ds) = Ok ds.
Proof.
  induction ds as [|d ds IH]; intros D; [reflexivity|]. inversion D; subst. cbn [map mapM].
  rewrite (proj1 (lookup_char d ltac:(assumption))), IH by assumption. reflexivity.
Qed.

Lemma mapM_lookup_inv s ds : mapM BASE58_LOOKUP s = Ok ds -> digits 58 ds /\ s = map b58_char ds.
Proof.
  rewrite mapM_Ok_Forall2. intros E. induction E as [|c d s ds Ecd E [D S]].
  - split; constructor.
  - apply lookup_Ok in Ecd. destruct Ecd as [R ->]. split; [constructor; assumption|].
    cbn [map]. rewrite <- S. reflexivity.
Qed.

Lemma mapM_alphabet ds : digits 58 ds -> mapM (fun v => index BASE58_ALPHABET v) ds = Ok (map b58_char ds).
Proof. intros D. apply mapM_Ok_map. intros d Hd. apply alphabet_char. unfold digits in D. rewrite Forall_forall in D. auto. Qed.

Lemma mapM_Ok_id (l : list Z) : mapM (fun x => Ok x) l = Ok l.
Proof. rewrite (mapM_Ok_map _ (fun x => x)) by reflexivity. rewrite map_id. reflexivity. Qed.

Lemma utf8_ascii s : Forall (fun c => 0 <= c < 128) s -> utf8 s = Ok s.
Proof.
  induction s as [|c s IH]; intros A; [reflexivity|]. inversion A; subst. cbn [utf8].
  unfold utf8_char. replace (c <? 128) with true by lia. rewrite IH by assumption. reflexivity.
Qed.

Lemma utf8_char_Ok c b : utf8_char c = Ok b -> (c < 128 /\ b = [c]) \/ (128 <= c /\ Forall (fun x => 128 <= x) b /\ b <> []).
Proof.
  unfold utf8_char. destruct (c <? 128) eqn:E; [intros Eq; apply Ok_inj in Eq; subst; left; split; [lia|reflexivity]|].
  intros Eq. right. split; [lia|].
  destruct (c <? 2048) eqn:E2; [apply Ok_inj in Eq; subst; split; [repeat constructor; lia|discriminate]|].
  destruct (_ && _); [discriminate|].
  destruct (c <? 65536) eqn:E3; apply Ok_inj in Eq; subst; (split; [repeat constructor; lia|discriminate]).
Qed.

(* decoding looks at characters: a string of alphabet characters, or ValueError *)
Lemma utf8_lookup s : 
  (exists ds, digits 58 ds /\ s = map b58_char ds /\ utf8 s = Ok s) \/
  ((exists c, In c s /\ ~ In c b58_digits) /\
   (utf8 s = Err ValueError \/
    exists b, utf8 s = Ok b /\ exists c e, In c b /\ BASE58_LOOKUP c = Err e)).
Proof.
  induction s as [|c s IH].
  - left. exists []. repeat split; constructor.
  - destruct (in_dec Z.eq_dec c b58_digits) as [I|N].
    + destruct (proj1 (lookup_In c) I) as [d Ed]. apply lookup_Ok in Ed. destruct Ed as [Rd ->].
      destruct (lookup_char d Rd) as [_ A].
      assert (utf8_char (b58_char d) = Ok [b58_char d]) as U
        by (unfold utf8_char; replace (b58_char d <? 128) with true by lia; reflexivity).
      destruct IH as [[ds [D [S E]]]|[[x [Hx Nx]] E]].
      * left. exists (d :: ds). split; [constructor; assumption|].
        split; [cbn [map]; congruence|]. cbn [utf8]. rewrite U, E. reflexivity.
      * right. split; [exists x; split; [right; exact Hx|exact Nx]|]. cbn [utf8]. rewrite U. cbn [bind].
        destruct E as [E|[b [E [y [e [Hy Ey]]]]]]; rewrite E; cbn [bind]; [left; reflexivity|].
        right. eexists. split; [reflexivity|]. exists y, e. split; [right; exact Hy|exact Ey].
    + right. split; [exists c; split; [left; reflexivity|exact N]|]. cbn [utf8].
      assert (utf8_char c = Err ValueError \/ exists b, utf8_char c = Ok b) as [U|[b U]].
      { unfold utf8_char. destruct (c <? 128); [eauto|]. destruct (c <? 2048); [eauto|].
        destruct (_ && _); [eauto|]. destruct (c <? 65536); eauto. }
      { rewrite U. left. reflexivity. }
      rewrite U. cbn [bind].
      assert (exists y e, In y b /\ BASE58_LOOKUP y = Err e) as [y [e [Hy Ey]]].
      { apply utf8_char_Ok in U. destruct U as [[_ ->]|[_ [F Nb]]].
        - exists c. destruct (BASE58_LOOKUP c) as [d|e] eqn:L; [exfalso; apply N, lookup_In; eauto|].
          exists e. split; [left|]; reflexivity.
        - destruct b as [|y b]; [congruence|]. exists y. inversion F; subst.
          destruct (BASE58_LOOKUP y) as [d|e] eqn:L.
          + apply lookup_Ok in L. destruct L as [R ->]. pose proof (proj2 (lookup_char d R)). lia.
          + exists e. split; [left|]; reflexivity. }
      destruct (utf8 s) as [r|e'] eqn:Es.
      * right. eexists. split; [reflexivity|]. exists y, e. split; [apply in_or_app; left; exact Hy|exact Ey].
      * left. cbn [bind]. f_equal. clear - Es. revert Es. induction s as [|x s IH]; [discriminate|].
        cbn [utf8]. unfold utf8_char at 1.
        destruct (x <? 128); [|destruct (x <? 2048); [|destruct (_ && _); [cbn [bind]; congruence|destruct (x <? 65536)]]];
          cbn [bind]; destruct (utf8 s) eqn:F; cbn [bind]; intros Es; try discriminate; apply IH; exact Es.
Qed.

(** * Encode and decode without checksum *)

Lemma is_bytes_digits b : is_bytes b <-> digits 256 b.
Proof. reflexivity. Qed.

Section E.
Context (H : hashes) (net : network).

Lemma encode_raw b : is_bytes b ->
  exists s, base58_encode H net b false = Ok s /\ base58_of b s.
Proof.
  intros B. unfold base58_encode.
  rewrite (to_long_Ok 256 _ b b ltac:(lia) (mapM_Ok_id b) B). cbn [bind].
  destruct (be_num_exists 58 (be_num 256 b)) as [c [D [C E]]]; [lia|apply be_num_nonneg; [lia|exact B]|].
  set (ds := repeat 0 (leading 0 b) ++ c).
  assert (digits 58 ds) as Dd by (apply digits_app; split; [apply digits_zeros; lia|exact D]).
  assert (be_num 58 ds = be_num 256 b) as Ed by (unfold ds; rewrite be_num_zeros; exact E).
  assert (leading 0 ds = leading 0 b) as Ld by (apply leading_app, C).
  exists (map b58_char ds). split.
  - change BASE58_BASE with 58. rewrite <- Ed, <- Ld.
    apply (from_long_Ok 58 _ ds _ 49); [lia|exact Dd|reflexivity|apply mapM_alphabet, Dd].
  - exists ds. auto.
Qed.

Lemma decode_chars ds : digits 58 ds -> forall cs,
  exists b, is_bytes b /\ be_num 256 b = be_num 58 ds /\ leading 0 b = leading 0 ds /\
  base58_decode H net (map b58_char ds) cs =
    if cs
    then let the_hash := slice_from b (-4) in
         let data := slice_to b (-4) in
         if leqb (slice_to (hash256 H net data) 4) the_hash then Ok data
         else Err ValueError
    else Ok b.
Proof.
  intros D cs.
  destruct (be_num_exists 256 (be_num 58 ds)) as [c [Dc [C E]]]; [lia|apply be_num_nonneg; [lia|exact D]|].
  set (b := repeat 0 (leading 0 ds) ++ c).
  assert (digits 256 b) as Db by (apply digits_app; split; [apply digits_zeros; lia|exact Dc]).
  assert (be_num 256 b = be_num 58 ds) as Ed by (unfold b; rewrite be_num_zeros; exact E).
  assert (leading 0 b = leading 0 ds) as Ld by (apply leading_app, C).
  exists b. split; [exact Db|]. split; [exact Ed|]. split; [exact Ld|].
  unfold base58_decode. rewrite utf8_ascii.
  2:{ apply Forall_map. eapply Forall_impl; [|exact D]. intros d Hd. apply (proj2 (lookup_char d Hd)). }
  cbn [bind]. change BASE58_BASE with 58.
  rewrite (to_long_Ok 58 _ _ ds ltac:(lia) (mapM_lookup ds D) D). cbn [bind].
  rewrite <- Ed, <- Ld.
  rewrite (from_long_Ok 256 _ b b 0 ltac:(lia) Db eq_refl (mapM_Ok_id b)). reflexivity.
Qed.

Lemma decode_bad s cs : (exists c, In c s /\ ~ In c b58_digits) ->
  base58_decode H net s cs = Err ValueError.
Proof.
  intros Bad. unfold base58_decode.
  destruct (utf8_lookup s) as [[ds [D [S _]]]|[_ [E|[b [E [c [e [Hc Ec]]]]]]]].
  - exfalso. destruct Bad as [c [Hc N]]. apply N. subst s. apply in_map_iff in Hc.
    destruct Hc as [d [<- Hd]]. unfold digits in D. rewrite Forall_forall in D.
    apply lookup_In. exists d. apply lookup_char, D, Hd.
  - rewrite E. reflexivity.
  - rewrite E. cbn [bind]. unfold to_long. rewrite to_long_loop_err; [reflexivity|]. eauto.
Qed.

Lemma str_chars s : (exists ds, digits 58 ds /\ s = map b58_char ds) \/ (exists c, In c s /\ ~ In c b58_digits).
Proof. destruct (utf8_lookup s) as [[ds [D [S _]]]|[B _]]; [left|right]; eauto. Qed.

Lemma b58_map_inj a b : digits 58 a -> digits 58 b -> map b58_char a = map b58_char b -> a = b.
Proof.
  intros A B E. apply f_equal with (f := mapM BASE58_LOOKUP) in E.
  rewrite !mapM_lookup in E by assumption. congruence.
Qed.

Lemma base58_of_unique b s t : base58_of b s -> base58_of b t -> s = t.
Proof.
  intros [ds [D [-> [V L]]]] [es [E [-> [W M]]]]. f_equal.
  apply (digits_determined 58); [lia|exact D|exact E|congruence|congruence].
Qed.

Lemma base58_of_inj a b s : is_bytes a -> is_bytes b -> base58_of a s -> base58_of b s -> a = b.
Proof.
  intros A B [ds [D [-> [V L]]]] [es [E [Em [W M]]]].
  apply b58_map_inj in Em; [|assumption|assumption]. subst es.
  apply (digits_determined 256); [lia|exact A|exact B|congruence|congruence].
Qed.

Lemma decode_raw_spec s b : 
  base58_decode H net s false = Ok b <-> is_bytes b /\ base58_of b s.
Proof.
  split.
  - intros E. destruct (str_chars s) as [[ds [D ->]]|Bad].
    + destruct (decode_chars ds D false) as [b' [B [V [L E']]]]. rewrite E' in E.
      apply Ok_inj in E. subst b'. split; [exact B|]. exists ds. auto.
    + rewrite decode_bad in E by exact Bad. discriminate.
  - intros [B [ds [D [-> [V L]]]]]. destruct (decode_chars ds D false) as [b' [B' [V' [L' E']]]].
    rewrite E'. f_equal. apply (digits_determined 256); [lia|exact B'|exact B|congruence|congruence].
Qed.

Lemma encode_raw_spec b s : is_bytes b -> base58_encode H net b false = Ok s <-> base58_of b s.
Proof.
  intros B. destruct (encode_raw b B) as [t [E S]]. rewrite E. split.
  - intros Eq. apply Ok_inj in Eq. subst. exact S.
  - intros S'. f_equal. eapply base58_of_unique; eassumption.
Qed.

Lemma decode_raw_error s :
  (exists c, In c s /\ ~ In c b58_digits) <-> base58_decode H net s false = Err ValueError.
Proof.
  split; [intros Bad; apply decode_bad, Bad|]. intros E.
  destruct (str_chars s) as [[ds [D ->]]|Bad]; [|exact Bad].
  destruct (decode_chars ds D false) as [b' [B' [V' [L' E']]]]. congruence.
Qed.

Lemma decode_raw_total s : 
  (exists b, base58_decode H net s false = Ok b) \/ base58_decode H net s false = Err ValueError.
Proof.
  destruct (str_chars s) as [[ds [D ->]]|Bad].
  - left. destruct (decode_chars ds D false) as [b' [B' [V' [L' E']]]]. eauto.
  - right. apply decode_bad, Bad.
Qed.

(** * Checksums *)

Lemma hash256_ok m : hashes_ok H -> zlen (hash256 H net m) = 32 /\ is_bytes (hash256 H net m).
Proof.
  intros [S [R [B _]]]. unfold hash256, blake256. destruct (contains _ _); [apply B|apply S].
Qed.

Lemma checksum_len m : hashes_ok H -> zlen (slice_to (hash256 H net m) 4) = 4.
Proof. intros K. destruct (hash256_ok m K) as [L _]. rewrite zlen_slice_to by lia. lia. Qed.

Lemma slice_neg_split {A} (l : list A) i : slice_to l i ++ slice_from l i = l.
Proof. unfold slice_to, slice_from. apply firstn_skipn. Qed.

Lemma slice_to_neg_app {A} (a b : list A) i : i < 0 -> zlen b = - i -> slice_to (a ++ b) i = a.
Proof.
  intros Hk Hb. unfold slice_to, clampi. destruct (i <? 0) eqn:E; [|lia]. rewrite zlen_app.
  replace (Z.max 0 (zlen a + zlen b + i)) with (zlen a) by (pose proof (zlen_nonneg a); lia).
  apply firstn_app_zlen. reflexivity.
Qed.

Lemma slice_from_neg_app {A} (a b : list A) i : i < 0 -> zlen b = - i -> slice_from (a ++ b) i = b.
Proof.
  intros Hk Hb. unfold slice_from, clampi. destruct (i <? 0) eqn:E; [|lia]. rewrite zlen_app.
  replace (Z.max 0 (zlen a + zlen b + i)) with (zlen a) by (pose proof (zlen_nonneg a); lia).
  apply skipn_app_zlen. reflexivity.
Qed.

Lemma encode_checksum_raw b :
  encode_with_checksum H net b = base58_encode H net (b ++ slice_to (hash256 H net b) 4) false.
Proof. reflexivity. Qed.

Lemma encode_checksum_spec b s : hashes_ok H -> is_bytes b ->
  encode_with_checksum H net b = Ok s <-> base58_of (b ++ slice_to (hash256 H net b) 4) s.
Proof.
  intros K B. rewrite encode_checksum_raw. apply encode_raw_spec. apply is_bytes_app.
  split; [exact B|]. apply is_bytes_slice_to, (hash256_ok b K).
Qed.

Lemma encode_checksum_total b : hashes_ok H -> is_bytes b ->
  exists s, encode_with_checksum H net b = Ok s.
Proof.
  intros K B. rewrite encode_checksum_raw.
  destruct (encode_raw (b ++ slice_to (hash256 H net b) 4)) as [s [E _]]; [|eauto].
  apply is_bytes_app. split; [exact B|]. apply is_bytes_slice_to, (hash256_ok b K).
Qed.

Lemma decode_checksum_spec s b : hashes_ok H ->
  decode_with_checksum H net s = Ok b <-> is_bytes b /\ encode_with_checksum H net b = Ok s.
Proof.
  intros K. unfold decode_with_checksum. split.
  - intros E. destruct (str_chars s) as [[ds [D ->]]|Bad]; [|rewrite decode_bad in E by exact Bad; discriminate].
    destruct (decode_chars ds D true) as [d [Bd [V [L E']]]]. rewrite E' in E. cbn zeta in E.
    destruct (leqb_spec (slice_to (hash256 H net (slice_to d (-4))) 4) (slice_from d (-4))) as [Q|]; [|discriminate].
    apply Ok_inj in E. assert (is_bytes b) as Bb by (subst b; apply is_bytes_slice_to, Bd).
    split; [exact Bb|]. apply encode_checksum_spec; [exact K|exact Bb|].
    exists ds. subst b. rewrite Q, slice_neg_split. auto.
  - intros [Bb E]. apply encode_checksum_spec in E; [|exact K|exact Bb].
    destruct E as [ds [D [-> [V L]]]]. destruct (decode_chars ds D true) as [d [Bd [V' [L' E']]]].
    rewrite E'. cbn zeta.
    assert (d = b ++ slice_to (hash256 H net b) 4) as ->.
    { apply (digits_determined 256); [lia|exact Bd| |congruence|congruence].
      apply is_bytes_app. split; [exact Bb|]. apply is_bytes_slice_to, (hash256_ok b K). }
    pose proof (checksum_len b K) as C4.
    rewrite slice_to_neg_app, slice_from_neg_app by (try lia; exact C4). rewrite leqb_refl. reflexivity.
Qed.

Lemma decode_checksum_total s :
  (exists b, decode_with_checksum H net s = Ok b) \/ decode_with_checksum H net s = Err ValueError.
Proof.
  unfold decode_with_checksum. destruct (str_chars s) as [[ds [D ->]]|Bad].
  - destruct (decode_chars ds D true) as [d [Bd [V [L E']]]]. rewrite E'. cbn zeta.
    destruct (leqb _ _); eauto.
  - right. apply decode_bad, Bad.
Qed.

Lemma has_checksum_spec s : hashes_ok H ->
  (has_checksum H net s = Ok true <-> exists b, is_bytes b /\ encode_with_checksum H net b = Ok s) /\
  (has_checksum H net s = Ok true \/ has_checksum H net s = Ok false).
Proof.
  intros K. unfold has_checksum. destruct (decode_checksum_total s) as [[b E]|E]; rewrite E.
  - split; [|left; reflexivity]. split; [|reflexivity]. intros _. exists b.
    apply decode_checksum_spec; assumption.
  - split; [|right; reflexivity]. split; [discriminate|]. intros [b Eb].
    apply decode_checksum_spec in Eb; [|exact K]. congruence.
Qed.

Lemma encode_checksum_inj a b s : hashes_ok H -> is_bytes a -> is_bytes b ->
  encode_with_checksum H net a = Ok s -> encode_with_checksum H net b = Ok s -> a = b.
Proof.
  intros K A B Ea Eb.
  assert (decode_with_checksum H net s = Ok a) as Da by (apply decode_checksum_spec; auto).
  assert (decode_with_checksum H net s = Ok b) as Db by (apply decode_checksum_spec; auto).
  congruence.
Qed.
End E.

Lemma toy_ok : hashes_ok toy.
Proof.
  unfold hashes_ok, toy, toy_digest. cbn [h_sha256 h_rmd160 h_blake256 h_blake2b].
  repeat split; try apply to_le_bytes; try (rewrite zlen_to_le; lia).
Qed.

Lemma hash256_by_name H name net m : get_network name = Ok net ->
  (In name decred_names -> hash256 H net m = blake256d H m) /\
  (~ In name decred_names -> hash256 H net m = sha256d H m).
Proof.
  intros E. pose proof (decred_only_names name net E) as D. unfold hash256, blake256, blake256d, sha256d.
  destruct (contains _ _); split; intros I; try reflexivity; exfalso.
  - apply I, D. reflexivity.
  - apply D in I. discriminate.
Qed.

Lemma hash160_by_name H name net m : get_network name = Ok net ->
  (In name decred_names -> hash160 H net m = h_rmd160 H (h_blake256 H m)) /\
  (~ In name decred_names -> hash160 H net m = h_rmd160 H (h_sha256 H m)).
Proof.
  intros E. pose proof (decred_only_names name net E) as D. unfold hash160, blake256, sha256.
  destruct (contains _ _); split; intros I; try reflexivity; exfalso.
  - apply I, D. reflexivity.
  - apply D in I. discriminate.
Qed.

Lemma base58check_text_lemma H name net b s :
  hashes_ok H -> get_network name = Ok net -> is_bytes b ->
  encode_with_checksum H net b = Ok s <->
  base58_of (b ++ firstn 4 (if in_dec list_eq_dec_Z name decred_names then blake256d H b else sha256d H b)) s.
Proof.
  intros K E B. rewrite encode_checksum_spec by assumption. rewrite slice_to_firstn by lia.
  destruct (hash256_by_name H name net b E) as [D N].
  destruct (in_dec _ _ _) as [I|I]; [rewrite (D I)|rewrite (N I)]; reflexivity.
Qed.

Lemma decode_encode_raw H net b s :
  is_bytes b -> base58_encode H net b false = Ok s -> base58_decode H net s false = Ok b.
Proof. intros B E. apply decode_raw_spec. apply encode_raw_spec in E; auto. Qed.

Lemma encode_decode_raw H net s b :
  base58_decode H net s false = Ok b -> is_bytes b /\ base58_encode H net b false = Ok s.
Proof. intros E. apply decode_raw_spec in E. destruct E as [B E]. split; [exact B|]. apply encode_raw_spec; auto. Qed.

Lemma decode_encode_check H net b : hashes_ok H -> is_bytes b ->
  exists s, encode_with_checksum H net b = Ok s /\ decode_with_checksum H net s = Ok b.
Proof.
  intros K B. destruct (encode_checksum_total H net b K B) as [s E]. exists s. split; [exact E|].
  apply decode_checksum_spec; auto.
Qed.
