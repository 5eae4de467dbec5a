(* C55: the bytes of a text argument (also of base58.decode) are those of UTF-8 *)
From Verif Require Import Py LBase SText.
Open Scope Z_scope.

Lemma text_char c bs : code_point c -> (utf8_char c = Ok bs <-> octets c bs).
Proof.
  intros [C0 C1]. unfold utf8_char, octets, bits6. split.
  - intros E.
    destruct (Z.ltb_spec c 128). { apply Ok_inj in E. subst bs. left. split; [reflexivity|lia]. }
    destruct (Z.ltb_spec c 2048).
    { apply Ok_inj in E. subst bs. right. left. exists (c / 64), (c mod 64). split; [reflexivity|].
      pose proof (Z.div_mod c 64). pose proof (Z.mod_pos_bound c 64). change (2 ^ 6) with 64. lia. }
    destruct ((55296 <=? c) && (c <=? 57343)) eqn:S; [discriminate|].
    destruct (Z.ltb_spec c 65536).
    { apply Ok_inj in E. subst bs. right. right. left. exists (c / 4096), ((c / 64) mod 64), (c mod 64). split; [reflexivity|].
      pose proof (Z.div_mod c 64). pose proof (Z.mod_pos_bound c 64). pose proof (Z.div_mod (c / 64) 64). pose proof (Z.mod_pos_bound (c / 64) 64).
      rewrite Z.div_div in * by lia. change (64 * 64) with 4096 in *. change (2 ^ 6) with 64. change (2 ^ 12) with 4096. lia. }
    apply Ok_inj in E. subst bs. right. right. right. exists (c / 262144), ((c / 4096) mod 64), ((c / 64) mod 64), (c mod 64). split; [reflexivity|].
    pose proof (Z.div_mod c 64). pose proof (Z.mod_pos_bound c 64). pose proof (Z.div_mod (c / 64) 64). pose proof (Z.mod_pos_bound (c / 64) 64).
    rewrite Z.div_div in * by lia. change (64 * 64) with 4096 in *.
    pose proof (Z.div_mod (c / 4096) 64). pose proof (Z.mod_pos_bound (c / 4096) 64). rewrite Z.div_div in * by lia. change (4096 * 64) with 262144 in *.
    change (2 ^ 6) with 64. change (2 ^ 12) with 4096. change (2 ^ 18) with 262144. lia.
  - change (2 ^ 6) with 64. change (2 ^ 12) with 4096. change (2 ^ 18) with 262144.
    intros [[-> B]|[[x [y [-> [X [Y [E B]]]]]]|[[x [y [z [-> [X [Y [Z0 [E [B S]]]]]]]]]|[x [y [z [w [-> [X [Y [Z0 [W [E B]]]]]]]]]]]]].
    + destruct (Z.ltb_spec c 128); [reflexivity|lia].
    + destruct (Z.ltb_spec c 128); [lia|]. destruct (Z.ltb_spec c 2048); [|lia].
      rewrite <- (Z.div_unique c 64 x y), <- (Z.mod_unique c 64 x y) by lia. reflexivity.
    + destruct (Z.ltb_spec c 128); [lia|]. destruct (Z.ltb_spec c 2048); [lia|].
      replace ((55296 <=? c) && (c <=? 57343)) with false by lia. destruct (Z.ltb_spec c 65536); [|lia].
      rewrite <- (Z.div_unique c 4096 x (y * 64 + z)), <- (Z.div_unique c 64 (x * 64 + y) z), <- (Z.mod_unique (x * 64 + y) 64 x y), <- (Z.mod_unique c 64 (x * 64 + y) z) by lia. reflexivity.
    + destruct (Z.ltb_spec c 128); [lia|]. destruct (Z.ltb_spec c 2048); [lia|].
      replace ((55296 <=? c) && (c <=? 57343)) with false by lia. destruct (Z.ltb_spec c 65536); [lia|].
      rewrite <- (Z.div_unique c 262144 x (y * 4096 + z * 64 + w)), <- (Z.div_unique c 4096 (x * 64 + y) (z * 64 + w)), <- (Z.mod_unique (x * 64 + y) 64 x y) by lia.
      rewrite <- (Z.div_unique c 64 (x * 4096 + y * 64 + z) w), <- (Z.mod_unique (x * 4096 + y * 64 + z) 64 (x * 64 + y) z), <- (Z.mod_unique c 64 (x * 4096 + y * 64 + z) w) by lia. reflexivity.
Qed.

(* the bytes of a text are the octets of its code points, one after the other *)
Theorem text_is_utf8 : forall s b, Forall code_point s ->
  (utf8 s = Ok b <-> exists parts, Forall2 octets s parts /\ b = concat parts).
Proof.
  intros s b F. revert b. induction F as [|c s C F IH]; intros b.
  - cbn [utf8]. split.
    + intros E. apply Ok_inj in E. subst b. exists []. split; [constructor|reflexivity].
    + intros [parts [P ->]]. inversion P. reflexivity.
  - cbn [utf8]. split.
    + intros E. apply bind_Ok in E. destruct E as [x [X E]]. apply bind_Ok in E. destruct E as [r [R E]]. apply Ok_inj in E. subst b.
      apply text_char in X; [|exact C]. apply IH in R. destruct R as [parts [P ->]]. exists (x :: parts). split; [constructor; assumption|reflexivity].
    + intros [parts [P ->]]. inversion P as [|? x ? ps X Ps]; subst. apply (text_char c x C) in X. rewrite X. cbn [bind].
      assert (utf8 s = Ok (concat ps)) as -> by (apply IH; exists ps; split; [exact Ps|reflexivity]). reflexivity.
Qed.
Print Assumptions text_is_utf8.
(* one code point of each length *)
Example text_is_utf8_ex : Forall code_point [0x24; 0xE9; 0x2764; 0x1F600] /\
  utf8 [0x24; 0xE9; 0x2764; 0x1F600] = Ok [0x24; 0xC3; 0xA9; 0xE2; 0x9D; 0xA4; 0xF0; 0x9F; 0x98; 0x80].
Proof. split; [repeat constructor; unfold code_point; lia|reflexivity]. Qed.

(* a text with a surrogate has no bytes; every other text has *)
Theorem text_refused : forall s, Forall code_point s ->
  (utf8 s = Err ValueError <-> Exists (fun c => 0xD800 <= c <= 0xDFFF) s).
Proof.
  intros s F. induction F as [|c s C F IH]; [split; [discriminate|intros X; inversion X]|].
  cbn [utf8]. unfold utf8_char.
  assert ((r <- utf8 s ;; Ok (r : bytes)) = utf8 s) as R by (destruct (utf8 s); reflexivity).
  assert (forall b : bytes, ~ 0xD800 <= c <= 0xDFFF -> ((r <- utf8 s ;; Ok (b ++ r)) = Err ValueError <-> Exists (fun c => 0xD800 <= c <= 0xDFFF) (c :: s))) as K.
  { intros b N. split.
    - intros E. apply Exists_cons_tl, IH. destruct (utf8 s); [discriminate|exact E].
    - intros E. inversion E as [? ? X|? ? X]; subst; [contradiction|]. apply IH in X. rewrite X. reflexivity. }
  destruct (Z.ltb_spec c 128); [apply K; lia|]. destruct (Z.ltb_spec c 2048); [apply K; lia|].
  destruct ((55296 <=? c) && (c <=? 57343)) eqn:S.
  - cbn [bind]. split; [intros _; apply Exists_cons_hd; lia|reflexivity].
  - destruct (Z.ltb_spec c 65536); apply K; lia.
Qed.
Print Assumptions text_refused.
Example text_refused_ex : utf8 [0x41; 0xD800] = Err ValueError /\ code_point 0xD800.
Proof. split; [reflexivity|unfold code_point; lia]. Qed.
