(* C37, C38, C55: riemann/blake256.py.  [blake_digest], [variant_of], [message_fits]
   and [salt_words] are the BLAKE specification, in SBlake.v; [digest_in_pieces]
   calls update on each piece and final on the last (LBlakeMain.v). *)
From Coq Require Import String.
From Verif Require Import Py SNum SBlake MBlake LBase LBlake LBlakeTop LBlakeFinal LBlakeMain.
Open Scope list_scope.
Open Scope Z_scope.

(* C37: only the concatenation of the pieces matters, whatever its length *)
Theorem blake_split : forall n o ds d ds' d', blake_init n = Ok o -> concat ds ++ d = concat ds' ++ d' ->
  digest_in_pieces o ds d = digest_in_pieces o ds' d'.
Proof.
  intros n o ds d ds' d' E C. destruct (init_agrees n o E) as [V [Hv _]].
  destruct (pieces_exact n V o ds d Hv E) as [P1 P2], (pieces_exact n V o ds' d' Hv E) as [Q1 Q2]. rewrite <- C in Q1, Q2.
  destruct (Z.lt_ge_cases (8 * len (concat ds ++ d)) (2 ^ (2 * word V))) as [F|F].
  - rewrite P1, Q1 by exact F. reflexivity.
  - rewrite P2, Q2; [reflexivity| |]; unfold message_fits; lia.
Qed.
Print Assumptions blake_split.
(* final twice: the same object and digest, whatever the argument *)
Theorem blake_final_twice : forall n o ds d x o1 o2 h, blake_init n = Ok o -> updates o ds = Ok o1 -> blake_final o1 (DBytes d) = Ok (o2, h) ->
  blake_final o2 x = Ok (o2, h).
Proof.
  intros n o ds d x o1 o2 h E U F. destruct (init_agrees n o E) as [V [Hv _]]. destruct (init_variant n V o Hv E) as [Ag [Ab [St [C Hs]]]].
  destruct (updates_counted Ag ds 0 o C) as [o1' [U' [C1 S1]]]; [rewrite St; discriminate|]. rewrite U in U'. apply Ok_inj in U'. subst o1'.
  destruct (Z.lt_ge_cases (8 * zlen (concat ds ++ d)) (2 ^ (2 * word V))) as [L|L].
  - destruct (updates_absorbed Ag no_salt ds Hs [] o Ab) as [o1' [U' [Ab1 _]]]; [rewrite St; discriminate|rewrite zlen_app in L; cbn [app]; pose proof (zlen_nonneg d); lia|].
    rewrite U in U'. apply Ok_inj in U'. subst o1'. destruct (final_msg Ag no_salt _ o1 d Hs Ab1 S1 L) as [o2' [F' [S2 H2]]].
    rewrite F in F'. apply Ok_inj in F'. injection F' as <- Eh. assert (h = b_hash o2) as -> by (rewrite H2; exact Eh). apply final_again, S2.
  - rewrite (final_big Ag _ o1 d C1 S1) in F; [discriminate|]. rewrite zlen_app in L. lia.
Qed.
Print Assumptions blake_final_twice.
(* an update after final is accepted, and the next digest is not that of the
   message *)
Theorem blake_update_after_final_refuted : exists o o1 h1 o2 o3 h3,
  blake_init 256 = Ok o /\ blake_final o (DBytes []) = Ok (o1, h1) /\ blake_update o1 (DBytes [1]) = Ok o2 /\
  blake_final o2 (DBytes []) = Ok (o3, h3) /\ h3 <> blake_digest BLAKE256 no_salt [1].
Proof.
  assert (match blake_init 256 with
          | Ok o => match blake_final o (DBytes []) with
                    | Ok (o1, _) => match blake_update o1 (DBytes [1]) with
                                    | Ok o2 => match blake_final o2 (DBytes []), blake_hash [1] with
                                               | Ok (_, h3), Ok h => leqb h3 h = false
                                               | _, _ => False
                                               end
                                    | Err _ => False
                                    end
                    | Err _ => False
                    end
          | Err _ => False
          end) as X by (vm_compute; reflexivity).
  destruct (blake_init 256) as [o|]; [|contradiction]. destruct (blake_final o (DBytes [])) as [[o1 h1]|] eqn:F; [|contradiction].
  destruct (blake_update o1 (DBytes [1])) as [o2|] eqn:U; [|contradiction]. destruct (blake_final o2 (DBytes [])) as [[o3 h3]|] eqn:G; [|contradiction].
  assert (blake_hash [1] = Ok (blake_digest BLAKE256 no_salt [1])) as P.
  { destruct (init_exists 256 BLAKE256 v256) as [o' E]. unfold blake_hash. rewrite E. cbn [bind]. apply (pieces_exact 256 BLAKE256 o' [] [1] v256 E). reflexivity. }
  rewrite P in X. apply leqb_neq in X. exists o, o1, h1, o2, o3, h3. split; [reflexivity|]. split; [exact F|]. split; [exact U|]. split; [exact G|exact X].
Qed.
Print Assumptions blake_update_after_final_refuted.
Example blake_split_ex : (o <- blake_init 256 ;; digest_in_pieces o [repeat 0 20; []; repeat 0 44; repeat 0 3] (repeat 0 5)) =
  Ok [0xd4; 0x19; 0xba; 0xd3; 0x2d; 0x50; 0x4f; 0xb7; 0xd4; 0x4d; 0x46; 0x0c; 0x42; 0xc5; 0x59; 0x3f;
      0xe5; 0x44; 0xfa; 0x4c; 0x13; 0x5d; 0xec; 0x31; 0xe2; 0x1b; 0xd9; 0xab; 0xdc; 0xc2; 0x2d; 0x41].
Proof. vm_compute. reflexivity. Qed.

(* C38: the digests are those of the specification, up to its longest message *)
Theorem blake_hash_exact : forall m,
  (8 * len m < 2 ^ 64 -> blake_hash m = Ok (blake_digest BLAKE256 no_salt m)) /\ (2 ^ 64 <= 8 * len m -> blake_hash m = Err StructError).
Proof.
  intros m. destruct (init_exists 256 BLAKE256 v256) as [o E]. destruct (pieces_exact 256 BLAKE256 o [] m v256 E) as [P Q].
  unfold blake_hash. rewrite E. cbn [bind]. split; intros L.
  - exact (P L).
  - apply Q. unfold message_fits. cbn [concat app]. change (2 * word BLAKE256) with 64. lia.
Qed.
Print Assumptions blake_hash_exact.
Theorem blake_digests : forall n V o ds d, variant_of n V -> blake_init n = Ok o ->
  (message_fits V (concat ds ++ d) -> digest_in_pieces o ds d = Ok (blake_digest V no_salt (concat ds ++ d))) /\
  (~ message_fits V (concat ds ++ d) -> digest_in_pieces o ds d = Err StructError).
Proof. exact pieces_exact. Qed.
Print Assumptions blake_digests.
Theorem blake_sizes : forall n, (exists o, blake_init n = Ok o) <-> exists V, variant_of n V.
Proof.
  intros n. split.
  - intros [o E]. destruct (init_agrees n o E) as [V [Hv _]]. exists V. exact Hv.
  - intros [V Hv]. exact (init_exists n V Hv).
Qed.
Print Assumptions blake_sizes.
Theorem blake_other_sizes : forall n, (~ exists V, variant_of n V) -> blake_init n = Err PyException.
Proof.
  intros n N. unfold blake_init. destruct (zmem n [224; 256; 384; 512]) eqn:Z; [|reflexivity]. exfalso. apply N. apply zmem_In in Z.
  destruct Z as [<-|[<-|[<-|[<-|[]]]]]; eexists; constructor.
Qed.
Print Assumptions blake_other_sizes.
(* digests are n / 8 bytes *)
Theorem blake_digest_size : forall n V salt m, variant_of n V -> len (blake_digest V salt m) = n / 8 /\ all_bytes (blake_digest V salt m).
Proof. exact digest_size. Qed.
Print Assumptions blake_digest_size.
(* salts: the last four words of the string; shorter strings raise, and so does
   any salt after an update *)
Theorem blake_salted : forall n V o salt ds d, variant_of n V -> blake_init n = Ok o -> all_bytes salt -> 4 * word_bytes V <= len salt ->
  message_fits V (concat ds ++ d) ->
  exists o', blake_addsalt o salt = Ok o' /\ digest_in_pieces o' ds d = Ok (blake_digest V (salt_words V salt) (concat ds ++ d)).
Proof. exact salted_exact. Qed.
Print Assumptions blake_salted.
Theorem blake_salt_refused : forall n V o salt d o', variant_of n V -> blake_init n = Ok o ->
  (len salt < 4 * word_bytes V -> blake_addsalt o salt = Err TypeError) /\ (blake_update o (DBytes d) = Ok o' -> blake_addsalt o' salt = Err PyException).
Proof.
  intros n V o salt d o' Hv E. destruct (init_variant n V o Hv E) as [Ag [_ [St [C _]]]]. split.
  - intros L. unfold blake_addsalt. rewrite St. change (1 =? 1) with true. cbv [negb guard]. cbn [bind]. rewrite (ag_wbytes _ _ _ Ag).
    change (len salt) with (zlen salt) in L. destruct (Z.ltb_spec (zlen salt) (word_bytes V * 4)); [reflexivity|lia].
  - intros U. destruct (update_counted Ag 0 o d C) as [o1 [U1 [_ S1]]]. rewrite U in U1. apply Ok_inj in U1. subst o1. unfold blake_addsalt. rewrite S1. reflexivity.
Qed.
Print Assumptions blake_salt_refused.
Theorem blake_hexdigest_exact : forall o d o' h, blake_final o d = Ok (o', h) -> blake_hexdigest o d = Ok (o', hex h).
Proof. intros o d o' h F. unfold blake_hexdigest. rewrite F. reflexivity. Qed.
Print Assumptions blake_hexdigest_exact.
(* the specification on the test vectors of the BLAKE submission *)
Example blake_hash_ex : blake_digest BLAKE256 no_salt [0] =
  [0x0c; 0xe8; 0xd4; 0xef; 0x4d; 0xd7; 0xcd; 0x8d; 0x62; 0xdf; 0xde; 0xd9; 0xd4; 0xed; 0xb0; 0xa7;
   0x74; 0xae; 0x6a; 0x41; 0x92; 0x9a; 0x74; 0xda; 0x23; 0x10; 0x9e; 0x8f; 0x11; 0x13; 0x9c; 0x87].
Proof. apply Ok_inj. rewrite <- (proj1 (blake_hash_exact [0])) by reflexivity. vm_compute. reflexivity. Qed.
Example blake_digests_ex : blake_digest BLAKE384 no_salt [0] =
  [0x10; 0x28; 0x1f; 0x67; 0xe1; 0x35; 0xe9; 0x0a; 0xe8; 0xe8; 0x82; 0x25; 0x1a; 0x35; 0x55; 0x10;
   0xa7; 0x19; 0x36; 0x7a; 0xd7; 0x02; 0x27; 0xb1; 0x37; 0x34; 0x3e; 0x1b; 0xc1; 0x22; 0x01; 0x5c;
   0x29; 0x39; 0x1e; 0x85; 0x45; 0xb5; 0x27; 0x2d; 0x13; 0xa7; 0xc2; 0x87; 0x9d; 0xa3; 0xd8; 0x07].
Proof.
  destruct (blake_init 384) as [o|] eqn:E; [|discriminate]. apply Ok_inj. pose proof (proj1 (pieces_exact 384 BLAKE384 o [] [0] v384 E) eq_refl) as P. cbn [concat app] in P. rewrite <- P.
  apply Ok_inj in E. subst o. vm_compute. reflexivity.
Qed.

(* C55, full statement: a str is hashed as its UTF-8 encoding.  True for ASCII
   only: as many bytes are used as the str has characters. *)
Theorem blake_text_exact : forall n o ds o1 x b, blake_init n = Ok o -> updates o ds = Ok o1 -> utf8 x = Ok b ->
  blake_update o1 (DStr x) = blake_update o1 (DBytes (firstn (length x) b)).
Proof.
  intros n o ds o1 x b E U Ux. destruct (init_agrees n o E) as [V [Hv _]]. destruct (init_variant n V o Hv E) as [Ag [_ [St [C _]]]].
  destruct (updates_counted Ag ds 0 o C) as [o1' [U' [C1 S1]]]; [rewrite St; discriminate|]. rewrite U in U'. apply Ok_inj in U'. subst o1'.
  exact (update_str Ag _ o1 x b C1 Ux).
Qed.
Print Assumptions blake_text_exact.
Theorem blake_text_partial : forall n o ds o1 x, blake_init n = Ok o -> updates o ds = Ok o1 -> Forall (fun c => 0 <= c < 128) x ->
  blake_update o1 (DStr x) = blake_update o1 (DBytes x).
Proof.
  intros n o ds o1 x E U F.
  assert (utf8 x = Ok x) as Ux.
  { clear - F. induction F as [|c x Hc F IH]; [reflexivity|]. cbn [utf8]. unfold utf8_char. destruct (Z.ltb_spec c 128); [|lia]. cbn [bind]. rewrite IH. reflexivity. }
  rewrite (blake_text_exact n o ds o1 x x E U Ux). rewrite firstn_all. reflexivity.
Qed.
Print Assumptions blake_text_partial.
Theorem blake_text_refuted : forall o, blake_init 256 = Ok o ->
  utf8 [233] = Ok [195; 169] /\ (' (_, h) <- blake_final o (DStr [233]) ;; Ok h) = Ok (blake_digest BLAKE256 no_salt [195]) /\
  blake_digest BLAKE256 no_salt [195] <> blake_digest BLAKE256 no_salt [195; 169].
Proof.
  intros o E. split; [reflexivity|].
  assert (blake_hash [195] = Ok (blake_digest BLAKE256 no_salt [195])) as A by (apply blake_hash_exact; reflexivity).
  assert (blake_hash [195; 169] = Ok (blake_digest BLAKE256 no_salt [195; 169])) as B by (apply blake_hash_exact; reflexivity).
  split.
  - rewrite <- A. apply Ok_inj in E. subst o. vm_compute. reflexivity.
  - assert (match blake_hash [195], blake_hash [195; 169] with Ok a, Ok b => leqb a b = false | _, _ => False end) as Y by (vm_compute; reflexivity).
    rewrite A, B in Y. apply leqb_neq in Y. exact Y.
Qed.
Print Assumptions blake_text_refuted.
Example blake_text_ex : exists o, blake_init 512 = Ok o /\ updates o [] = Ok o /\ utf8 (lit "abc") = Ok [97; 98; 99].
Proof. eexists. split; [reflexivity|]. split; reflexivity. Qed.
