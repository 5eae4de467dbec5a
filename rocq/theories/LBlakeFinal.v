(* Lemmas for blake256.py: padding and digests *)
From Verif Require Import Py SNum SBlake MBlake LBase LUtils LBlake LBlakeTop.
Open Scope Z_scope.
Ltac Zify.zify_post_hook ::= idtac.

Lemma int2byte_Ok k x : 0 <= k -> 0 <= x < 256 ^ k -> int2byte k x = Ok (be_bytes k x).
Proof.
  intros K X. unfold int2byte, to_bytes, fits. destruct (Z.ltb_spec k 0); [lia|].
  replace ((0 <=? x) && (x <? 256 ^ k)) with true by lia. unfold be_bytes. rewrite le_bytes_to_le. reflexivity.
Qed.
Lemma int2byte_big k x : 0 <= k -> 256 ^ k <= x -> int2byte k x = Err StructError.
Proof.
  intros K X. unfold int2byte, to_bytes, fits. destruct (Z.ltb_spec k 0); [lia|].
  replace ((0 <=? x) && (x <? 256 ^ k)) with false by lia. reflexivity.
Qed.
Lemma zlen_be_bytes k x : 0 <= k -> zlen (be_bytes k x) = k.
Proof. intros K. unfold be_bytes. rewrite zlen_rev, zlen_le_bytes. lia. Qed.

Lemma be_bytes_16 x : 0 <= x -> be_bytes 8 (x / 2 ^ 64) ++ be_bytes 8 (x mod 2 ^ 64) = be_bytes 16 x.
Proof.
  intros X. unfold be_bytes. rewrite <- rev_app_distr. f_equal. unfold le_bytes.
  change (Z.to_nat 16) with (8 + 8)%nat. change (Z.to_nat 8) with 8%nat. rewrite seq_app, map_app. f_equal.
  - apply map_ext_in. intros i I. apply in_seq in I.
    assert (2 ^ 64 = 256 ^ Z.of_nat i * 256 * 256 ^ (7 - Z.of_nat i)) as E.
    { rewrite <- (Z.pow_1_r 256) at 2. rewrite <- !Z.pow_add_r by lia. replace (Z.of_nat i + 1 + (7 - Z.of_nat i)) with 8 by lia. reflexivity. }
    assert (0 < 256 ^ Z.of_nat i) by (apply Z.pow_pos_nonneg; lia). assert (0 < 256 ^ (7 - Z.of_nat i)) by (apply Z.pow_pos_nonneg; lia).
    rewrite E. set (a := 256 ^ Z.of_nat i) in *. set (b := 256 ^ (7 - Z.of_nat i)) in *.
    rewrite (Z.mod_eq x (a * 256 * b)) by nia. replace (x - a * 256 * b * (x / (a * 256 * b))) with (x + (- 256 * b * (x / (a * 256 * b))) * a) by ring.
    rewrite Z.div_add by lia. replace (x / a + - 256 * b * (x / (a * 256 * b))) with (x / a + (- b * (x / (a * 256 * b))) * 256) by ring.
    rewrite Z.mod_add by lia. reflexivity.
  - change (0 + 8)%nat with 8%nat. cbn [seq map]. change (Z.of_nat 0) with 0. change (2 ^ 64) with (256 ^ 8).
    assert (forall i, 0 <= i -> x / 256 ^ 8 / 256 ^ i = x / 256 ^ (8 + i)) as D.
    { intros i I. rewrite Z.div_div, <- Z.pow_add_r by (try apply Z.pow_pos_nonneg; lia). reflexivity. }
    rewrite !D by lia. reflexivity.
Qed.

Lemma firstn_zlen {X} (l : list X) k : zlen l = k -> firstn (Z.to_nat k) l = l.
Proof. intros <-. apply firstn_all2. unfold zlen. lia. Qed.

Section Agree.
Context {n : Z} {p : bparams} {V : variant} (A : agrees n p V).
Local Notation w := (word V).
Local Notation W := (word_bytes V).
Local Notation B := (block_bytes V).
Local Notation nB := (Z.to_nat (block_bytes V)).

Lemma pow_w : 2 ^ w = 256 ^ W.
Proof. rewrite (w_bytes A). change 256 with (2 ^ 8). rewrite <- Z.pow_mul_r by (pose proof (wbytes_pos A); lia). reflexivity. Qed.

Definition length_field (x : Z) : res bytes :=
  if p_BLKBYTES p =? 64 then int2byte 8 x
  else let low := Z.land x (p_MASK p) in
       let high := Z.shiftr x (p_WORDBITS p) in
       a <- int2byte 8 high ;; b <- int2byte 8 low ;; Ok (a ++ b).
Lemma length_field_Ok x : 0 <= x < 2 ^ (2 * w) -> length_field x = Ok (be_bytes (length_bytes V) x).
Proof.
  intros X. unfold length_field. rewrite (ag_bbytes _ _ _ A), (mask_mod A), (ag_wbits _ _ _ A).
  unfold length_bytes, block_bytes, word_bytes in *. destruct (ag_word _ _ _ A) as [E|E]; rewrite E in *.
  - change (16 * (32 / 8) =? 64) with true. cbv iota. change (2 * (32 / 8)) with 8. apply int2byte_Ok; [lia|exact X].
  - change (16 * (64 / 8) =? 64) with false. cbv iota zeta. change (2 * (64 / 8)) with 16. rewrite Z.shiftr_div_pow2 by lia.
    assert (0 < 2 ^ 64) as P by reflexivity.
    rewrite (int2byte_Ok 8 (x / 2 ^ 64)); [|lia|].
    2:{ change (256 ^ 8) with (2 ^ 64). split; [apply Z.div_pos; lia|]. apply Z.div_lt_upper_bound; [lia|]. rewrite <- Z.pow_add_r by lia. exact (proj2 X). }
    rewrite (int2byte_Ok 8 (x mod 2 ^ 64)); [|lia|change (256 ^ 8) with (2 ^ 64); apply Z.mod_pos_bound; lia].
    cbn [bind]. rewrite be_bytes_16 by lia. reflexivity.
Qed.
Lemma length_field_big x : 2 ^ (2 * w) <= x -> length_field x = Err StructError.
Proof.
  intros X. unfold length_field. rewrite (ag_bbytes _ _ _ A), (mask_mod A), (ag_wbits _ _ _ A).
  unfold block_bytes, word_bytes in *. destruct (ag_word _ _ _ A) as [E|E]; rewrite E in *.
  - change (16 * (32 / 8) =? 64) with true. cbv iota. apply int2byte_big; [lia|exact X].
  - change (16 * (64 / 8) =? 64) with false. cbv iota zeta. rewrite Z.shiftr_div_pow2 by lia.
    rewrite int2byte_big; [reflexivity|lia|]. change (256 ^ 8) with (2 ^ 64). apply Z.div_le_lower_bound; [reflexivity|]. rewrite <- Z.pow_add_r by lia. exact X.
Qed.

Lemma digest_field h : wordsp V 8 h ->
  (if B =? 64 then mapM (int2byte 4) h else mapM (int2byte 8) h) = Ok (map (be_bytes W) h).
Proof.
  intros [_ F]. rewrite Forall_forall in F.
  assert (mapM (int2byte W) h = Ok (map (be_bytes W) h)) as E.
  { apply mapM_Ok_map. intros x I. apply int2byte_Ok; [pose proof (wbytes_pos A); lia|]. rewrite <- pow_w. apply F, I. }
  unfold block_bytes, word_bytes in *. destruct (ag_word _ _ _ A) as [Ew|Ew]; rewrite Ew in *; exact E.
Qed.

(** * The specification block by block *)

Definition spec_step (salt msg pd : list Z) (h : list Z) (i : nat) : list Z := compress V h salt (counter V (8 * zlen msg) i) (block V pd i).

Lemma fold_ext {X Y} (f g : X -> Y -> X) l x : (forall y z, In y l -> f z y = g z y) -> fold_left f l x = fold_left g l x.
Proof. revert x. induction l as [|y l IH]; intros x F; [reflexivity|]. cbn [fold_left]. rewrite F by (left; reflexivity). apply IH. intros. apply F. right. assumption. Qed.

Lemma spec_whole salt msg x q j : Z.of_nat q * B <= zlen msg ->
  fold_left (spec_step salt msg (msg ++ x)) (seq 0 (q + j)) (iv V) = fold_left (spec_step salt msg (msg ++ x)) (seq q j) (chain V salt msg q).
Proof.
  intros L. pose proof (B_pos A) as Bp. rewrite seq_app, fold_left_app. f_equal. unfold chain. apply fold_ext. intros i h I. apply in_seq in I.
  assert ((Z.of_nat i + 1) * B <= zlen msg) by nia.
  unfold spec_step. rewrite block_app by (exact A || lia). f_equal. unfold counter.
  destruct (Z.leb_spec (8 * zlen msg) (Z.of_nat i * (8 * B))); [nia|]. rewrite Z.min_r by nia. ring.
Qed.

Lemma block_skip a x i : zlen a = Z.of_nat i * B -> block V (a ++ x) i = firstn nB x.
Proof.
  intros L. pose proof (B_pos A). unfold block. rewrite skipn_app. rewrite (skipn_all2 a) by (unfold zlen in L; nia).
  replace (i * nB - length a)%nat with O by (unfold zlen in L; nia). reflexivity.
Qed.

Definition digest_of (h : list Z) : list Z := firstn (Z.to_nat (digest_bytes V)) (concat (map (be_bytes W) h)).
Lemma digest_steps salt msg x j : pad V msg = msg ++ x -> zlen (msg ++ x) = (zlen msg / B + Z.of_nat j) * B ->
  blake_digest V salt msg = digest_of (fold_left (spec_step salt msg (msg ++ x)) (seq (Z.to_nat (zlen msg / B)) j) (chain V salt msg (Z.to_nat (zlen msg / B)))).
Proof.
  intros P L. pose proof (B_pos A) as Bp. pose proof (zlen_nonneg msg). assert (0 <= zlen msg / B) by (apply Z.div_pos; lia).
  unfold blake_digest, digest_of. rewrite P. change (len (msg ++ x)) with (zlen (msg ++ x)). rewrite L, Z.div_mul by lia.
  rewrite Z2Nat.inj_add, Nat2Z.id by lia. do 3 f_equal. apply (spec_whole salt msg x). rewrite Z2Nat.id by lia. pose proof (Z.mul_div_le (zlen msg) B ltac:(lia)). lia.
Qed.

Section Msg.
Variables salt msg : list Z.
Local Notation q := (Z.to_nat (zlen msg / B)).
Local Notation c := (skipn (Z.to_nat (zlen msg / B) * nB) msg).
Local Notation s := (B - 2 * W - 1).
Local Notation L := (be_bytes (length_bytes V) (8 * zlen msg)).
Local Notation h := (chain V salt msg (Z.to_nat (zlen msg / B))).

Lemma facts : 0 < W /\ B = 16 * W /\ zlen c = zlen msg mod B /\ 0 <= zlen c < B /\ zlen msg = (zlen msg / B) * B + zlen c /\ 0 <= zlen msg / B /\ zlen L = 2 * W.
Proof.
  pose proof (B_pos A) as Bp. pose proof (wbytes_pos A) as Wp. pose proof (zlen_nonneg msg). assert (0 <= zlen msg / B) by (apply Z.div_pos; lia).
  pose proof (cache_len A msg) as C. pose proof (Z.mod_pos_bound (zlen msg) B ltac:(lia)). pose proof (Z.div_mod (zlen msg) B ltac:(lia)).
  split; [exact Wp|]. split; [reflexivity|]. split; [exact C|]. split; [lia|]. split; [lia|]. split; [lia|]. unfold length_bytes. apply zlen_be_bytes. lia.
Qed.
Lemma msg_split : msg = firstn (q * nB) msg ++ c /\ zlen (firstn (q * nB) msg) = Z.of_nat q * B.
Proof.
  split; [symmetry; apply firstn_skipn|]. destruct facts as [Wp [Eb [C [C' [D [Q _]]]]]].
  unfold zlen at 1. rewrite firstn_length. unfold zlen in *. nia.
Qed.
Lemma counter_q : counter V (8 * zlen msg) q = if zlen c =? 0 then 0 else 8 * zlen msg.
Proof.
  destruct facts as [Wp [Eb [C [C' [D [Q _]]]]]]. unfold counter. rewrite Z2Nat.id by lia.
  destruct (Z.eqb_spec (zlen c) 0) as [E|E]; destruct (Z.leb_spec (8 * zlen msg) (zlen msg / B * (8 * B))); nia.
Qed.
Lemma counter_q1 : counter V (8 * zlen msg) (S q) = 0.
Proof.
  destruct facts as [Wp [Eb [C [C' [D [Q _]]]]]]. unfold counter. replace (Z.of_nat (S q)) with (zlen msg / B + 1) by lia.
  destruct (Z.leb_spec (8 * zlen msg) ((zlen msg / B + 1) * (8 * B))); [reflexivity|nia].
Qed.
Lemma mark_mod : (len msg + length_bytes V) mod B = (zlen c + 2 * W) mod B.
Proof.
  destruct facts as [Wp [Eb [C [C' [D [Q _]]]]]]. change (len msg) with (zlen msg). unfold length_bytes. rewrite D at 1.
  replace (zlen msg / B * B + zlen c + 2 * W) with (zlen c + 2 * W + zlen msg / B * B) by ring. apply Z.mod_add. lia.
Qed.
Lemma zlen_repeat {X} (x : X) k : zlen (repeat x k) = Z.of_nat k.
Proof. unfold zlen. rewrite repeat_length. reflexivity. Qed.
Lemma zlen_marks k : (0 < k)%nat -> zlen (marks V k) = Z.of_nat k.
Proof.
  intros K. destruct k as [|[|k]]; [lia|reflexivity|]. cbn [marks]. rewrite !zlen_app, zlen_repeat. change (zlen [128]) with 1. change (zlen [final_bit V]) with 1. lia.
Qed.

Lemma spec_one : zlen c <= s -> blake_digest V salt msg =
  digest_of (compress V h salt (if zlen c =? 0 then 0 else 8 * zlen msg) (c ++ marks V (Z.to_nat (s - zlen c + 1)) ++ L)).
Proof.
  intros Le. destruct facts as [Wp [Eb [C [C' [D [Q Ll]]]]]].
  assert (mark_bytes V (len msg) = s - zlen c + 1) as M.
  { unfold mark_bytes. rewrite mark_mod, Z.mod_small by lia. lia. }
  set (x := marks V (Z.to_nat (s - zlen c + 1)) ++ L).
  assert (zlen (c ++ x) = B) as Lx by (subst x; rewrite !zlen_app, zlen_marks, Ll, Z2Nat.id by lia; lia).
  rewrite (digest_steps salt msg x 1).
  - cbn [seq fold_left]. unfold spec_step. rewrite counter_q. do 2 f_equal.
    destruct msg_split as [E E']. rewrite E at 1. rewrite <- app_assoc, (block_skip _ _ _ E'). exact (firstn_zlen _ _ Lx).
  - unfold pad. rewrite M. reflexivity.
  - rewrite zlen_app in *. change (Z.of_nat 1) with 1. nia.
Qed.

Lemma spec_two : s < zlen c -> blake_digest V salt msg =
  digest_of (compress V (compress V h salt (8 * zlen msg) (c ++ 128 :: repeat 0 (Z.to_nat (B - zlen c - 1)))) salt 0
               (repeat 0 (Z.to_nat s) ++ [final_bit V] ++ L)).
Proof.
  intros Gt. destruct facts as [Wp [Eb [C [C' [D [Q Ll]]]]]].
  assert (mark_bytes V (len msg) = B - zlen c + s + 1) as M.
  { unfold mark_bytes. rewrite mark_mod. replace (zlen c + 2 * W) with (zlen c + 2 * W - B + 1 * B) by ring. rewrite Z.mod_add, Z.mod_small by lia. lia. }
  set (a := 128 :: repeat 0 (Z.to_nat (B - zlen c - 1))). set (b := repeat 0 (Z.to_nat s) ++ [final_bit V] ++ L).
  assert (zlen (c ++ a) = B) as La by (subst a; rewrite zlen_app, zlen_cons, zlen_repeat; lia).
  assert (zlen b = B) as Lb by (subst b; rewrite !zlen_app, zlen_repeat, Ll; change (zlen [final_bit V]) with 1; lia).
  assert (marks V (Z.to_nat (B - zlen c + s + 1)) ++ L = a ++ b) as Em.
  { replace (Z.to_nat (B - zlen c + s + 1)) with (S (S (Z.to_nat (B - zlen c - 1) + Z.to_nat s)))%nat by lia.
    cbn [marks]. replace (S (S (Z.to_nat (B - zlen c - 1) + Z.to_nat s)) - 2)%nat with (Z.to_nat (B - zlen c - 1) + Z.to_nat s)%nat by lia.
    rewrite repeat_app. subst a b. rewrite <- !app_assoc. reflexivity. }
  rewrite (digest_steps salt msg (a ++ b) 2).
  - cbn [seq fold_left]. unfold spec_step. rewrite counter_q, counter_q1. destruct (Z.eqb_spec (zlen c) 0); [lia|].
    assert (block V (msg ++ a ++ b) q = c ++ a) as ->.
    { destruct msg_split as [E E']. rewrite E at 1. rewrite <- app_assoc, (block_skip _ _ _ E'). rewrite app_assoc.
      apply (firstn_app_zlen (c ++ a) b B La). }
    assert (block V (msg ++ a ++ b) (S q) = b) as ->; [|reflexivity].
    rewrite app_assoc, block_skip; [exact (firstn_zlen _ _ Lb)|]. rewrite zlen_app in *. lia.
  - unfold pad. rewrite M. change (len msg) with (zlen msg). rewrite Em. reflexivity.
  - rewrite zlen_app in La. rewrite !zlen_app, Lb. change (Z.of_nat 2) with 2. nia.
Qed.
End Msg.

Lemma padding_to k : 0 <= k <= 129 -> slice_to PADDING k = match Z.to_nat k with O => [] | S j => 128 :: repeat 0 j end.
Proof.
  intros K. rewrite slice_to_firstn by lia. destruct (Z.to_nat k) as [|j] eqn:E; [reflexivity|]. unfold PADDING. cbn [firstn]. f_equal.
  assert (forall m i, (i <= m)%nat -> firstn i (repeat 0 m) = repeat 0 i) as R.
  { induction m as [|m IH]; intros i I; [replace i with O by lia; reflexivity|]. destruct i; [reflexivity|]. cbn [repeat firstn]. f_equal. apply IH. lia. }
  apply R. lia.
Qed.
Lemma padding_zeros k : 0 <= k <= 128 -> slice PADDING 1 (k + 1) = repeat 0 (Z.to_nat k).
Proof.
  intros K. rewrite slice_firstn by lia. change (Z.to_nat 1) with 1%nat. unfold PADDING. cbn [skipn].
  assert (forall m i, (i <= m)%nat -> firstn i (repeat 0 m) = repeat 0 i) as R.
  { induction m as [|m IH]; intros i I; [replace i with O by lia; reflexivity|]. destruct i; [reflexivity|]. cbn [repeat firstn]. f_equal. apply IH. lia. }
  replace (k + 1 - 1) with k by lia. apply R. lia.
Qed.

Definition finish (o : blake) (msglen : bytes) : res (blake * bytes) :=
  o <- blake_update (set_t o (b_t o - B)) (DBytes msglen) ;;
  hashval <- (if B =? 64 then mapM (int2byte 4) (b_h o) else mapM (int2byte 8) (b_h o)) ;;
  Ok (set_state (set_hash o (slice_to (concat hashval) (Z.shiftr n 3))) 3, slice_to (concat hashval) (Z.shiftr n 3)).

Lemma finish_Ok h t c s st nl hs msglen h' : zlen c + zlen msglen = B -> 0 < zlen msglen ->
  core p h s (t - B + 8 * B) nl (words V 16 (c ++ msglen)) = h' -> wordsp V 8 h' ->
  exists o', finish (Build_blake p h t c s st nl hs) msglen = Ok (o', digest_of h') /\ b_state o' = 3 /\ b_hash o' = digest_of h'.
Proof.
  intros L P E Wh. unfold finish, set_t. cbv zeta. cbn [b_p b_h b_t b_cache b_salt b_state b_nullt b_hash].
  rewrite (update_fill A) by assumption. cbn [bind b_h]. rewrite E, (digest_field h' Wh). cbn [bind].
  rewrite (ag_digest _ _ _ A), slice_to_firstn.
  2:{ rewrite <- (ag_digest _ _ _ A). destruct (ag_word _ _ _ A); apply Z.shiftr_nonneg; pose proof (ag_nonneg _ _ _ A); lia. }
  eexists. split; [reflexivity|]. split; reflexivity.
Qed.

Lemma final_absorbed salt msg o : wordsp V 4 salt -> absorbed p V salt msg o -> b_state o <> 3 -> 8 * zlen msg < 2 ^ (2 * w) ->
  exists o', blake_final o (DBytes []) = Ok (o', blake_digest V salt msg) /\ b_state o' = 3 /\ b_hash o' = blake_digest V salt msg.
Proof.
  intros Hs [st [hs ->]] St F. cbn [b_state] in St.
  destruct (facts msg) as [Wp [Eb [C [C' [D [Q Ll]]]]]].
  set (c := skipn (Z.to_nat (zlen msg / B) * nB) msg) in *. set (q := Z.to_nat (zlen msg / B)) in *.
  set (L := be_bytes (length_bytes V) (8 * zlen msg)) in *. set (h := chain V salt msg q) in *.
  assert (Z.of_nat q = zlen msg / B) as Eq by (subst q; lia).
  assert (wordsp V 8 h) as Wh by (apply (chain_words A); [exact Hs|nia]).
  set (t := 8 * B * Z.of_nat q) in *. assert (t + 8 * zlen c = 8 * zlen msg) as Et by (subst t; rewrite Eq; lia).
  assert (Z.shiftr (p_WORDBITS p) 2 = 2 * W) as Esh.
  { rewrite (ag_wbits _ _ _ A), Z.shiftr_div_pow2, (w_bytes A) by lia. change (2 ^ 2) with 4. replace (8 * W) with (2 * W * 4) by ring. apply Z.div_mul. lia. }
  assert (B <= 128) as B128 by (unfold block_bytes, word_bytes; destruct (ag_word _ _ _ A) as [-> | ->]; vm_compute; discriminate).
  unfold blake_final. cbn [b_state]. destruct (Z.eqb_spec st 3) as [X|_]; [contradiction|]. change (zlen (@nil Z) =? 0) with true. cbn [negb bind].
  cbv zeta. cbn [b_p b_h b_t b_cache b_salt b_state b_nullt b_hash]. rewrite !Z.shiftl_mul_pow2 by lia. change (2 ^ 3) with 8.
  replace (t + zlen c * 8) with (8 * zlen msg) by lia.
  pose proof (zlen_nonneg msg) as Mn. pose proof (length_field_Ok (8 * zlen msg) ltac:(lia)) as Lf. unfold length_field in Lf. cbv zeta in Lf. fold L in Lf. rewrite Lf. clear Lf.
  cbn [bind]. rewrite Esh, (ag_len _ _ _ A), (ag_bbytes _ _ _ A).
  set (s := B - (2 * W + 1)). assert (s = B - 2 * W - 1) as Es by (subst s; lia). clearbody s.
  set (bit := if zmem n [224; 384] then 0 else 1). assert (final_bit V = bit) as Ebit by apply (ag_bit _ _ _ A).
  assert (forall o, (if zmem n [224; 384] then blake_update o (DBytes [0]) else blake_update o (DBytes [1])) = blake_update o (DBytes [bit])) as U1
    by (intros; subst bit; destruct (zmem n [224; 384]); reflexivity).
  assert (forall o, (if zmem n [224; 384] then blake_update o (DBytes [128]) else blake_update o (DBytes [129])) = blake_update o (DBytes [128 + bit])) as U2
    by (intros; subst bit; destruct (zmem n [224; 384]); reflexivity).
  match goal with |- exists o', bind ?x _ = _ /\ _ => assert (exists h2 t2 c2 nl h', x = Ok (Build_blake p h2 t2 c2 salt 2 nl hs) /\
     zlen c2 + zlen L = B /\ core p h2 salt (t2 - B + 8 * B) nl (words V 16 (c2 ++ L)) = h' /\ wordsp V 8 h' /\ digest_of h' = blake_digest V salt msg) as T end.
  2:{ destruct T as [h2 [t2 [c2 [nl [h' [-> [T1 [T2 [T3 T4]]]]]]]]]. cbn [bind].
      destruct (finish_Ok h2 t2 c2 salt 2 nl hs L h' T1 ltac:(lia) T2 T3) as [o' [T5 [T6 T7]]]. unfold finish in T5.
      exists o'. rewrite <- T4. split; [exact T5|]. split; assumption. }
  destruct (Z.eqb_spec (zlen c) s) as [Ec|Nc].
  - rewrite U2. unfold set_t. cbn [b_p b_h b_t b_cache b_salt b_state b_nullt b_hash].
    rewrite (update_short A) by (change (zlen [128 + bit]) with 1; lia).
    exists h, (t - 8), (c ++ [128 + bit]), 0. eexists. split; [reflexivity|]. split; [rewrite zlen_app; change (zlen [128 + bit]) with 1; lia|].
    rewrite (core_0 A); [|exact Wh|exact Hs|split; [nia|]; lia]. split; [reflexivity|]. split; [apply (compress_words A); [exact Wh|exact Hs|lia]|].
    rewrite (spec_one salt msg) by (fold q; fold c; lia). fold q; fold c; fold h; fold L. destruct (Z.eqb_spec (zlen c) 0); [lia|].
    replace (t - 8 - B + 8 * B) with (8 * zlen msg) by lia. replace (B - 2 * W - 1 - zlen c + 1) with 1 by lia. change (Z.to_nat 1) with 1%nat. cbn [marks]. rewrite Ebit, <- app_assoc. reflexivity.
  - destruct (Z.ltb_spec (zlen c) s) as [Lt|Ge].
    + set (nl := if zlen c =? 0 then 1 else 0).
      match goal with |- context [if zlen c =? 0 then set_nullt ?o 1 else ?o] =>
        replace (if zlen c =? 0 then set_nullt o 1 else o) with (Build_blake p h t c salt st nl hs) by (subst nl; destruct (zlen c =? 0); reflexivity) end.
      unfold set_t. cbn [b_p b_h b_t b_cache b_salt b_state b_nullt b_hash].
      rewrite padding_to by lia. destruct (Z.to_nat (s - zlen c)) as [|j] eqn:Ej; [lia|].
      rewrite (update_short A) by (rewrite zlen_cons, zlen_repeat; lia). cbn [bind]. rewrite U1.
      rewrite (update_short A) by (rewrite zlen_app, zlen_cons, zlen_repeat; change (zlen [bit]) with 1; lia). cbn [bind b_p b_h b_t b_cache b_salt b_state b_nullt b_hash].
      exists h. eexists. exists ((c ++ 128 :: repeat 0 j) ++ [bit]), nl. eexists. split; [reflexivity|].
      split; [rewrite !zlen_app, zlen_cons, zlen_repeat; change (zlen [bit]) with 1; lia|].
      split; [reflexivity|].
      replace (t - (s - zlen c) * 8 - 8 - B + 8 * B) with (8 * zlen msg) by lia.
      assert (((c ++ 128 :: repeat 0 j) ++ [bit]) ++ L = c ++ marks V (Z.to_nat (B - 2 * W - 1 - zlen c + 1)) ++ L) as ->.
      { replace (Z.to_nat (B - 2 * W - 1 - zlen c + 1)) with (S (S j)) by lia. cbn [marks]. replace (S (S j) - 2)%nat with j by lia. rewrite Ebit, <- !app_assoc. reflexivity. }
      rewrite (spec_one salt msg) by (fold q; fold c; lia). fold q; fold c; fold h; fold L. subst nl. destruct (Z.eqb_spec (zlen c) 0).
      * rewrite (core_1 A) by assumption. split; [|reflexivity]. apply (compress_words A); [exact Wh|exact Hs|]. split; [lia|]. apply Z.pow_pos_nonneg; [lia|]. pose proof (w_pos A). lia.
      * rewrite (core_0 A) by (try assumption; lia). split; [|reflexivity]. apply (compress_words A); [exact Wh|exact Hs|lia].
    + unfold set_t. cbn [b_p b_h b_t b_cache b_salt b_state b_nullt b_hash].
      rewrite padding_to by lia. destruct (Z.to_nat (B - zlen c)) as [|j] eqn:Ej; [lia|].
      rewrite (update_fill A) by (rewrite zlen_cons, zlen_repeat; lia). cbn [bind b_p b_h b_t b_cache b_salt b_state b_nullt b_hash].
      rewrite padding_zeros by lia.
      rewrite (update_short A) by (rewrite zlen_repeat, zlen_nil; lia). unfold set_nullt. cbn [bind b_p b_h b_t b_cache b_salt b_state b_nullt b_hash app].
      rewrite U1, (update_short A) by (rewrite zlen_repeat; change (zlen [bit]) with 1; lia). cbn [bind b_p b_h b_t b_cache b_salt b_state b_nullt b_hash app].
      replace (t - (B - zlen c) * 8 + 8 * B) with (8 * zlen msg) by lia.
      rewrite (core_0 A) by (try assumption; lia).
      set (h1 := compress V h salt (8 * zlen msg) (c ++ 128 :: repeat 0 j)). assert (wordsp V 8 h1) as Wh1 by (apply (compress_words A); [exact Wh|exact Hs|lia]).
      eexists _, _, _, _, _. split; [reflexivity|]. split; [rewrite zlen_app, zlen_repeat; change (zlen [bit]) with 1; lia|]. split; [reflexivity|].
      rewrite (core_1 A) by assumption. split; [apply (compress_words A); [exact Wh1|exact Hs|]; split; [lia|]; apply Z.pow_pos_nonneg; [lia|]; pose proof (w_pos A); lia|].
      rewrite (spec_two salt msg) by (fold q; fold c; lia). fold q; fold c; fold h; fold L. replace (Z.to_nat (B - zlen c - 1)) with j by lia. fold h1. rewrite Ebit, Es, <- app_assoc. reflexivity.
Qed.
End Agree.
