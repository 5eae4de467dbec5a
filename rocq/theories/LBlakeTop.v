(* Lemmas for blake256.py: updates and the end of the message *)
From Verif Require Import Py SNum SBlake MBlake LBase LUtils LBlake.
Open Scope Z_scope.
Ltac Zify.zify_post_hook ::= idtac.

Section Agree.
Context {n : Z} {p : bparams} {V : variant} (A : agrees n p V).
Local Notation w := (word V).
Local Notation B := (block_bytes V).
Local Notation nB := (Z.to_nat (block_bytes V)).

Lemma B_pos : 0 < B. Proof. unfold block_bytes. pose proof (wbytes_pos A). lia. Qed.

(* k blocks of the buffer *)
Fixpoint run (k : nat) (h : list Z) (t : Z) (s : list Z) (nl : Z) (buf : bytes) : list Z * Z * bytes :=
  match k with
  | O => (h, t, buf)
  | S k => run k (core p h s (t + 8 * B) nl (words V 16 (firstn nB buf))) (t + 8 * B) s nl (skipn nB buf)
  end.
Definition after (r : list Z * Z * bytes) (s : list Z) (st nl : Z) (hs : bytes) : blake :=
  let '(h, t, c) := r in Build_blake p h t c s st nl hs.

Definition tail (o : blake) (data : bytes) (datalen : Z) (fuel : nat) : res blake :=
  ' (o, data, datalen) <- blake_update_loop fuel o data datalen ;;
  if 0 <? datalen then Ok (set_cache o (b_cache o ++ slice_to data datalen)) else Ok o.

Lemma compress_O h t c s st nl hs b : zlen b = B ->
  blake_compress (Build_blake p h t c s st nl hs) b = Ok (Build_blake p (core p h s t nl (words V 16 b)) t c s st nl hs).
Proof. intros L. rewrite (compress_core A) by (reflexivity || exact L). reflexivity. Qed.

Lemma tail_run fuel h t s st nl hs data datalen : 0 <= datalen <= zlen data -> datalen < Z.of_nat fuel ->
  tail (Build_blake p h t [] s st nl hs) data datalen fuel = Ok (after (run (Z.to_nat (datalen / B)) h t s nl (firstn (Z.to_nat datalen) data)) s st nl hs).
Proof.
  pose proof B_pos as Bp. revert h t data datalen. induction fuel as [|fuel IH]; intros h t data datalen L F; [lia|].
  unfold tail. cbn [blake_update_loop]. cbn [b_p]. rewrite (ag_bbytes _ _ _ A).
  destruct (Z.ltb_spec datalen B) as [Lt|Ge].
  - cbn [bind]. rewrite (Z.div_small datalen) by lia. change (Z.to_nat 0) with O. cbn [run after].
    destruct (Z.ltb_spec 0 datalen).
    + unfold set_cache. cbn [b_p b_h b_t b_cache b_salt b_state b_nullt b_hash app]. rewrite slice_to_firstn by lia. reflexivity.
    + replace datalen with 0 by lia. reflexivity.
  - unfold set_t. cbn [b_p b_h b_t b_cache b_salt b_state b_nullt b_hash].
    rewrite compress_O by (rewrite zlen_slice_to; lia). cbn [bind].
    rewrite (ag_bbits _ _ _ A), slice_to_firstn, slice_from_skipn by lia.
    specialize (IH (core p h s (t + 8 * B) nl (words V 16 (firstn nB data))) (t + 8 * B) (skipn nB data) (datalen - B)).
    unfold tail in IH. rewrite IH.
    2:{ assert (zlen (skipn nB data) = zlen data - B) as E by (rewrite <- (slice_from_skipn data B), zlen_slice_from by lia; lia). lia. }
    2:{ lia. }
    replace (datalen / B) with ((datalen - B) / B + 1) by (rewrite <- Z.div_add by lia; f_equal; ring).
    assert (0 <= (datalen - B) / B) by (apply Z.div_pos; lia).
    rewrite Z2Nat.inj_add, Nat.add_1_r by lia. cbn [run].
    rewrite firstn_firstn, Nat.min_l by lia. rewrite skipn_firstn_comm. do 3 f_equal. f_equal. lia.
Qed.

Lemma update_run h t c s st nl hs d data datalen : zlen c < B -> 0 <= datalen <= zlen data ->
  datalen = match d with DBytes b => zlen b | DStr x => zlen x end ->
  match d return res bytes with DBytes b => @Ok bytes b | DStr x => utf8 x end = @Ok bytes data ->
  blake_update (Build_blake p h t c s st nl hs) d =
  Ok (after (run (Z.to_nat ((zlen c + datalen) / B)) h t s nl (c ++ firstn (Z.to_nat datalen) data)) s 2 nl hs).
Proof.
  intros Lc Ld Ed Edata. pose proof B_pos as Bp. unfold blake_update, set_state. cbn [b_p b_h b_t b_cache b_salt b_state b_nullt b_hash].
  rewrite <- Ed, Edata. cbn [bind]. rewrite (ag_bbytes _ _ _ A).
  destruct (Z.eqb_spec datalen 0) as [E0|N0].
  { subst datalen. rewrite E0, Z.add_0_r, Z.div_small by (pose proof (zlen_nonneg c); lia). cbn [Z.to_nat run after firstn]. rewrite app_nil_r. reflexivity. }
  destruct (Z.eqb_spec (zlen c) 0) as [C0|C1]; cbn [negb andb].
  - apply zlen_0 in C0. subst c. cbn [bind]. replace (zlen (@nil Z) + datalen) with datalen by reflexivity. cbn [app].
    apply (tail_run (S (length data))); [lia|unfold zlen in Ld; lia].
  - destruct (Z.leb_spec (B - zlen c) datalen) as [Ge|Lt].
    + unfold set_cache, set_t. cbn [b_p b_h b_t b_cache b_salt b_state b_nullt b_hash].
      pose proof (zlen_nonneg c). rewrite compress_O by (rewrite zlen_app, zlen_slice_to by lia; lia). cbn [bind].
      unfold set_cache. cbn [b_p b_h b_t b_cache b_salt b_state b_nullt b_hash]. rewrite (ag_bbits _ _ _ A), slice_to_firstn, slice_from_skipn by lia.
      set (f := Z.to_nat (B - zlen c)) in *.
      assert (zlen (skipn f data) = zlen data - (B - zlen c)) as E by (subst f; rewrite <- (slice_from_skipn data), zlen_slice_from by lia; lia).
      pose proof (tail_run (S (length (skipn f data))) (core p h s (t + 8 * B) nl (words V 16 (c ++ firstn f data))) (t + 8 * B) s 2 nl hs (skipn f data) (datalen - (B - zlen c))) as T.
      unfold tail, set_cache in T. rewrite T by (rewrite ?Nat2Z.inj_succ; fold (zlen (skipn f data)); lia). clear T.
      replace ((zlen c + datalen) / B) with ((datalen - (B - zlen c)) / B + 1) by (rewrite <- Z.div_add by lia; f_equal; ring).
      assert (0 <= (datalen - (B - zlen c)) / B) by (apply Z.div_pos; lia).
      rewrite Z2Nat.inj_add, Nat.add_1_r by lia. cbn [run].
      assert (firstn nB (c ++ firstn (Z.to_nat datalen) data) = c ++ firstn f data) as ->.
      { rewrite firstn_app. rewrite (firstn_all2 c) by (unfold zlen in Lc; lia). f_equal. rewrite firstn_firstn. f_equal. subst f. unfold zlen in *. lia. }
      assert (skipn nB (c ++ firstn (Z.to_nat datalen) data) = firstn (Z.to_nat (datalen - (B - zlen c))) (skipn f data)) as ->.
      { rewrite skipn_app. rewrite (skipn_all2 c) by (unfold zlen in Lc; lia). cbn [app]. rewrite skipn_firstn_comm. subst f. f_equal; [unfold zlen in *; lia|]. f_equal. unfold zlen in *. lia. }
      reflexivity.
    + pose proof (zlen_nonneg c). cbn [bind]. cbn [blake_update_loop b_p]. rewrite (ag_bbytes _ _ _ A). destruct (Z.ltb_spec datalen B); [|lia]. cbn [bind].
      destruct (Z.ltb_spec 0 datalen); [|lia]. unfold set_cache. cbn [b_p b_h b_t b_cache b_salt b_state b_nullt b_hash].
      rewrite Z.div_small by lia. cbn [Z.to_nat run after]. rewrite slice_to_firstn by lia. reflexivity.
Qed.

Lemma update_bytes h t c s st nl hs d : zlen c < B ->
  blake_update (Build_blake p h t c s st nl hs) (DBytes d) =
  Ok (after (run (Z.to_nat (zlen (c ++ d) / B)) h t s nl (c ++ d)) s 2 nl hs).
Proof.
  intros L. rewrite (update_run h t c s st nl hs (DBytes d) d (zlen d) L); [|pose proof (zlen_nonneg d); lia|reflexivity|reflexivity].
  rewrite zlen_app. rewrite (firstn_all2 d) by (unfold zlen; lia). reflexivity.
Qed.
Lemma update_short h t c s st nl hs d : zlen c + zlen d < B ->
  blake_update (Build_blake p h t c s st nl hs) (DBytes d) = Ok (Build_blake p h t (c ++ d) s 2 nl hs).
Proof.
  intros L. pose proof (zlen_nonneg c). pose proof (zlen_nonneg d). rewrite update_bytes by lia. rewrite zlen_app, Z.div_small by lia. reflexivity.
Qed.
Lemma update_fill h t c s st nl hs d : 0 < zlen d -> zlen c + zlen d = B ->
  blake_update (Build_blake p h t c s st nl hs) (DBytes d) =
  Ok (Build_blake p (core p h s (t + 8 * B) nl (words V 16 (c ++ d))) (t + 8 * B) [] s 2 nl hs).
Proof.
  intros P L. pose proof (zlen_nonneg c). pose proof B_pos. rewrite update_bytes by lia. rewrite zlen_app, L, Z.div_same by lia.
  change (Z.to_nat 1) with 1%nat. cbn [run after]. rewrite firstn_all2, skipn_all2 by (rewrite app_length; unfold zlen in L; lia). reflexivity.
Qed.

Lemma wordsp_iv : wordsp V 8 (iv V).
Proof. split; [apply (ag_iv _ _ _ A)|apply (ag_iv' _ _ _ A)]. Qed.
Lemma compress_words h salt t b : wordsp V 8 h -> wordsp V 4 salt -> 0 <= t < 2 ^ (2 * w) -> wordsp V 8 (compress V h salt t b).
Proof. intros Hh Hs T. apply (core_eq A h salt t 0 b Hh Hs). auto. Qed.
Lemma core_0 h salt t b : wordsp V 8 h -> wordsp V 4 salt -> 0 <= t < 2 ^ (2 * w) -> core p h salt t 0 (words V 16 b) = compress V h salt t b.
Proof. intros Hh Hs T. apply (core_eq A h salt t 0 b Hh Hs). auto. Qed.
Lemma core_1 h salt t b : wordsp V 8 h -> wordsp V 4 salt -> core p h salt t 1 (words V 16 b) = compress V h salt 0 b.
Proof. intros Hh Hs. apply (core_eq A h salt t 1 b Hh Hs). discriminate. Qed.

(* the chain value after k whole blocks of message *)
Definition chain (salt msg : list Z) (k : nat) : list Z :=
  fold_left (fun h i => compress V h salt (8 * B * (Z.of_nat i + 1)) (block V msg i)) (seq 0 k) (iv V).
Lemma chain_S salt msg k : chain salt msg (S k) = compress V (chain salt msg k) salt (8 * B * (Z.of_nat k + 1)) (block V msg k).
Proof. unfold chain. rewrite seq_S, fold_left_app. reflexivity. Qed.
Lemma chain_words salt msg k : wordsp V 4 salt -> 8 * B * Z.of_nat k < 2 ^ (2 * w) -> wordsp V 8 (chain salt msg k).
Proof.
  intros S. pose proof B_pos. induction k as [|k IH]; intros L; [exact wordsp_iv|].
  rewrite chain_S. apply compress_words; [apply IH; nia|exact S|nia].
Qed.
Lemma block_app a b i : Z.of_nat (S i) * B <= zlen a -> block V (a ++ b) i = block V a i.
Proof.
  intros L. pose proof B_pos. unfold block, zlen in *. rewrite skipn_app, firstn_app, skipn_length.
  replace (nB - (length a - i * nB))%nat with O by nia. cbn [firstn]. apply app_nil_r.
Qed.
Lemma chain_app salt a b k : Z.of_nat k * B <= zlen a -> chain salt (a ++ b) k = chain salt a k.
Proof.
  pose proof B_pos. induction k as [|k IH]; intros L; [reflexivity|]. rewrite !chain_S, block_app, IH by lia. reflexivity.
Qed.

Lemma run_chain salt msg k q : wordsp V 4 salt -> (Z.of_nat q + Z.of_nat k) * B <= zlen msg -> 8 * zlen msg < 2 ^ (2 * w) ->
  run k (chain salt msg q) (8 * B * Z.of_nat q) salt 0 (skipn (q * nB) msg) =
  (chain salt msg (q + k), 8 * B * (Z.of_nat q + Z.of_nat k), skipn ((q + k) * nB) msg).
Proof.
  intros S. pose proof B_pos as Bp. revert q. induction k as [|k IH]; intros q L F.
  - cbn [run]. rewrite Nat.add_0_r. repeat f_equal. lia.
  - cbn [run]. assert (8 * B * (Z.of_nat q + 1) < 2 ^ (2 * w)) by nia.
    rewrite core_0; [|apply chain_words; [exact S|lia]|exact S|nia].
    change (firstn nB (skipn (q * nB) msg)) with (block V msg q).
    replace (8 * B * Z.of_nat q + 8 * B) with (8 * B * (Z.of_nat q + 1)) by ring. rewrite <- chain_S, skipn_skipn.
    replace (q * nB + nB)%nat with (Datatypes.S q * nB)%nat by lia. replace (Z.of_nat q + 1) with (Z.of_nat (Datatypes.S q)) by lia.
    rewrite IH by lia. replace (q + Datatypes.S k)%nat with (Datatypes.S q + k)%nat by lia. do 2 f_equal. f_equal. lia.
Qed.

Definition absorbed (salt msg : list Z) (o : blake) : Prop :=
  let q := Z.to_nat (zlen msg / B) in
  exists st hs, o = Build_blake p (chain salt msg q) (8 * B * Z.of_nat q) (skipn (q * nB) msg) salt st 0 hs.

Lemma cache_len (msg : list Z) : zlen (skipn (Z.to_nat (zlen msg / B) * nB) msg) = zlen msg mod B.
Proof.
  pose proof B_pos. pose proof (zlen_nonneg msg). pose proof (Z.div_pos (zlen msg) B ltac:(lia) ltac:(lia)).
  pose proof (Z.mod_pos_bound (zlen msg) B ltac:(lia)). pose proof (Z.div_mod (zlen msg) B ltac:(lia)).
  unfold zlen at 1. rewrite skipn_length. unfold zlen in *. rewrite Nat2Z.inj_sub by nia. rewrite Nat2Z.inj_mul, !Z2Nat.id by lia. nia.
Qed.

Lemma update_absorbed salt msg o d : wordsp V 4 salt -> absorbed salt msg o -> 8 * zlen (msg ++ d) < 2 ^ (2 * w) ->
  exists o', blake_update o (DBytes d) = Ok o' /\ absorbed salt (msg ++ d) o' /\ b_state o' = 2.
Proof.
  intros S [st [hs ->]] F. pose proof B_pos as Bp. pose proof (zlen_nonneg msg). pose proof (zlen_nonneg d).
  set (q := Z.to_nat (zlen msg / B)) in *. pose proof (cache_len msg) as C. fold q in C.
  pose proof (Z.mod_pos_bound (zlen msg) B ltac:(lia)). pose proof (Z.div_mod (zlen msg) B ltac:(lia)) as D.
  assert (0 <= zlen msg / B) by (apply Z.div_pos; lia). assert (Z.of_nat q = zlen msg / B) as Eq by (subst q; lia).
  rewrite update_bytes by lia.
  assert (skipn (q * nB) msg ++ d = skipn (q * nB) (msg ++ d)) as E.
  { rewrite skipn_app. replace (q * nB - length msg)%nat with O; [reflexivity|]. unfold zlen in *. nia. }
  rewrite zlen_app, C.
  set (k := Z.to_nat ((zlen msg mod B + zlen d) / B)).
  assert (0 <= (zlen msg mod B + zlen d) / B) by (apply Z.div_pos; lia).
  assert (zlen (msg ++ d) / B = Z.of_nat q + Z.of_nat k) as Ek.
  { rewrite zlen_app, Eq. subst k. rewrite Z2Nat.id by lia. rewrite <- Z.div_add_l by lia. f_equal. lia. }
  rewrite E, <- (chain_app salt msg d q) by nia. rewrite (run_chain salt (msg ++ d) k q S).
  2:{ rewrite <- Ek. pose proof (Z.mul_div_le (zlen (msg ++ d)) B ltac:(lia)). lia. }
  2:{ exact F. }
  eexists. split; [reflexivity|]. split; [|reflexivity]. unfold absorbed, after. rewrite Ek. rewrite <- Nat2Z.inj_add, Nat2Z.id. eauto.
Qed.
End Agree.
Arguments chain V salt msg k : clear implicits.
Arguments absorbed p V salt msg o : clear implicits.
