(* Lemmas for blake256.py: compression *)
From Verif Require Import Py SNum SBlake MBlake LBase LUtils LBch.
Open Scope Z_scope.
Ltac Zify.zify_post_hook ::= idtac.

Definition wordp (V : variant) (x : Z) : Prop := 0 <= x < 2 ^ word V.

(* the parameters of an object are those of the variant *)
Record agrees (n : Z) (p : bparams) (V : variant) : Prop := {
  ag_len : p_hashbitlen p = n; ag_nonneg : 0 <= n;
  ag_word : word V = 32 \/ word V = 64;
  ag_mask : p_MASK p = Z.ones (word V);
  ag_wbytes : p_WORDBYTES p = word_bytes V;
  ag_wbits : p_WORDBITS p = word V;
  ag_bbytes : p_BLKBYTES p = block_bytes V;
  ag_bbits : p_BLKBITS p = 8 * block_bytes V;
  ag_rounds : p_ROUNDS p = rounds V;
  ag_rounds20 : (rounds V <= 20)%nat;
  ag_cxx : forall i, (i < 16)%nat -> at_ (p_cxx p) i = pi_word (word V) i;
  ag_r1 : p_rot1 p = r1 V; ag_r1' : 0 < r1 V < word V;
  ag_r2 : p_rot2 p = r2 V; ag_r2' : 0 < r2 V < word V;
  ag_r3 : p_rot3 p = r3 V; ag_r3' : 0 < r3 V < word V;
  ag_r4 : p_rot4 p = r4 V; ag_r4' : 0 < r4 V < word V;
  ag_iv : length (iv V) = 8%nat; ag_iv' : Forall (wordp V) (iv V);
  ag_bit : final_bit V = if zmem n [224; 384] then 0 else 1;
  ag_digest : Z.shiftr n 3 = digest_bytes V;
  ag_mul : 2 ^ p_mul p * 4 = word_bytes V; ag_mul' : 0 <= p_mul p
}.

Lemma forallb_seq n (f : nat -> bool) : forallb f (seq 0 n) = true -> forall i, (i < n)%nat -> f i = true.
Proof. intros F i L. rewrite forallb_forall in F. apply F, in_seq. lia. Qed.

Lemma cxx32 i : (i < 16)%nat -> at_ C32 i = pi_word 32 i.
Proof. intros L. apply Z.eqb_eq. apply (forallb_seq 16 (fun i => at_ C32 i =? pi_word 32 i)); [vm_compute; reflexivity|exact L]. Qed.
Lemma cxx64 i : (i < 16)%nat -> at_ C64 i = pi_word 64 i.
Proof. intros L. apply Z.eqb_eq. apply (forallb_seq 16 (fun i => at_ C64 i =? pi_word 64 i)); [vm_compute; reflexivity|exact L]. Qed.

Lemma words_check w l : forallb (fun x => (0 <=? x) && (x <? 2 ^ w)) l = true -> Forall (fun x => 0 <= x < 2 ^ w) l.
Proof. intros F. rewrite forallb_forall in F. apply Forall_forall. intros x I. specialize (F x I). lia. Qed.
Lemma init_agrees n o : blake_init n = Ok o -> exists V, variant_of n V /\ agrees n (b_p o) V /\
  b_h o = iv V /\ b_t o = 0 /\ b_cache o = [] /\ b_salt o = no_salt /\ b_state o = 1 /\ b_nullt o = 0.
Proof.
  unfold blake_init. destruct (zmem n [224; 256; 384; 512]) eqn:Z; cbv [guard negb]; cbn [bind]; [|discriminate].
  apply zmem_In in Z. intros E.
  destruct Z as [<-|[<-|[<-|[<-|[]]]]]; cbn in E; apply Ok_inj in E; subst o; cbn [b_p b_h b_t b_cache b_salt b_state b_nullt].
  - exists BLAKE224. split; [constructor|]. split; [|split; [vm_compute; reflexivity|repeat split]].
    constructor; cbn -[pi_word at_ iv]; try reflexivity; try lia; [exact cxx32|]. apply words_check. vm_compute. reflexivity.
  - exists BLAKE256. split; [constructor|]. split; [|split; [vm_compute; reflexivity|repeat split]].
    constructor; cbn -[pi_word at_ iv]; try reflexivity; try lia; [exact cxx32|]. apply words_check. vm_compute. reflexivity.
  - exists BLAKE384. split; [constructor|]. split; [|split; [vm_compute; reflexivity|repeat split]].
    constructor; cbn -[pi_word at_ iv]; try reflexivity; try lia; [exact cxx64|]. apply words_check. vm_compute. reflexivity.
  - exists BLAKE512. split; [constructor|]. split; [|split; [vm_compute; reflexivity|repeat split]].
    constructor; cbn -[pi_word at_ iv]; try reflexivity; try lia; [exact cxx64|]. apply words_check. vm_compute. reflexivity.
Qed.

Lemma sigma_eq r i : (r < 20)%nat -> (i < 16)%nat -> nth i (nth r SIGMA []) 0%nat = sigma r i.
Proof.
  intros R I. apply Nat.eqb_eq.
  apply (forallb_seq 16 (fun i => Nat.eqb (nth i (nth r SIGMA []) 0%nat) (sigma r i))); [|exact I].
  apply (forallb_seq 20 (fun r => forallb (fun i => Nat.eqb (nth i (nth r SIGMA []) 0%nat) (sigma r i)) (seq 0 16))); [vm_compute; reflexivity|exact R].
Qed.
Lemma sigma_lt r i : (i < 16)%nat -> (sigma r i < 16)%nat.
Proof.
  intros I. unfold sigma. assert (r mod 10 < 10)%nat as R by (apply Nat.mod_upper_bound; lia). set (q := (r mod 10)%nat) in *. clearbody q.
  apply Nat.ltb_lt.
  apply (forallb_seq 16 (fun i => Nat.ltb (nth i (nth q permutations []) 0%nat) 16)); [|exact I].
  apply (forallb_seq 10 (fun q => forallb (fun i => Nat.ltb (nth i (nth q permutations []) 0%nat) 16) (seq 0 16))); [vm_compute; reflexivity|exact R].
Qed.

Lemma lor_disjoint a b n : 0 <= n -> 0 <= a < 2 ^ n -> Z.lor a (b * 2 ^ n) = b * 2 ^ n + a.
Proof.
  intros N A. rewrite shift_add by assumption. rewrite <- Z.shiftl_mul_pow2 by lia. rewrite Z.lor_comm. symmetry. apply Z.lxor_lor.
  apply Z.bits_inj'. intros i I. rewrite Z.land_spec, Z.bits_0.
  destruct (Z.ltb_spec i n).
  - rewrite Z.shiftl_spec_low by lia. reflexivity.
  - destruct (Z.eq_dec a 0) as [->|]; [rewrite Z.bits_0; apply andb_false_r|].
    assert (Z.log2 a < n) by (apply Z.log2_lt_pow2; lia). rewrite (Z.bits_above_log2 a) by lia. apply andb_false_r.
Qed.

Section Agree.
Context {n : Z} {p : bparams} {V : variant} (A : agrees n p V).
Local Notation w := (word V).

Lemma w_pos : 0 < w. Proof. destruct (ag_word _ _ _ A) as [-> | ->]; lia. Qed.
Lemma wbytes_pos : 0 < word_bytes V.
Proof. unfold word_bytes. destruct (ag_word _ _ _ A) as [-> | ->]; reflexivity. Qed.
Lemma w_bytes : w = 8 * word_bytes V.
Proof. unfold word_bytes. destruct (ag_word _ _ _ A) as [-> | ->]; reflexivity. Qed.
Lemma modulus_pos : 0 < 2 ^ w. Proof. apply Z.pow_pos_nonneg; [lia|]. pose proof w_pos. lia. Qed.

Lemma mask_mod x : Z.land x (p_MASK p) = x mod 2 ^ w.
Proof. rewrite (ag_mask _ _ _ A). apply Z.land_ones. pose proof w_pos. lia. Qed.

Lemma brot_rotate x r : wordp V x -> 0 < r < w -> brot p x r = rotate V x r.
Proof.
  intros X R. unfold brot, rotate. rewrite mask_mod, (ag_wbits _ _ _ A), Z.shiftr_div_pow2, Z.shiftl_mul_pow2 by lia.
  assert (2 ^ w = 2 ^ r * 2 ^ (w - r)) as E by (rewrite <- Z.pow_add_r by lia; f_equal; lia).
  assert (0 < 2 ^ r) by (apply Z.pow_pos_nonneg; lia). assert (0 < 2 ^ (w - r)) by (apply Z.pow_pos_nonneg; lia).
  rewrite E at 1. rewrite (Z.mul_comm (2 ^ r)), (Z.mul_comm x), Zmult_mod_distr_l, (Z.mul_comm (2 ^ (w - r))).
  apply lor_disjoint; [lia|]. destruct X as [X1 X2]. split; [apply Z.div_pos; lia|].
  apply Z.div_lt_upper_bound; [lia|]. rewrite <- E. exact X2.
Qed.
Lemma rotate_word x r : wordp V x -> 0 < r < w -> wordp V (rotate V x r).
Proof.
  intros X R. unfold rotate, wordp in *. destruct X as [X1 X2].
  assert (2 ^ w = 2 ^ r * 2 ^ (w - r)) as E by (rewrite <- Z.pow_add_r by lia; f_equal; lia).
  assert (0 < 2 ^ r) by (apply Z.pow_pos_nonneg; lia). assert (0 < 2 ^ (w - r)) by (apply Z.pow_pos_nonneg; lia).
  assert (0 <= x / 2 ^ r < 2 ^ (w - r)) as D by (split; [apply Z.div_pos; lia|apply Z.div_lt_upper_bound; [lia|rewrite <- E; exact X2]]).
  assert (0 <= x mod 2 ^ r < 2 ^ r) as M by (apply Z.mod_pos_bound; lia). rewrite E. nia.
Qed.
Lemma plus_word x y : wordp V (plus V x y).
Proof. unfold plus. apply Z.mod_pos_bound, modulus_pos. Qed.
Lemma lxor_word x y : wordp V x -> wordp V y -> wordp V (Z.lxor x y).
Proof. apply lxor_range. pose proof w_pos. lia. Qed.
Lemma pi_word_word i : wordp V (pi_word w i).
Proof. unfold pi_word. apply Z.mod_pos_bound, modulus_pos. Qed.

Definition quad_ok (q : quad) : Prop := let '(a, b, c, d) := q in wordp V a /\ wordp V b /\ wordp V c /\ wordp V d.
Lemma G_ok m r i q : quad_ok q -> quad_ok (G V m r i q).
Proof.
  destruct q as [[[a b] c] d]. intros [Ha [Hb [Hc Hd]]]. unfold G. cbv zeta. unfold quad_ok.
  pose proof (ag_r1' _ _ _ A). pose proof (ag_r2' _ _ _ A). pose proof (ag_r3' _ _ _ A). pose proof (ag_r4' _ _ _ A).
  split; [apply plus_word|]. split; [|split; [apply plus_word|]];
  repeat (first [apply rotate_word; [|assumption] | apply lxor_word | apply plus_word | assumption]).
Qed.

Lemma plus3 a b x : (a + b + x) mod 2 ^ w = plus V (plus V a b) x.
Proof. unfold plus. rewrite Zplus_mod_idemp_l. reflexivity. Qed.

Lemma G_eq m r v a b c d i k : k = (2 * i)%nat -> (r < 20)%nat -> (i < 8)%nat -> quad_ok (at_ v a, at_ v b, at_ v c, at_ v d) ->
  blake_G p m r v (a, b, c, d, k) =
  let '(a', b', c', d') := G V m r i (at_ v a, at_ v b, at_ v c, at_ v d) in
  set_nth (set_nth (set_nth (set_nth v a a') b b') c c') d d'.
Proof.
  intros -> R I [Ha [Hb [Hc Hd]]]. unfold blake_G, G. cbv zeta.
  rewrite !(sigma_eq r) by lia. replace (S (2 * i)) with (2 * i + 1)%nat by lia.
  rewrite !(ag_cxx _ _ _ A) by (apply sigma_lt; lia). rewrite !mask_mod, !plus3.
  rewrite (ag_r1 _ _ _ A), (ag_r2 _ _ _ A), (ag_r3 _ _ _ A), (ag_r4 _ _ _ A).
  pose proof (ag_r1' _ _ _ A). pose proof (ag_r2' _ _ _ A). pose proof (ag_r3' _ _ _ A). pose proof (ag_r4' _ _ _ A).
  change at_ with word_at in *.
  set (x := Z.lxor (word_at m (sigma r (2 * i))) (pi_word w (sigma r (2 * i + 1)))).
  set (y := Z.lxor (word_at m (sigma r (2 * i + 1))) (pi_word w (sigma r (2 * i)))).
  set (a1 := plus V (plus V (word_at v a) (word_at v b)) x). assert (wordp V a1) by apply plus_word. clearbody a1.
  rewrite (brot_rotate (Z.lxor (word_at v d) a1)) by (try apply lxor_word; assumption).
  set (d1 := rotate V (Z.lxor (word_at v d) a1) (r1 V)). assert (wordp V d1) by (apply rotate_word; [apply lxor_word; assumption|assumption]). clearbody d1.
  fold (plus V (word_at v c) d1).
  set (c1 := plus V (word_at v c) d1). assert (wordp V c1) by apply plus_word. clearbody c1.
  rewrite (brot_rotate (Z.lxor (word_at v b) c1)) by (try apply lxor_word; assumption).
  set (b1 := rotate V (Z.lxor (word_at v b) c1) (r2 V)). assert (wordp V b1) by (apply rotate_word; [apply lxor_word; assumption|assumption]). clearbody b1.
  set (a2 := plus V (plus V a1 b1) y). assert (wordp V a2) by apply plus_word. clearbody a2.
  rewrite (brot_rotate (Z.lxor d1 a2)) by (try apply lxor_word; assumption).
  set (d2 := rotate V (Z.lxor d1 a2) (r3 V)). assert (wordp V d2) by (apply rotate_word; [apply lxor_word; assumption|assumption]). clearbody d2.
  fold (plus V c1 d2).
  set (c2 := plus V c1 d2). assert (wordp V c2) by apply plus_word. clearbody c2.
  rewrite (brot_rotate (Z.lxor b1 c2)) by (try apply lxor_word; assumption). reflexivity.
Qed.

Definition flat (s : state) : list Z :=
  let '((v0, v4, v8, v12), (v1, v5, v9, v13), (v2, v6, v10, v14), (v3, v7, v11, v15)) := s in
  [v0; v1; v2; v3; v4; v5; v6; v7; v8; v9; v10; v11; v12; v13; v14; v15].
Definition state_ok (s : state) : Prop := let '(x0, x1, x2, x3) := s in quad_ok x0 /\ quad_ok x1 /\ quad_ok x2 /\ quad_ok x3.

Lemma round_eq m r s : (r < 20)%nat -> state_ok s -> blake_round p m (flat s) r = flat (round V m s r) /\ state_ok (round V m s r).
Proof.
  intros R. destruct s as [[[q0 q1] q2] q3].
  destruct q0 as [[[v0 v4] v8] v12], q1 as [[[v1 v5] v9] v13], q2 as [[[v2 v6] v10] v14], q3 as [[[v3 v7] v11] v15].
  intros [Q0 [Q1 [Q2 Q3]]]. cbn [quad_ok] in Q0, Q1, Q2, Q3. unfold blake_round, round, flat. cbn [fold_left].
  Ltac one I := match goal with |- context [blake_G ?p ?m ?r (?x :: ?l) (?a, ?b, ?c, ?d, ?k)] =>
     rewrite (G_eq m r (x :: l) a b c d I k) by (first [reflexivity | assumption | lia | (cbn [at_ nth quad_ok]; tauto)]) end;
     cbn [at_ nth];
     match goal with |- context [G ?V ?m ?r I ?q] =>
       let E := fresh "E" in let X := fresh "X" in
       assert (quad_ok (G V m r I q)) as X by (apply G_ok; cbn [quad_ok]; tauto);
       destruct (G V m r I q) as [[[? ?] ?] ?] eqn:E; clear E; cbn [quad_ok] in X; cbn [set_nth] end.
  one 0%nat. one 1%nat. one 2%nat. one 3%nat. one 4%nat. one 5%nat. one 6%nat. one 7%nat.
  split; [reflexivity|]. cbn [state_ok quad_ok]. tauto.
Qed.

Lemma fold_left_cons {X Y} (f : X -> Y -> X) a l x : fold_left f (a :: l) x = fold_left f l (f x a).
Proof. reflexivity. Qed.
Lemma rounds_eq m rs s : Forall (fun r => (r < 20)%nat) rs -> state_ok s ->
  fold_left (blake_round p m) rs (flat s) = flat (fold_left (round V m) rs s) /\ state_ok (fold_left (round V m) rs s).
Proof.
  revert s. induction rs as [|r rs IH]; intros s F S; [split; [reflexivity|exact S]|]. inversion F as [|? ? R F']; subst.
  rewrite !fold_left_cons. destruct (round_eq m r s R S) as [Q S']. rewrite Q. apply IH; assumption.
Qed.

Lemma word_slice b i : Z.of_nat i < 16 -> zlen b = block_bytes V ->
  byte2int (p_WORDBYTES p) (slice b (Z.shiftl (Z.shiftl (Z.of_nat i) 2) (p_mul p)) (Z.shiftl (Z.shiftl (Z.of_nat i) 2) (p_mul p) + Z.shiftl 4 (p_mul p))) =
  Ok (be_value (firstn (Z.to_nat (word_bytes V)) (skipn (i * Z.to_nat (word_bytes V)) b))).
Proof.
  intros I L. pose proof (ag_mul' _ _ _ A) as M. pose proof wbytes_pos as W. unfold block_bytes in L.
  rewrite !Z.shiftl_mul_pow2 by lia. change (2 ^ 2) with 4.
  replace (Z.of_nat i * 4 * 2 ^ p_mul p) with (Z.of_nat i * word_bytes V) by (rewrite <- (ag_mul _ _ _ A); ring).
  replace (4 * 2 ^ p_mul p) with (word_bytes V) by (rewrite <- (ag_mul _ _ _ A); ring).
  assert (zlen (slice b (Z.of_nat i * word_bytes V) (Z.of_nat i * word_bytes V + word_bytes V)) = word_bytes V) as Ls by (rewrite zlen_slice by nia; nia).
  unfold byte2int. rewrite (ag_wbytes _ _ _ A), Ls, Z.eqb_refl, from_bytes_unsigned. f_equal.
  unfold be_value. change le_value with from_le. cbv iota. rewrite slice_firstn by nia. do 2 f_equal. f_equal; [f_equal; lia|]. f_equal. nia.
Qed.

Lemma words_eq b : zlen b = block_bytes V ->
  mapM (fun i => let s := Z.shiftl (Z.shiftl (Z.of_nat i) 2) (p_mul p) in
        byte2int (p_WORDBYTES p) (slice b s (s + Z.shiftl 4 (p_mul p)))) (seq 0 16) = Ok (words V 16 b).
Proof. intros L. apply mapM_Ok_map. intros i I. apply in_seq in I. apply word_slice; [lia|exact L]. Qed.

Definition set_h (o : blake) (h : list Z) : blake :=
  {| b_p := b_p o; b_h := h; b_t := b_t o; b_cache := b_cache o; b_salt := b_salt o;
     b_state := b_state o; b_nullt := b_nullt o; b_hash := b_hash o |}.
(* the new chain value *)
Definition core (h salt : list Z) (t nullt : Z) (m : list Z) : list Z :=
  let v := map (fun i => at_ h i) (seq 0 8)
           ++ map (fun i => Z.lxor (at_ (p_cxx p) i) (at_ salt i)) (seq 0 4)
           ++ map (fun i => at_ (p_cxx p) i) (seq 4 4) in
  let v := if nullt =? 0
           then let v := set_nth v 12 (Z.lxor (at_ v 12) (Z.land t (p_MASK p))) in
                let v := set_nth v 13 (Z.lxor (at_ v 13) (Z.land t (p_MASK p))) in
                let v := set_nth v 14 (Z.lxor (at_ v 14) (Z.shiftr t (p_WORDBITS p))) in
                set_nth v 15 (Z.lxor (at_ v 15) (Z.shiftr t (p_WORDBITS p)))
           else v in
  let v := fold_left (blake_round p m) (seq 0 (p_ROUNDS p)) v in
  map (fun i => Z.lxor (Z.lxor (Z.lxor (at_ h i) (at_ v i)) (at_ v (i + 8))) (at_ salt (Nat.land i 3))) (seq 0 8).

Lemma compress_core o b : b_p o = p -> zlen b = block_bytes V ->
  blake_compress o b = Ok (set_h o (core (b_h o) (b_salt o) (b_t o) (b_nullt o) (words V 16 b))).
Proof. intros P L. unfold blake_compress. rewrite P. pose proof (words_eq b L) as E. cbv zeta in E |- *. rewrite E. cbn [bind]. unfold core, set_h. rewrite P. reflexivity. Qed.

Definition wordsp (k : nat) (l : list Z) : Prop := length l = k /\ Forall (wordp V) l.

Lemma core_eq h salt t nullt b : wordsp 8 h -> wordsp 4 salt -> (nullt = 0 -> 0 <= t < 2 ^ (2 * w)) ->
  core h salt t nullt (words V 16 b) = compress V h salt (if nullt =? 0 then t else 0) b /\
  wordsp 8 (compress V h salt (if nullt =? 0 then t else 0) b).
Proof.
  intros [Lh Fh] [Ls Fs] T.
  destruct h as [|h0 [|h1 [|h2 [|h3 [|h4 [|h5 [|h6 [|h7 [|]]]]]]]]]; try discriminate Lh.
  destruct salt as [|s0 [|s1 [|s2 [|s3 [|]]]]]; try discriminate Ls.
  do 8 (apply Forall_cons_iff in Fh as [? Fh]). do 4 (apply Forall_cons_iff in Fs as [? Fs]).
  set (u := if nullt =? 0 then t else 0).
  assert (0 <= u < 2 ^ (2 * w)) as U.
  { subst u. destruct (Z.eqb_spec nullt 0); [auto|]. split; [lia|]. apply Z.pow_pos_nonneg; [lia|]. pose proof w_pos. lia. }
  assert (wordp V (u mod 2 ^ w)) as U0 by (apply Z.mod_pos_bound, modulus_pos).
  assert (wordp V (u / 2 ^ w)) as U1.
  { pose proof modulus_pos. split; [apply Z.div_pos; lia|]. apply Z.div_lt_upper_bound; [lia|].
    rewrite <- Z.pow_add_r by (pose proof w_pos; lia). replace (w + w) with (2 * w) by lia. lia. }
  unfold core, compress. cbv zeta. cbn [seq map app]. rewrite !(ag_cxx _ _ _ A) by lia. cbn [at_ word_at nth].
  set (start := ((h0, h4, Z.lxor s0 (pi_word w 0), Z.lxor (u mod 2 ^ w) (pi_word w 4)),
     (h1, h5, Z.lxor s1 (pi_word w 1), Z.lxor (u mod 2 ^ w) (pi_word w 5)),
     (h2, h6, Z.lxor s2 (pi_word w 2), Z.lxor (u / 2 ^ w) (pi_word w 6)),
     (h3, h7, Z.lxor s3 (pi_word w 3), Z.lxor (u / 2 ^ w) (pi_word w 7))) : state).
  assert (state_ok start) as S0.
  { subst start. cbn [state_ok quad_ok]. pose proof pi_word_word as Pw.
    repeat match goal with |- _ /\ _ => split end; try apply lxor_word; try assumption; apply Pw. }
  match goal with |- context [fold_left (blake_round p ?m) ?rs ?v] => assert (v = flat start) as Ev end.
  { subst start u. cbn [flat]. destruct (nullt =? 0).
    - cbn [set_nth at_ nth]. rewrite mask_mod, (ag_wbits _ _ _ A), Z.shiftr_div_pow2 by (pose proof w_pos; lia).
      rewrite !(Z.lxor_comm _ (t mod _)), !(Z.lxor_comm _ (t / _)), (Z.lxor_comm s0), (Z.lxor_comm s1), (Z.lxor_comm s2), (Z.lxor_comm s3). reflexivity.
    - rewrite Z.mod_0_l, Z.div_0_l by (pose proof modulus_pos; lia). rewrite !Z.lxor_0_l, (Z.lxor_comm s0), (Z.lxor_comm s1), (Z.lxor_comm s2), (Z.lxor_comm s3). reflexivity. }
  rewrite Ev. clear Ev. rewrite (ag_rounds _ _ _ A).
  assert (Forall (fun r => (r < 20)%nat) (seq 0 (rounds V))) as Fr.
  { apply Forall_forall. intros r I. apply in_seq in I. pose proof (ag_rounds20 _ _ _ A). lia. }
  destruct (rounds_eq (words V 16 b) _ start Fr S0) as [-> S1].
  destruct (fold_left (round V (words V 16 b)) (seq 0 (rounds V)) start) as [[[q0 q1] q2] q3].
  destruct q0 as [[[v0 v4] v8] v12], q1 as [[[v1 v5] v9] v13], q2 as [[[v2 v6] v10] v14], q3 as [[[v3 v7] v11] v15].
  cbn [flat at_ nth Nat.land Nat.add]. cbn [state_ok quad_ok] in S1.
  assert (forall a b c d, Z.lxor (Z.lxor (Z.lxor a b) c) d = Z.lxor (Z.lxor (Z.lxor a d) b) c) as X.
  { intros. rewrite !Z.lxor_assoc. f_equal. rewrite <- Z.lxor_assoc. apply Z.lxor_comm. }
  split; [do 8 (apply f_equal2; [apply X|]); reflexivity|].
  split; [reflexivity|]. repeat (constructor; [repeat apply lxor_word; tauto|]). constructor.
Qed.

End Agree.
Arguments core p h salt t nullt m : clear implicits.
Arguments wordsp V k l : clear implicits.
