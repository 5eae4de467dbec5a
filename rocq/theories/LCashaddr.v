(* Lemmas for cashaddr *)
From Coq Require Import ZifyBool ZifyNat String.
From Verif Require Import Py LBase MNet MUtils MBech32 MCashaddr SNum SNet SBase58 SBits SBch SBech32 SCashaddr
  LNet LUtils LBase58 LBits LBch LBchErr LBchAlg LBech32.
Open Scope list_scope.
Open Scope Z_scope.
Ltac Zify.zify_post_hook ::= idtac.

Definition ca_mix (top : Z) : Z :=
  fold_left (fun chk i => if negb (Z.land top (fst i) =? 0) then Z.lxor chk (snd i) else chk) ca_generator 0.

Lemma ca_mix_lxor gen top chk :
  fold_left (fun chk i => if negb (Z.land top (fst i) =? 0) then Z.lxor chk (snd i) else chk) gen chk
  = Z.lxor chk (fold_left (fun chk (i : Z * Z) => if negb (Z.land top (fst i) =? 0) then Z.lxor chk (snd i) else chk) gen 0).
Proof.
  revert chk. induction gen as [|g t IH]; intros chk; cbn [fold_left].
  - rewrite Z.lxor_0_r. reflexivity.
  - destruct (negb _).
    + rewrite IH, (IH (Z.lxor 0 _)), Z.lxor_0_l, Z.lxor_assoc. reflexivity.
    + apply IH.
Qed.

Lemma cashaddr_g_gfs : gfs cashaddr_g.
Proof. repeat constructor; lia. Qed.

Lemma ca_mix_table q : gf q -> ca_mix q = be_num 32 (map (gf_mul q) cashaddr_g).
Proof.
  intros Gq. apply Z.eqb_eq.
  apply (sweep32 (fun q => ca_mix q =? be_num 32 (map (gf_mul q) cashaddr_g)));
    [vm_compute; reflexivity|exact Gq].
Qed.

Lemma ca_step_push r v : gfs r -> length r = 8%nat -> gf v ->
  ca_polymod_step (be_num 32 r) v = be_num 32 (poly_push cashaddr_g r v).
Proof.
  intros G L Gv. destruct r as [|q r]; [discriminate|]. unfold gfs in G. inversion G as [|? ? Gq Gr]; subst.
  injection L as L. cbn [poly_push]. unfold ca_polymod_step. rewrite ca_mix_lxor. fold (ca_mix (Z.shiftr (be_num 32 (q :: r)) 35)).
  assert (zlen r = 7) as Lr by (unfold zlen; lia).
  pose proof (pack_range r Gr) as R. rewrite Lr in R. change (32 ^ 7) with 34359738368 in R.
  rewrite be_num_cons, Lr. change (32 ^ 7) with 34359738368.
  assert (Z.shiftr (q * 34359738368 + be_num 32 r) 35 = q) as ->.
  { rewrite Z.shiftr_div_pow2 by lia. change (2 ^ 35) with 34359738368.
    rewrite Z.div_add_l by lia. rewrite Z.div_small by lia. lia. }
  assert (Z.land (q * 34359738368 + be_num 32 r) 34359738367 = be_num 32 r) as ->.
  { change 34359738367 with (Z.ones 35). rewrite Z.land_ones by lia. change (2 ^ 35) with 34359738368.
    rewrite Z.add_comm, Z.mod_add by lia. apply Z.mod_small. lia. }
  rewrite <- (shift_add (be_num 32 r) v 5) by (try lia; exact Gv). change (2 ^ 5) with 32.
  rewrite <- be_num_snoc. rewrite ca_mix_table by exact Gq. symmetry. apply pack_add.
  - apply Forall_app. split; [exact Gr|]. constructor; [exact Gv|constructor].
  - apply mul_closed_of; [exact cashaddr_g_gfs|exact Gq].
  - rewrite app_length. cbn. lia.
Qed.

Definition ctable : list Z := Eval vm_compute in map (fun q => be_num 32 (map (gf_mul q) cashaddr_g)) all32.
Definition cstep (x : Z) : Z :=
  let q := Z.shiftr x 35 in
  Z.lxor (Z.shiftl (x - Z.shiftl q 35) 5) (nth (Z.to_nat q) ctable 0).

Lemma cstep_push r : gfs r -> length r = 8%nat -> cstep (be_num 32 r) = be_num 32 (poly_push cashaddr_g r 0).
Proof.
  intros G L. destruct r as [|q r]; [discriminate|]. unfold gfs in G. inversion G as [|? ? Gq Gr]; subst.
  injection L as L. cbn [poly_push]. unfold cstep.
  assert (zlen r = 7) as Lr by (unfold zlen; lia).
  pose proof (pack_range r Gr) as R. rewrite Lr in R. change (32 ^ 7) with 34359738368 in R.
  rewrite be_num_cons, Lr. change (32 ^ 7) with 34359738368.
  assert (Z.shiftr (q * 34359738368 + be_num 32 r) 35 = q) as ->.
  { rewrite Z.shiftr_div_pow2 by lia. change (2 ^ 35) with 34359738368.
    rewrite Z.div_add_l by lia. rewrite Z.div_small by lia. lia. }
  rewrite !(Z.shiftl_mul_pow2 q) by lia. change (2 ^ 35) with 34359738368.
  replace (q * 34359738368 + be_num 32 r - q * 34359738368) with (be_num 32 r) by lia.
  rewrite pack_add.
  - rewrite be_num_snoc, Z.add_0_r, Z.shiftl_mul_pow2 by lia. f_equal. apply Z.eqb_eq.
    apply (sweep32 (fun q => nth (Z.to_nat q) ctable 0 =? be_num 32 (map (gf_mul q) cashaddr_g)));
      [vm_compute; reflexivity|exact Gq].
  - apply Forall_app. split; [exact Gr|]. constructor; [unfold gf; lia|constructor].
  - apply mul_closed_of; [exact cashaddr_g_gfs|exact Gq].
  - rewrite app_length. cbn. lia.
Qed.

Lemma cashaddr_g_inv q : gf q -> gf_mul q (last cashaddr_g 0) = 0 -> q = 0.
Proof.
  intros Gq E. destruct (Z.eq_dec q 0) as [|N]; [assumption|]. exfalso.
  apply (gf_mul_nonzero q 1); try assumption; unfold gf; lia.
Qed.

Lemma ca_polymod_residue vs : gfs vs ->
  fold_left ca_polymod_step vs 1 = be_num 32 (poly_residue cashaddr_g vs).
Proof.
  intros G. unfold poly_residue.
  assert (1 = be_num 32 (poly_one cashaddr_g)) as E by reflexivity. rewrite E at 1. clear E.
  assert (gfs (poly_one cashaddr_g)) as G1 by (repeat constructor; lia).
  assert (length (poly_one cashaddr_g) = 8%nat) as L1 by reflexivity.
  revert G1 L1. generalize (poly_one cashaddr_g). revert G. induction vs as [|v vs IH]; intros G r Gr Lr; [reflexivity|].
  unfold gfs in G. inversion G; subst. cbn [fold_left]. rewrite ca_step_push by assumption.
  apply IH; [assumption| |].
  - apply (push_gfs cashaddr_g 7 eq_refl (mul_closed_of _ cashaddr_g_gfs) cashaddr_g_inv); assumption.
  - apply (push_length cashaddr_g 7 eq_refl (mul_closed_of _ cashaddr_g_gfs) cashaddr_g_inv); assumption.
Qed.

Lemma ca_residue_gfs vs : gfs vs -> gfs (poly_residue cashaddr_g vs).
Proof.
  intros G. apply (fold_push_gfs cashaddr_g 7 eq_refl (mul_closed_of _ cashaddr_g_gfs) cashaddr_g_inv); [exact G|].
  repeat constructor; lia.
Qed.
Lemma ca_residue_length vs : length (poly_residue cashaddr_g vs) = 8%nat.
Proof. apply (fold_push_length cashaddr_g 7 eq_refl (mul_closed_of _ cashaddr_g_gfs) cashaddr_g_inv). reflexivity. Qed.

Lemma prefix_expand_values p : ca_prefix_expand p = cashaddr_prefix_values p.
Proof.
  unfold ca_prefix_expand, cashaddr_prefix_values. f_equal. apply map_ext. intros c.
  change 0x1f with (Z.ones 5). rewrite Z.land_ones by lia. reflexivity.
Qed.

Lemma prefix_values_gfs p : gfs (cashaddr_prefix_values p).
Proof.
  unfold cashaddr_prefix_values. apply Forall_app. split.
  - apply Forall_map. apply Forall_forall. intros c _. apply Z.mod_pos_bound. lia.
  - constructor; [unfold gf; lia|constructor].
Qed.

Lemma ca_verify_codeword p data : gfs data ->
  ca_verify_checksum p data = true <-> codeword cashaddr_g (cashaddr_prefix_values p ++ data).
Proof.
  intros G. unfold ca_verify_checksum, ca_polymod, codeword. rewrite prefix_expand_values.
  assert (gfs (cashaddr_prefix_values p ++ data)) as Ga by (apply Forall_app; split; [apply prefix_values_gfs|exact G]).
  rewrite ca_polymod_residue by exact Ga. rewrite Z.eqb_eq. rewrite Z.lxor_eq_0_iff. split.
  - intros E. apply pack_inj; [apply ca_residue_gfs, Ga|repeat constructor; lia|rewrite ca_residue_length; reflexivity|].
    rewrite E. reflexivity.
  - intros ->. reflexivity.
Qed.

Lemma ca_checksum_unique p data c : gfs data -> length c = 8%nat ->
  codeword cashaddr_g (cashaddr_prefix_values p ++ data ++ c) <-> c = ca_calculate_checksum p data.
Proof.
  intros G L. rewrite app_assoc.
  rewrite (codeword_check cashaddr_g 7 eq_refl (mul_closed_of _ cashaddr_g_gfs) cashaddr_g_inv) by exact L.
  unfold ca_calculate_checksum, ca_polymod. rewrite prefix_expand_values.
  assert (gfs ((cashaddr_prefix_values p ++ data) ++ zeros 7)) as Ga.
  { apply Forall_app. split; [|apply gfs_repeat0]. apply Forall_app; split; [apply prefix_values_gfs|exact G]. }
  change [0; 0; 0; 0; 0; 0; 0; 0] with (zeros 7). rewrite (app_assoc (cashaddr_prefix_values p)).
  rewrite ca_polymod_residue by exact Ga. change 1 with (be_num 32 (poly_one cashaddr_g)).
  assert (gfs (poly_one cashaddr_g)) as G1 by (repeat constructor; lia).
  rewrite <- pack_add; [|apply ca_residue_gfs, Ga|exact G1|rewrite ca_residue_length; reflexivity].
  set (R := poly_add _ _).
  assert (gfs R) as GR by (apply poly_add_gfs; [apply ca_residue_gfs, Ga|exact G1]).
  assert (length R = 8%nat) as LR by (unfold R; rewrite poly_add_length; rewrite ca_residue_length; reflexivity).
  rewrite <- (unpack R 7 GR LR) at 1. exact (iff_refl _).
Qed.

Lemma ca_checksum_gfs p data : gfs (ca_calculate_checksum p data).
Proof.
  unfold ca_calculate_checksum. apply Forall_map. apply Forall_forall. intros i _.
  change 0x1f with (Z.ones 5). rewrite Z.land_ones by lia. apply Z.mod_pos_bound. lia.
Qed.

(** * Splitting at ':' *)

Lemma split_char_notin c s : ~ In c s -> split_char c s = [s].
Proof.
  induction s as [|x s IH]; intros N; [reflexivity|]. cbn [split_char].
  destruct (Z.eqb_spec x c) as [->|D]; [contradiction N; left; reflexivity|].
  rewrite IH; [reflexivity|]. intros I. apply N. right. exact I.
Qed.

Lemma split_char_app c a b : ~ In c a -> split_char c (a ++ c :: b) = a :: split_char c b.
Proof.
  induction a as [|x a IH]; intros N; cbn [app split_char].
  - rewrite Z.eqb_refl. reflexivity.
  - destruct (Z.eqb_spec x c) as [->|D]; [contradiction N; left; reflexivity|].
    rewrite IH; [reflexivity|]. intros I. apply N. right. exact I.
Qed.

Lemma first_occurrence c (l : list Z) : In c l -> exists a b, l = a ++ c :: b /\ ~ In c a.
Proof.
  induction l as [|x l IH]; intros I; [destruct I|].
  destruct (Z.eq_dec x c) as [->|D]; [exists [], l; auto|].
  destruct I as [->|I]; [contradiction|]. destruct (IH I) as [a [b [-> N]]]. exists (x :: a), b.
  split; [reflexivity|]. intros [E|J]; [contradiction|contradiction].
Qed.

Lemma split_char_two c s a b : split_char c s = [a; b] <-> s = a ++ c :: b /\ ~ In c a /\ ~ In c b.
Proof.
  split.
  - destruct (in_dec Z.eq_dec c s) as [I|N]; [|rewrite split_char_notin by exact N; discriminate].
    destruct (first_occurrence c s I) as [p [q [-> Np]]]. rewrite split_char_app by exact Np.
    destruct (in_dec Z.eq_dec c q) as [J|Nq].
    + destruct (first_occurrence c q J) as [r [t [-> Nr]]]. rewrite split_char_app by exact Nr.
      destruct (split_char c t) eqn:E; [|discriminate].
      destruct t as [|y t]; [discriminate|]. cbn [split_char] in E. destruct (y =? c); [discriminate|].
      destruct (split_char c t); discriminate.
    + rewrite split_char_notin by exact Nq. intros E. injection E as -> ->. auto.
  - intros [-> [Na Nb]]. rewrite split_char_app, split_char_notin by assumption. reflexivity.
Qed.

(** * decode *)

Lemma find_charset_gf x : (exists d, gf d /\ x = b32_char d /\ find CHARSET [x] = d) \/ find CHARSET [x] = -1.
Proof.
  destruct (zmem x CHARSET) eqn:Z.
  - left. apply charset_mem in Z. destruct Z as [d [Gd ->]]. exists d. rewrite charset_find by exact Gd. auto.
  - right. assert (forall l i, ~ In x l -> find_from [x] l i = -1) as F.
    { induction l as [|y l IH]; intros i N; [reflexivity|]. cbn [find_from is_prefix].
      destruct (Z.eqb_spec x y) as [->|D]; [contradiction N; left; reflexivity|]. cbn [andb].
      apply IH. intros I. apply N. right. exact I. }
    apply F. intros I. apply zmem_In in I. congruence.
Qed.

Lemma b32decode_cases s : (exists ds, gfs ds /\ s = map b32_char ds /\ b32decode s = ds) \/ In (-1) (b32decode s).
Proof.
  induction s as [|x s IH]; [left; exists []; repeat split; constructor|].
  destruct (find_charset_gf x) as [[d [Gd [-> F]]]|F].
  - destruct IH as [[ds [G [-> E]]]|I].
    + left. exists (d :: ds). unfold b32decode in *. cbn [map]. rewrite F, E.
      repeat split. constructor; assumption.
    + right. right. exact I.
  - right. left. exact F.
Qed.

Lemma pad58_exists ds : gfs ds -> exists conv, convertbits ds 5 8 true = Ok (Some conv) /\ regroup_pad 5 8 ds conv.
Proof. intros G. apply convertbits_pad_Ok; [lia|lia|exact G]. Qed.

(* a front part of the regrouped bytes *)
Lemma front_leading ds conv b t : gfs ds -> regroup_pad 5 8 ds conv -> conv = b ++ t ->
  8 * zlen b <= 5 * zlen ds -> leading_bytes ds b.
Proof.
  intros Gd [Gv [p [Rp [Lp Vp]]]] Ec Hb.
  pose proof (zlen_nonneg ds). pose proof (zlen_nonneg b). pose proof (zlen_nonneg t).
  assert (groups 8 b /\ groups 8 t) as [Gb Gt] by (rewrite Ec in Gv; apply Forall_app in Gv; exact Gv).
  split; [exact Gb|]. norm_spec. split; [exact Hb|].
  rewrite Ec, zlen_app in Lp. rewrite Ec, be_num_app in Vp. change (2 ^ 8) with 256 in *.
  change (2 ^ 5) with 32 in *.
  pose proof (be_num_range 256 t ltac:(lia) Gt) as Rt.
  set (e := 5 * zlen ds - 8 * zlen b) in *. assert (0 <= e) as He by lia.
  assert (256 ^ zlen t = 2 ^ e * 2 ^ p) as Et.
  { change 256 with (2 ^ 8). rewrite <- !Z.pow_mul_r by lia. rewrite <- !Z.pow_add_r by lia. f_equal. unfold e. lia. }
  assert (0 < 2 ^ e) as P1 by (apply pow2_pos, He). assert (0 < 2 ^ p) as P2 by (apply pow2_pos; lia).
  apply Z.div_unique_pos with (r := be_num 32 ds - be_num 256 b * 2 ^ e); [|ring].
  rewrite Et in *. set (E := 2 ^ e) in *. set (Q := 2 ^ p) in *.
  set (B := be_num 256 b) in *. set (D := be_num 32 ds) in *. set (T := be_num 256 t) in *.
  clear - Vp Rt P1 P2. nia.
Qed.

Lemma drop6 ds conv : gfs ds -> regroup_pad 5 8 ds conv ->
  leading_bytes ds (slice_to conv (-6)) /\ len (slice_to conv (-6)) = Z.max 0 ((5 * len ds + 7) / 8 - 6).
Proof.
  intros Gd R. pose proof R as [_ [p [Rp [Lp _]]]]. norm_spec.
  set (b := slice_to conv (-6)). set (t := slice_from conv (-6)).
  assert (conv = b ++ t) as Ec by (symmetry; apply slice_neg_split).
  assert (zlen b = Z.max 0 (zlen conv - 6)) as Lb.
  { unfold b, slice_to, clampi. change (-6 <? 0) with true. cbn iota. unfold zlen. rewrite firstn_length.
    unfold zlen in *. lia. }
  assert (zlen conv = (5 * zlen ds + 7) / 8) as Lconv by (apply Z.div_unique with (r := 7 - p); lia).
  pose proof (zlen_nonneg ds). pose proof (zlen_nonneg conv).
  split; [|rewrite Lb, Lconv; lia]. apply (front_leading ds conv b t Gd R Ec). lia.
Qed.

Lemma leading_bytes_unique ds a b : leading_bytes ds a -> leading_bytes ds b -> len a = len b -> a = b.
Proof.
  intros [Ga [_ Va]] [Gb [_ Vb]] L. apply (be_num_inj_len 256); [lia|exact Ga|exact Gb|exact L|].
  rewrite Va, Vb, L. reflexivity.
Qed.

Lemma is_prefix_app p a c b : is_prefix p (a ++ c :: b) = true -> ~ In c p -> ~ In c a ->
  exists x, a = p ++ x.
Proof.
  intros E Np Na. apply is_prefix_spec in E. destruct E as [t E]. revert a Na E.
  induction p as [|y p IH]; intros a Na E; [exists a; reflexivity|].
  destruct a as [|z a].
  - cbn [app] in E. injection E as E _. contradiction Np. left. congruence.
  - cbn [app] in E. injection E as -> E. destruct (IH (fun H => Np (or_intror H)) a (fun H => Na (or_intror H)) E) as [x ->].
    exists x. reflexivity.
Qed.

Definition good_prefix (p : str) : Prop := ~ In 58 p /\ p <> [].

Lemma good_prefixes name net p : get_network name = Ok net -> CASHADDR_PREFIX net = Some p -> good_prefix p.
Proof.
  intros E Ep.
  assert (match CASHADDR_PREFIX net with Some h => negb (zmem 58 h) && negb (leqb h []) | None => true end = true) as B.
  { revert E. apply (supported_forall (fun _ n => match CASHADDR_PREFIX n with
       Some h => negb (zmem 58 h) && negb (leqb h []) | None => true end)).
    vm_compute. reflexivity. }
  rewrite Ep in B. apply andb_prop in B. destruct B as [B1 B2]. split.
  - intros I. apply zmem_In in I. rewrite I in B1. discriminate.
  - intros ->. discriminate.
Qed.

Lemma not_in_b32 ds : gfs ds -> ~ In 58 (map b32_char ds).
Proof.
  intros G I. apply in_map_iff in I. destruct I as [d [E Hd]]. unfold gfs in G. rewrite Forall_forall in G.
  pose proof (b32_char_facts d (G d Hd)). tauto.
Qed.

Lemma ca_decode_cases name net p s : get_network name = Ok net -> CASHADDR_PREFIX net = Some p ->
  (exists suffix values b, cashaddr_decode net s = Ok b /\ ~ In 58 suffix /\ cashaddr_text (p ++ suffix) values s /\
    leading_bytes values b /\ len b = Z.max 0 ((5 * len values + 7) / 8 - 6)) \/
  ((cashaddr_decode net s = Err ValueError \/ cashaddr_decode net s = Err TypeError) /\
   forall suffix values, ~ In 58 suffix -> ~ cashaddr_text (p ++ suffix) values s).
Proof.
  intros En Ep. destruct (good_prefixes _ _ _ En Ep) as [N58 Ne]. unfold cashaddr_decode. rewrite Ep.
  rewrite find_0. 
  destruct (is_prefix p s) eqn:Pre; cbn [negb guard bind].
  2:{ right. split; [left; reflexivity|]. intros suffix values Ns [_ [_ ->]].
      assert (is_prefix p ((p ++ suffix) ++ lit ":" ++ map b32_char values) = true) as T; [|congruence].
      apply is_prefix_spec. exists (suffix ++ lit ":" ++ map b32_char values). rewrite <- app_assoc. reflexivity. }
  assert (forall suffix values, ~ In 58 suffix -> cashaddr_text (p ++ suffix) values s ->
     split_char 58 s = [p ++ suffix; map b32_char values]) as Key.
  { intros suffix values Ns [G [_ ->]]. apply split_char_two. split; [reflexivity|].
    split; [rewrite in_app_iff; tauto|]. apply not_in_b32, G. }
  destruct (split_char 58 s) as [|P [|payload [|? ?]]] eqn:Sp;
    try (right; split; [left; reflexivity|]; intros suffix values Ns T; specialize (Key suffix values Ns T); discriminate).
  apply split_char_two in Sp. destruct Sp as [-> [NP Npay]].
  apply is_prefix_app in Pre; [|exact N58|exact NP]. destruct Pre as [suffix ->].
  destruct (b32decode_cases payload) as [[ds [G [-> E]]]|I].
  - rewrite E. assert (forall suffix' values, ~ In 58 suffix' ->
      cashaddr_text (p ++ suffix') values ((p ++ suffix) ++ 58 :: map b32_char ds) -> suffix' = suffix /\ values = ds) as U.
    { intros suffix' values Ns T. specialize (Key suffix' values Ns T). injection Key as K1 K2.
      split; [apply app_inv_head in K1; congruence|]. symmetry. apply map_b32_inj; [exact G|apply T|exact K2]. }
    destruct (ca_verify_checksum (p ++ suffix) ds) eqn:V; cbn [negb guard bind].
    + left. destruct (pad58_exists ds G) as [conv [Ec R]]. rewrite Ec. cbn [bind].
      apply ca_verify_codeword in V; [|exact G]. destruct (drop6 ds conv G R) as [D1 D2].
      exists suffix, ds, (slice_to conv (-6)). split; [reflexivity|].
      split; [intros I; apply NP, in_or_app; right; exact I|]. split; [|split; assumption].
      split; [exact G|]. split; [exact V|]. reflexivity.
    + right. split; [left; reflexivity|]. intros suffix' values Ns T. destruct (U _ _ Ns T) as [-> ->].
      destruct T as [_ [T _]]. apply ca_verify_codeword in T; [|exact G]. congruence.
  - right. split.
    + destruct (ca_verify_checksum _ _); [|left; reflexivity]. cbn [negb guard bind].
      rewrite convertbits_None; [right; reflexivity|lia|lia|]. intros G. unfold groups in G. rewrite Forall_forall in G.
      specialize (G _ I). lia.
    + intros suffix' values Ns T. specialize (Key suffix' values Ns T). injection Key as _ ->.
      destruct T as [G _]. unfold b32decode in I. rewrite charset_finds in I by exact G.
      unfold gfs in G. rewrite Forall_forall in G. specialize (G _ I). unfold gf in G. lia.
Qed.

Lemma cashaddr_text_unique p a v w s : ~ In 58 p -> ~ In 58 a ->
  cashaddr_text p v s -> cashaddr_text a w s -> p = a /\ v = w.
Proof.
  intros N N' [G [_ ->]] [G' [_ E]].
  assert (split_char 58 (p ++ lit ":" ++ map b32_char v) = [p; map b32_char v]) as S1
    by (apply split_char_two; split; [reflexivity|]; split; [exact N|apply not_in_b32, G]).
  assert (split_char 58 (p ++ lit ":" ++ map b32_char v) = [a; map b32_char w]) as S2
    by (apply split_char_two; split; [exact E|]; split; [exact N'|apply not_in_b32, G']).
  rewrite S1 in S2. injection S2 as -> E2. split; [reflexivity|]. apply map_b32_inj; assumption.
Qed.

Lemma ca_decode_spec name net p s b : get_network name = Ok net -> CASHADDR_PREFIX net = Some p ->
  cashaddr_decode net s = Ok b <->
  exists suffix values, ~ In 58 suffix /\ cashaddr_text (p ++ suffix) values s /\
    leading_bytes values b /\ len b = Z.max 0 ((5 * len values + 7) / 8 - 6).
Proof.
  intros En Ep. destruct (good_prefixes _ _ _ En Ep) as [N58 Ne].
  destruct (ca_decode_cases name net p s En Ep) as [[x [v [c [E [Nx [T [L1 L2]]]]]]]|[E N]].
  - rewrite E. split.
    + intros Eq. apply Ok_inj in Eq. subst. eauto 8.
    + intros [x' [v' [Nx' [T' [L1' L2']]]]]. f_equal.
      destruct (cashaddr_text_unique (p ++ x) (p ++ x') v v' s) as [_ <-]; try assumption; try (rewrite in_app_iff; tauto).
      apply (leading_bytes_unique v); [assumption|assumption|congruence].
  - split; [destruct E as [E|E]; rewrite E; discriminate|].
    intros [x [v [Nx [T _]]]]. exfalso. exact (N x v Nx T).
Qed.

Lemma ca_decode_total name net p s : get_network name = Ok net -> CASHADDR_PREFIX net = Some p ->
  (exists b, cashaddr_decode net s = Ok b) \/ cashaddr_decode net s = Err ValueError \/
  cashaddr_decode net s = Err TypeError.
Proof.
  intros En Ep. destruct (ca_decode_cases name net p s En Ep) as [[x [v [c [E _]]]]|[E _]]; [eauto|tauto].
Qed.

(** * encode *)

Lemma ca_encode_spec net p b : CASHADDR_PREFIX net = Some p -> all_bytes b ->
  exists s, cashaddr_encode net b = Ok s /\ cashaddr_of p b s.
Proof.
  intros Ep B. unfold cashaddr_encode. rewrite Ep.
  destruct (convertbits_pad_Ok b 8 5 ltac:(lia) ltac:(lia) B) as [g5 [E R]]. rewrite E. cbn [bind].
  assert (gfs g5) as G by apply R. set (c := ca_calculate_checksum p g5).
  assert (gfs (g5 ++ c)) as Gc by (apply Forall_app; split; [exact G|apply ca_checksum_gfs]).
  unfold b32encode. rewrite charset_mapM by exact Gc. cbn [bind]. eexists. split; [reflexivity|].
  exists g5, c. split; [exact R|]. split; [reflexivity|]. split; [exact Gc|]. split; [|reflexivity].
  apply ca_checksum_unique; [exact G|reflexivity|reflexivity].
Qed.

Lemma cashaddr_of_unique p b s t : cashaddr_of p b s -> cashaddr_of p b t -> s = t.
Proof.
  intros [d [c [R [L [G [V ->]]]]]] [d' [c' [R' [L' [G' [V' ->]]]]]].
  assert (d = d') as <- by (apply (regroup_pad_unique 8 5 b); try assumption; lia).
  unfold gfs in *. apply Forall_app in G.
  apply ca_checksum_unique in V; [|apply G|exact L]. apply ca_checksum_unique in V'; [|apply G|exact L']. congruence.
Qed.

(* the leading bytes of the regrouped payload are the payload *)
Lemma payload_leading b g5 c : all_bytes b -> regroup_pad 8 5 b g5 -> gfs c -> leading_bytes (g5 ++ c) b.
Proof.
  intros B [G [p [Rp [Lp Vp]]]] Gc. split; [exact B|]. norm_spec. rewrite zlen_app.
  pose proof (zlen_nonneg c). split; [lia|]. rewrite be_num_app.
  change (2 ^ 5) with 32 in *. change (2 ^ 8) with 256 in *. rewrite Vp.
  replace (5 * (zlen g5 + zlen c) - 8 * zlen b) with (p + 5 * zlen c) by lia.
  rewrite Z.pow_add_r, (Z.pow_mul_r 2 5) by lia. change (2 ^ 5) with 32.
  pose proof (pack_range c Gc) as Rc. assert (0 < 2 ^ p) by (apply pow2_pos; lia).
  assert (0 < 32 ^ zlen c) by (apply Z.pow_pos_nonneg; lia).
  apply Z.div_unique_pos with (r := be_num 32 c); [|ring].
  split; [lia|]. eapply Z.lt_le_trans; [apply Rc|]. nia.
Qed.

Lemma leading_front v x y : leading_bytes v (x ++ y) -> leading_bytes v x.
Proof.
  intros [G [L V]]. unfold all_bytes in G. apply Forall_app in G. destruct G as [Gx Gy].
  revert L V. unfold leading_bytes. norm_spec. rewrite zlen_app, be_num_app. intros L V.
  pose proof (zlen_nonneg y). pose proof (zlen_nonneg x). split; [exact Gx|]. split; [lia|].
  replace (5 * zlen v - 8 * zlen x) with ((5 * zlen v - 8 * (zlen x + zlen y)) + 8 * zlen y) by lia.
  rewrite Z.pow_add_r by lia. rewrite <- Z.div_div by (try (apply Z.pow_nonzero; lia); apply Z.pow_pos_nonneg; lia).
  rewrite <- V. rewrite (Z.pow_mul_r 2 8) by lia. change (2 ^ 8) with 256.
  pose proof (be_num_range 256 y ltac:(lia) Gy) as Ry.
  rewrite Z.div_add_l by lia. rewrite (Z.div_small (be_num 256 y)) by exact Ry. lia.
Qed.

(* decode (encode b), for every b *)
Lemma ca_roundtrip_value name net p b s : get_network name = Ok net -> CASHADDR_PREFIX net = Some p ->
  all_bytes b -> cashaddr_encode net b = Ok s ->
  cashaddr_decode net s = Ok (if len b mod 5 =? 0 then removelast b else b).
Proof.
  intros En Ep B E. destruct (good_prefixes _ _ _ En Ep) as [N58 Ne].
  destruct (ca_encode_spec net p b Ep B) as [s' [E' [g5 [c [R [Lc T]]]]]].
  rewrite E in E'. apply Ok_inj in E'. subst s'.
  assert (gfs c) as Gc by (destruct T as [G _]; apply Forall_app in G; apply G).
  pose proof (payload_leading b g5 c B R Gc) as Lead.
  assert (zlen c = 8) as Zc by (unfold zlen; lia).
  apply (ca_decode_spec name net p); try assumption. exists [], (g5 ++ c). rewrite app_nil_r.
  split; [intros []|]. split; [exact T|].
  destruct R as [_ [q [Rq [Lq _]]]].
  assert (len b = zlen b) as Eb by reflexivity. pose proof (zlen_nonneg b).
  assert (len (g5 ++ c) = zlen g5 + 8) as Lgc by (norm_spec; rewrite zlen_app; lia).
  destruct (Z.eqb_spec (len b mod 5) 0) as [M|M].
  - (* the last byte is lost *)
    assert (q = 0) as ->.
    { rewrite Eb in M. apply Z.mod_divide in M; [|lia]. destruct M as [k Hk]. lia. }
    assert (len (removelast b) = Z.max 0 (zlen b - 1)) as Lr.
    { norm_spec. destruct b as [|x b] using rev_ind; [reflexivity|]. rewrite removelast_last, zlen_app.
      change (zlen [x]) with 1. pose proof (zlen_nonneg b). lia. }
    assert (exists t, b = removelast b ++ t) as [t Et].
    { destruct b as [|x b] using rev_ind; [exists []; reflexivity|]. exists [x]. rewrite removelast_last. reflexivity. }
    split.
    + rewrite Et in Lead. apply leading_front in Lead. exact Lead.
    + rewrite Lr, Lgc. replace (5 * (zlen g5 + 8) + 7) with (7 + (zlen b + 5) * 8) by lia.
      rewrite Z.div_add by lia. change (7 / 8) with 0. lia.
  - split; [exact Lead|]. rewrite Eb, Lgc.
    assert (1 <= q <= 4) as Q.
    { destruct (Z.eq_dec q 0) as [->|]; [|lia]. exfalso. apply M. rewrite Eb.
      assert (zlen b = 5 * (5 * zlen b - 3 * zlen g5)) as -> by lia. rewrite Z.mul_comm. apply Z.mod_mul. lia. }
    replace ((5 * (zlen g5 + 8) + 7) / 8) with (zlen b + 6); [lia|].
    apply Z.div_unique with (r := q - 1); lia.
Qed.

(** * Error detection *)

Lemma ca_text_same_prefix net name p P t t' b b' : get_network name = Ok net -> CASHADDR_PREFIX net = Some p ->
  ~ In 58 P -> cashaddr_decode net (P ++ lit ":" ++ t) = Ok b -> cashaddr_decode net (P ++ lit ":" ++ t') = Ok b' ->
  exists v v', t = map b32_char v /\ t' = map b32_char v' /\ gfs v /\ gfs v' /\
    codeword cashaddr_g (cashaddr_prefix_values P ++ v) /\ codeword cashaddr_g (cashaddr_prefix_values P ++ v').
Proof.
  intros En Ep NP D D'. destruct (good_prefixes _ _ _ En Ep) as [N58 Ne].
  apply (ca_decode_spec name net p) in D, D'; try assumption.
  destruct D as [x [v [Nx [[G [V E]] _]]]], D' as [x' [v' [Nx' [[G' [V' E']] _]]]].
  assert (forall a u w, ~ In 58 a -> gfs w -> P ++ lit ":" ++ u = a ++ lit ":" ++ map b32_char w ->
    P = a /\ u = map b32_char w) as Key.
  { intros a u w Na Gw Eq.
    assert (split_char 58 (P ++ lit ":" ++ u) = [a; map b32_char w]) as S1
      by (apply split_char_two; split; [exact Eq|]; split; [exact Na|apply not_in_b32, Gw]).
    change (lit ":" ++ u) with (58 :: u) in S1. rewrite split_char_app in S1 by exact NP. injection S1 as -> S1.
    split; [reflexivity|]. change (lit ":" ++ u) with (58 :: u) in Eq. 
    apply app_inv_head in Eq. injection Eq as Eq. exact Eq. }
  apply Key in E; [|rewrite in_app_iff; tauto|exact G]. apply Key in E'; [|rewrite in_app_iff; tauto|exact G'].
  destruct E as [EP ->], E' as [EP' ->]. exists v, v'. rewrite <- EP in V. rewrite <- EP' in V'. auto 8.
Qed.

Lemma split_hamming1 (a b : list Z) : length a = length b -> hamming a b = 1%nat ->
  exists p x y q, a = p ++ x :: q /\ b = p ++ y :: q /\ x <> y.
Proof.
  revert b. induction a as [|x a IH]; intros [|y b] L H; try discriminate.
  injection L as L. cbn [hamming] in H. destruct (Z.eq_dec x y) as [->|N].
  - destruct (IH b L H) as [p [u [w [q [-> [-> D]]]]]]. exists (y :: p), u, w, q. auto.
  - assert (a = b) as <-.
    { clear - H L. injection H as H. revert b L H. induction a as [|x a IH]; intros [|y b] L H; try discriminate; [reflexivity|].
      cbn [hamming] in H. destruct (Z.eq_dec x y) as [->|]; [|discriminate]. f_equal. apply IH; [cbn in L; lia|exact H]. }
    exists [], x, y, a. auto.
Qed.

Lemma ca_detect_core P v v' : gfs v -> gfs v' -> length v = length v' ->
  codeword cashaddr_g (cashaddr_prefix_values P ++ v) -> codeword cashaddr_g (cashaddr_prefix_values P ++ v') ->
  (hamming v v' <= 1 \/ (hamming v v' <= 4 /\ length v <= 1025))%nat -> v = v'.
Proof.
  intros G G' L V V' H.
  pose proof (codeword_diff cashaddr_g 7 eq_refl (mul_closed_of _ cashaddr_g_gfs) cashaddr_g_inv
    (cashaddr_prefix_values P ++ v) (cashaddr_prefix_values P ++ v') ltac:(rewrite !app_length; lia) V V') as D.
  rewrite poly_add_app in D by reflexivity. rewrite poly_add_self in D. rewrite fold_left_app in D.
  rewrite (fold_zero_state cashaddr_g 7 eq_refl (mul_closed_of _ cashaddr_g_gfs) cashaddr_g_inv) in D.
  destruct H as [H|[H Lv]].
  - destruct (Nat.eq_dec (hamming v v') 1) as [E|E].
    + destruct (split_hamming1 v v' L E) as [p [x [y [q [-> [-> N]]]]]]. exfalso. apply N.
      rewrite poly_add_app in D by reflexivity. rewrite poly_add_cons, !poly_add_self in D.
      unfold gfs in *. apply Forall_app in G, G'. destruct G as [_ G], G' as [_ G'].
      inversion G; inversion G'; subst.
      change (gf_add x y :: repeat 0 (length q)) with ([gf_add x y] ++ repeat 0 (length q)) in D.
      apply (single_error cashaddr_g 7 eq_refl (mul_closed_of _ cashaddr_g_gfs) cashaddr_g_inv) in D;
        [|apply gf_add_gf; assumption]. apply Z.lxor_eq, D.
    + apply poly_add_zero_eq; [exact L|]. rewrite <- (poly_add_length v v' L). apply weight_0.
      rewrite hamming_weight by exact L. lia.
  - apply cashaddr_four in D.
    + rewrite poly_add_length in D by exact L. apply poly_add_zero_eq; assumption.
    + apply poly_add_gfs; assumption.
    + rewrite poly_add_length by exact L. exact Lv.
    + rewrite hamming_weight by exact L. exact H.
Qed.

Lemma hamming_same t : hamming t t = 0%nat.
Proof. rewrite <- (app_nil_r t). rewrite hamming_app_same. reflexivity. Qed.

Lemma ca_detect_lemma name net P t t' b : get_network name = Ok net ->
  ~ In 58 P -> length t = length t' ->
  (hamming t t' = 1 \/ (1 <= hamming t t' <= 4 /\ length t <= 1025))%nat ->
  cashaddr_decode net (P ++ lit ":" ++ t) = Ok b ->
  cashaddr_decode net (P ++ lit ":" ++ t') = Err ValueError \/ cashaddr_decode net (P ++ lit ":" ++ t') = Err TypeError.
Proof.
  intros En NP L H D.
  destruct (CASHADDR_PREFIX net) as [p|] eqn:Ep; [|unfold cashaddr_decode in D; rewrite Ep in D; discriminate].
  destruct (ca_decode_total name net p (P ++ lit ":" ++ t') En Ep) as [[b' D']|X]; [exfalso|exact X].
  destruct (ca_text_same_prefix net name p P t t' b b' En Ep NP D D') as [v [v' [-> [-> [G [G' [V V']]]]]]].
  rewrite map_length in H. rewrite !map_length in L. rewrite (hamming_b32 v v' G G' L) in H.
  assert (v = v') as <-.
  { apply (ca_detect_core P); try assumption. destruct H as [H|[H1 H2]]; [left; lia|right]. split; [lia|]. 
    exact H2. }
  rewrite hamming_same in H. lia.
Qed.

Lemma no_prefix_lemma net b s : CASHADDR_PREFIX net = None ->
  cashaddr_encode net b = Err ValueError /\ cashaddr_decode net s = Err ValueError.
Proof. intros E. unfold cashaddr_encode, cashaddr_decode. rewrite E. auto. Qed.

Lemma ca_roundtrip_partial name net p b : get_network name = Ok net -> CASHADDR_PREFIX net = Some p ->
  all_bytes b -> len b mod 5 <> 0 \/ b = [] ->
  exists s, cashaddr_encode net b = Ok s /\ cashaddr_decode net s = Ok b.
Proof.
  intros En Ep B C. destruct (ca_encode_spec net p b Ep B) as [s [E _]]. exists s. split; [exact E|].
  rewrite (ca_roundtrip_value name net p b s En Ep B E). destruct (Z.eqb_spec (len b mod 5) 0); [|reflexivity].
  destruct C as [C| ->]; [contradiction|reflexivity].
Qed.

Lemma ca_accept_prefix name net p s b : get_network name = Ok net -> CASHADDR_PREFIX net = Some p ->
  cashaddr_decode net s = Ok b -> exists rest, s = p ++ rest.
Proof.
  intros En Ep D. apply (ca_decode_spec name net p) in D; try assumption.
  destruct D as [x [v [_ [[_ [_ ->]] _]]]]. rewrite <- app_assoc. eauto.
Qed.
