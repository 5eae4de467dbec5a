(* Lemmas for bech32 *)
From Coq Require Import ZifyBool ZifyNat String.
From Verif Require Import Py LBase MNet MUtils MBech32 SNum SNet SBase58 SBits SBch SBech32
  LNet LUtils LBase58 LBits LBch LBchErr.
Open Scope list_scope.
Open Scope Z_scope.
Ltac Zify.zify_post_hook ::= idtac.

(** * The checksum *)

Lemma mix_lxor gen i top chk : polymod_mix gen i top chk = Z.lxor chk (polymod_mix gen i top 0).
Proof.
  revert i chk. induction gen as [|g t IH]; intros i chk; cbn [polymod_mix].
  - rewrite Z.lxor_0_r. reflexivity.
  - rewrite IH, (IH _ (Z.lxor 0 _)), Z.lxor_0_l, Z.lxor_assoc. reflexivity.
Qed.

Lemma mix_table q : gf q -> polymod_mix generator 0 q 0 = be_num 32 (map (gf_mul q) bech32_g).
Proof.
  intros Gq. apply Z.eqb_eq.
  apply (sweep32 (fun q => polymod_mix generator 0 q 0 =? be_num 32 (map (gf_mul q) bech32_g)));
    [vm_compute; reflexivity|exact Gq].
Qed.

Lemma bech32_g_gfs : gfs bech32_g.
Proof. repeat constructor; lia. Qed.

Lemma polymod_step_push r v : gfs r -> length r = 6%nat -> gf v ->
  polymod_step (be_num 32 r) v = be_num 32 (poly_push bech32_g r v).
Proof.
  intros G L Gv. destruct r as [|q r]; [discriminate|]. unfold gfs in G. inversion G as [|? ? Gq Gr]; subst.
  injection L as L. cbn [poly_push]. unfold polymod_step. rewrite mix_lxor.
  assert (zlen r = 5) as Lr by (unfold zlen; lia).
  pose proof (pack_range r Gr) as R. rewrite Lr in R. change (32 ^ 5) with 33554432 in R.
  rewrite be_num_cons, Lr. change (32 ^ 5) with 33554432.
  assert (Z.shiftr (q * 33554432 + be_num 32 r) 25 = q) as ->.
  { rewrite Z.shiftr_div_pow2 by lia. change (2 ^ 25) with 33554432.
    rewrite Z.div_add_l by lia. rewrite Z.div_small by lia. lia. }
  assert (Z.land (q * 33554432 + be_num 32 r) 33554431 = be_num 32 r) as ->.
  { change 33554431 with (Z.ones 25). rewrite Z.land_ones by lia. change (2 ^ 25) with 33554432.
    rewrite Z.add_comm, Z.mod_add by lia. apply Z.mod_small. lia. }
  rewrite <- (shift_add (be_num 32 r) v 5) by (try lia; exact Gv). change (2 ^ 5) with 32.
  rewrite <- be_num_snoc. rewrite mix_table by exact Gq. symmetry. apply pack_add.
  - apply Forall_app. split; [exact Gr|]. constructor; [exact Gv|constructor].
  - apply mul_closed_of; [exact bech32_g_gfs|exact Gq].
  - rewrite app_length. cbn. lia.
Qed.

(* the same step with a table, for the finite check *)
Definition btable : list Z := Eval vm_compute in map (fun q => be_num 32 (map (gf_mul q) bech32_g)) all32.
Definition bstep (x : Z) : Z :=
  let q := Z.shiftr x 25 in
  Z.lxor (Z.shiftl (x - Z.shiftl q 25) 5) (nth (Z.to_nat q) btable 0).

Lemma bstep_push r : gfs r -> length r = 6%nat -> bstep (be_num 32 r) = be_num 32 (poly_push bech32_g r 0).
Proof.
  intros G L. rewrite <- polymod_step_push by (try assumption; unfold gf; lia).
  destruct r as [|q r]; [discriminate|]. unfold gfs in G. inversion G as [|? ? Gq Gr]; subst.
  injection L as L. unfold polymod_step, bstep. rewrite mix_lxor.
  assert (zlen r = 5) as Lr by (unfold zlen; lia).
  pose proof (pack_range r Gr) as R. rewrite Lr in R. change (32 ^ 5) with 33554432 in R.
  rewrite be_num_cons, Lr. change (32 ^ 5) with 33554432.
  assert (Z.shiftr (q * 33554432 + be_num 32 r) 25 = q) as ->.
  { rewrite Z.shiftr_div_pow2 by lia. change (2 ^ 25) with 33554432.
    rewrite Z.div_add_l by lia. rewrite Z.div_small by lia. lia. }
  assert (Z.land (q * 33554432 + be_num 32 r) 33554431 = be_num 32 r) as ->.
  { change 33554431 with (Z.ones 25). rewrite Z.land_ones by lia. change (2 ^ 25) with 33554432.
    rewrite Z.add_comm, Z.mod_add by lia. apply Z.mod_small. lia. }
  rewrite Z.lxor_0_r. rewrite (Z.shiftl_mul_pow2 q) by lia. change (2 ^ 25) with 33554432.
  replace (q * 33554432 + be_num 32 r - q * 33554432) with (be_num 32 r) by lia.
  f_equal. apply Z.eqb_eq.
  apply (sweep32 (fun q => nth (Z.to_nat q) btable 0 =? polymod_mix generator 0 q 0));
    [vm_compute; reflexivity|exact Gq].
Qed.

Lemma bech32_g_inv q : gf q -> gf_mul q (last bech32_g 0) = 0 -> q = 0.
Proof.
  intros Gq E. destruct (Z.eq_dec q 0) as [|N]; [assumption|]. exfalso.
  apply (gf_mul_nonzero q 18); try assumption; unfold gf; lia.
Qed.

Lemma bech32_g_assoc k q : gf k -> gf q ->
  map (gf_mul (gf_mul k q)) bech32_g = map (gf_mul k) (map (gf_mul q) bech32_g).
Proof.
  intros Gk Gq. apply leqb_eq.
  apply (sweep2 (fun k q => leqb (map (gf_mul (gf_mul k q)) bech32_g) (map (gf_mul k) (map (gf_mul q) bech32_g))));
    [vm_compute; reflexivity|exact Gk|exact Gq].
Qed.

Lemma bech32_no_relation : no_relation bstep 88 = true.
Proof. vm_cast_no_check (eq_refl true). Qed.

Lemma bech32_few_errors v : gfs v -> (length v <= 88)%nat -> (weight v <= 4)%nat ->
  fold_left (poly_push bech32_g) v (zeros 5) = zeros 5 -> v = repeat 0 (length v).
Proof.
  exact (few_errors bech32_g 5 bstep 88 eq_refl bech32_g_gfs bech32_g_inv bech32_g_assoc bstep_push
           bech32_no_relation v).
Qed.

Lemma polymod_residue vs : gfs vs -> bech32_polymod vs = be_num 32 (poly_residue bech32_g vs).
Proof.
  intros G. unfold bech32_polymod, poly_residue.
  assert (1 = be_num 32 (poly_one bech32_g)) as E by reflexivity. rewrite E at 1. clear E.
  assert (gfs (poly_one bech32_g)) as G1 by (repeat constructor; lia).
  assert (length (poly_one bech32_g) = 6%nat) as L1 by reflexivity.
  revert G1 L1. generalize (poly_one bech32_g). revert G. induction vs as [|v vs IH]; intros G r Gr Lr; [reflexivity|].
  unfold gfs in G. inversion G; subst. cbn [fold_left]. rewrite polymod_step_push by assumption.
  apply IH; [assumption| |].
  - apply (push_gfs bech32_g 5 eq_refl (mul_closed_of _ bech32_g_gfs) bech32_g_inv); assumption.
  - apply (push_length bech32_g 5 eq_refl (mul_closed_of _ bech32_g_gfs) bech32_g_inv); assumption.
Qed.

Lemma residue_gfs vs : gfs vs -> gfs (poly_residue bech32_g vs).
Proof.
  intros G. apply (fold_push_gfs bech32_g 5 eq_refl (mul_closed_of _ bech32_g_gfs) bech32_g_inv); [exact G|].
  repeat constructor; lia.
Qed.
Lemma residue_length vs : length (poly_residue bech32_g vs) = 6%nat.
Proof. apply (fold_push_length bech32_g 5 eq_refl (mul_closed_of _ bech32_g_gfs) bech32_g_inv). reflexivity. Qed.

Lemma hrp_expand_values hrp : bech32_hrp_expand hrp = hrp_values hrp.
Proof.
  unfold bech32_hrp_expand, hrp_values. f_equal; [|f_equal]; apply map_ext; intros c.
  - rewrite Z.shiftr_div_pow2 by lia. reflexivity.
  - change 31 with (Z.ones 5). rewrite Z.land_ones by lia. reflexivity.
Qed.

Definition printable (s : str) : Prop := Forall (fun c => 33 <= c <= 126) s.

Lemma hrp_values_gfs hrp : printable hrp -> gfs (hrp_values hrp).
Proof.
  intros P. unfold hrp_values. unfold gfs. rewrite !Forall_app, !Forall_map. unfold gf. repeat split.
  - eapply Forall_impl; [|exact P]. cbv beta. intros c Hc. split; [apply Z.div_pos; lia|].
    apply Z.div_lt_upper_bound; lia.
  - constructor; [lia|constructor].
  - eapply Forall_impl; [|exact P]. cbv beta. intros c Hc. apply Z.mod_pos_bound. lia.
Qed.

Lemma verify_codeword hrp data : printable hrp -> gfs data ->
  bech32_verify_checksum hrp data = true <-> codeword bech32_g (hrp_values hrp ++ data).
Proof.
  intros P G. unfold bech32_verify_checksum, codeword. rewrite hrp_expand_values.
  assert (gfs (hrp_values hrp ++ data)) as Ga by (apply Forall_app; split; [apply hrp_values_gfs, P|exact G]).
  rewrite polymod_residue by exact Ga. rewrite Z.eqb_eq. split.
  - intros E. apply pack_inj; [apply residue_gfs, Ga|repeat constructor; lia|rewrite residue_length; reflexivity|].
    rewrite E. reflexivity.
  - intros ->. reflexivity.
Qed.

Lemma create_checksum_unique hrp data c : printable hrp -> gfs data -> length c = 6%nat ->
  codeword bech32_g (hrp_values hrp ++ data ++ c) <-> c = bech32_create_checksum hrp data.
Proof.
  intros P G L. rewrite app_assoc.
  rewrite (codeword_check bech32_g 5 eq_refl (mul_closed_of _ bech32_g_gfs) bech32_g_inv) by exact L.
  unfold bech32_create_checksum. rewrite hrp_expand_values.
  assert (gfs ((hrp_values hrp ++ data) ++ zeros 5)) as Ga.
  { apply Forall_app. split; [|apply gfs_repeat0]. apply Forall_app; split; [apply hrp_values_gfs, P|exact G]. }
  change [0; 0; 0; 0; 0; 0] with (zeros 5).
  rewrite polymod_residue by exact Ga. change 1 with (be_num 32 (poly_one bech32_g)).
  assert (gfs (poly_one bech32_g)) as G1 by (repeat constructor; lia).
  rewrite <- pack_add; [|apply residue_gfs, Ga|exact G1|rewrite residue_length; reflexivity].
  set (R := poly_add _ _).
  assert (gfs R) as GR by (apply poly_add_gfs; [apply residue_gfs, Ga|exact G1]).
  assert (length R = 6%nat) as LR by (unfold R; rewrite poly_add_length; rewrite residue_length; reflexivity).
  rewrite <- (unpack R 5 GR LR) at 1. exact (iff_refl _).
Qed.

Lemma create_checksum_gfs hrp data : gfs (bech32_create_checksum hrp data).
Proof.
  unfold bech32_create_checksum. apply Forall_map. apply Forall_forall. intros i _.
  change 31 with (Z.ones 5). rewrite Z.land_ones by lia. apply Z.mod_pos_bound. lia.
Qed.
Lemma create_checksum_length hrp data : length (bech32_create_checksum hrp data) = 6%nat.
Proof. reflexivity. Qed.

(** * The alphabet *)

Lemma charset_index d : gf d -> index CHARSET d = Ok (b32_char d).
Proof.
  intros Gd. assert ((match index CHARSET d with Ok c => c =? b32_char d | Err _ => false end) = true) as B.
  { apply (sweep32 (fun d => match index CHARSET d with Ok c => c =? b32_char d | Err _ => false end));
      [vm_compute; reflexivity|exact Gd]. }
  destruct (index CHARSET d); [|discriminate]. f_equal. apply Z.eqb_eq, B.
Qed.

Lemma charset_find d : gf d -> find CHARSET [b32_char d] = d.
Proof.
  intros Gd. apply Z.eqb_eq. apply (sweep32 (fun d => find CHARSET [b32_char d] =? d));
    [vm_compute; reflexivity|exact Gd].
Qed.

Lemma charset_mem x : zmem x CHARSET = true <-> exists d, gf d /\ x = b32_char d.
Proof.
  rewrite zmem_In. split.
  - intros I. apply In_nth with (d := 0) in I. destruct I as [k [Hk E]]. exists (Z.of_nat k).
    change (length CHARSET) with 32%nat in Hk. split; [unfold gf; lia|]. unfold b32_char.
    rewrite Nat2Z.id. symmetry. exact E.
  - intros [d [Gd ->]]. apply (index_In _ d). apply charset_index, Gd.
Qed.

Lemma b32_char_facts d : gf d ->
  33 <= b32_char d <= 126 /\ b32_char d <> 49 /\ lower1 (b32_char d) = b32_char d /\ b32_char d <> 58.
Proof.
  intros Gd. assert ((33 <=? b32_char d) && (b32_char d <=? 126) && negb (b32_char d =? 49) &&
     (lower1 (b32_char d) =? b32_char d) && negb (b32_char d =? 58) = true) as B.
  { apply (sweep32 (fun d => (33 <=? b32_char d) && (b32_char d <=? 126) && negb (b32_char d =? 49) &&
     (lower1 (b32_char d) =? b32_char d) && negb (b32_char d =? 58))); [vm_compute; reflexivity|exact Gd]. }
  lia.
Qed.

Lemma b32_char_inj d e : gf d -> gf e -> b32_char d = b32_char e -> d = e.
Proof. intros Gd Ge E. rewrite <- (charset_find d), <- (charset_find e), E by assumption. reflexivity. Qed.

Lemma charset_mapM ds : gfs ds -> mapM (fun d => index CHARSET d) ds = Ok (map b32_char ds).
Proof.
  intros G. apply mapM_Ok_map. intros d Hd. unfold gfs in G. rewrite Forall_forall in G. apply charset_index, G, Hd.
Qed.

Lemma charset_finds ds : gfs ds -> map (fun x => find CHARSET [x]) (map b32_char ds) = ds.
Proof.
  intros G. rewrite map_map. rewrite <- (map_id ds) at 2. apply map_ext_in. intros d Hd.
  unfold gfs in G. rewrite Forall_forall in G. apply charset_find, G, Hd.
Qed.

Lemma charset_all s : forallb (fun x => zmem x CHARSET) s = true <-> exists ds, gfs ds /\ s = map b32_char ds.
Proof.
  split.
  - induction s as [|x s IH]; intros F; [exists []; split; [constructor|reflexivity]|].
    cbn [forallb] in F. apply andb_prop in F. destruct F as [F1 F2].
    destruct (IH F2) as [ds [G ->]]. apply charset_mem in F1. destruct F1 as [d [Gd ->]].
    exists (d :: ds). split; [constructor; assumption|reflexivity].
  - intros [ds [G ->]]. apply forallb_forall. intros x Hx. apply in_map_iff in Hx.
    destruct Hx as [d [<- Hd]]. apply charset_mem. exists d. unfold gfs in G. rewrite Forall_forall in G. auto.
Qed.

Lemma map_b32_inj a b : gfs a -> gfs b -> map b32_char a = map b32_char b -> a = b.
Proof. intros Ga Gb E. rewrite <- (charset_finds a), <- (charset_finds b), E by assumption. reflexivity. Qed.

(** * Strings *)

Lemma rfind_from_notin c l i acc : ~ In c l -> rfind_from c l i acc = acc.
Proof.
  revert i acc. induction l as [|x l IH]; intros i acc N; [reflexivity|]. cbn [rfind_from].
  destruct (Z.eqb_spec x c) as [->|D]; [contradiction N; left; reflexivity|].
  apply IH. intros I. apply N. right. exact I.
Qed.

Lemma rfind_from_app c a b i acc : rfind_from c (a ++ b) i acc = rfind_from c b (i + zlen a) (rfind_from c a i acc).
Proof.
  revert i acc. induction a as [|x a IH]; intros i acc.
  - cbn [app rfind_from]. rewrite zlen_nil, Z.add_0_r. reflexivity.
  - cbn [app rfind_from]. rewrite IH, zlen_cons. f_equal. lia.
Qed.

Lemma rfind1_last c a b : ~ In c b -> rfind1 (a ++ c :: b) c = zlen a.
Proof.
  intros N. unfold rfind1. rewrite rfind_from_app. cbn [rfind_from]. rewrite Z.eqb_refl.
  rewrite rfind_from_notin by exact N. lia.
Qed.

Lemma last_occurrence c (l : list Z) : In c l -> exists a b, l = a ++ c :: b /\ ~ In c b.
Proof.
  induction l as [|x l IH]; intros I; [destruct I|].
  destruct (in_dec Z.eq_dec c l) as [J|J].
  - destruct (IH J) as [a [b [-> N]]]. exists (x :: a), b. auto.
  - destruct I as [->|I]; [|contradiction]. exists [], l. auto.
Qed.

Lemma rfind1_spec c l : (rfind1 l c = -1 /\ ~ In c l) \/
  (exists a b, l = a ++ c :: b /\ ~ In c b /\ rfind1 l c = zlen a).
Proof.
  destruct (in_dec Z.eq_dec c l) as [I|N].
  - right. destruct (last_occurrence c l I) as [a [b [-> Nb]]]. exists a, b.
    split; [reflexivity|]. split; [exact Nb|]. apply rfind1_last, Nb.
  - left. split; [apply rfind_from_notin, N|exact N].
Qed.

Lemma lower_app a b : lower (a ++ b) = lower a ++ lower b.
Proof. apply map_app. Qed.
Lemma zlen_lower s : zlen (lower s) = zlen s.
Proof. apply zlen_map. Qed.

Lemma lower_b32 ds : gfs ds -> lower (map b32_char ds) = map b32_char ds.
Proof.
  intros G. unfold lower. rewrite map_map. apply map_ext_in. intros d Hd.
  unfold gfs in G. rewrite Forall_forall in G. apply b32_char_facts, G, Hd.
Qed.

Lemma printable_lower s : printable s <-> printable (lower s).
Proof.
  unfold printable, lower. rewrite Forall_map. rewrite !Forall_forall. unfold lower1.
  split; intros F c Hc; specialize (F c Hc); destruct ((65 <=? c) && (c <=? 90)) eqn:B; lia.
Qed.

Lemma printable_b32 ds : gfs ds -> printable (map b32_char ds).
Proof.
  intros G. unfold printable. rewrite Forall_map. eapply Forall_impl; [|exact G]. cbv beta.
  intros d Gd. apply b32_char_facts, Gd.
Qed.


Lemma existsb_printable s : existsb (fun x => (x <? 33) || (126 <? x)) s = false <-> printable s.
Proof.
  unfold printable. rewrite Forall_forall. split.
  - intros E c Hc. destruct ((c <? 33) || (126 <? c)) eqn:B; [|lia].
    assert (existsb (fun x => (x <? 33) || (126 <? x)) s = true) as T; [|congruence].
    apply existsb_exists. exists c. auto.
  - intros F. apply not_true_iff_false. intros E. apply existsb_exists in E.
    destruct E as [c [Hc B]]. specialize (F c Hc). lia.
Qed.

Lemma case_check s : negb (leqb (lower s) s) && negb (leqb (upper s) s) = false <-> one_case s.
Proof.
  unfold one_case. destruct (leqb_spec (lower s) s), (leqb_spec (upper s) s); cbn [negb andb]; split; intros; auto;
    try discriminate; destruct H; contradiction.
Qed.

(** * bech32_decode *)
Lemma bech32_decode_spec s hrp data :
  bech32_decode s = Some (hrp, data) <->
  printable s /\ one_case s /\ len s <= 90 /\ hrp <> [] /\ bech32_text hrp data (lower s).
Proof.
  unfold bech32_decode. norm_spec. split.
  - destruct (existsb _ s || _) eqn:B; [discriminate|]. apply orb_false_iff in B. destruct B as [B1 B2].
    apply existsb_printable in B1. apply case_check in B2. pose proof (proj1 (printable_lower s) B1) as P.
    rewrite zlen_lower.
    destruct (rfind1_spec 49 (lower s)) as [[E N]|[a [b [E [Nb R]]]]]; [rewrite E; discriminate|].
    rewrite R. destruct ((zlen a <? 1) || (zlen s <? zlen a + 7) || (90 <? zlen s)) eqn:B; [discriminate|].
    assert (1 <= zlen a /\ zlen a + 7 <= zlen s /\ zlen s <= 90) as [B3 [B4 B5]] by lia. clear B.
    rewrite E. change (49 :: b) with ([49] ++ b). rewrite slice_to_app by reflexivity.
    rewrite app_assoc, slice_from_app by (rewrite zlen_app; reflexivity).
    destruct (forallb _ b) eqn:F; [|discriminate]. cbn [negb]. apply charset_all in F. destruct F as [ds [G ->]].
    rewrite charset_finds by exact G.
    assert (printable a) as Pa by (rewrite E in P; apply Forall_app in P; apply P).
    destruct (bech32_verify_checksum a ds) eqn:V; [|discriminate]. cbn [negb].
    apply (verify_codeword a ds Pa G) in V. intros Eq. injection Eq as <- <-.
    split; [exact B1|]. split; [exact B2|]. split; [exact B5|].
    split; [intros ->; cbn in B3; lia|].
    exists (slice_from ds (-6)). rewrite slice_neg_split. split; [exact G|].
    rewrite <- (zlen_lower s), E, zlen_app, zlen_cons, zlen_map in B4.
    split.
    { unfold slice_from, clampi. change (-6 <? 0) with true. cbn iota. rewrite skipn_length. unfold zlen in *. lia. }
    split; [exact V|]. rewrite <- app_assoc. reflexivity.
  - intros [P [C [L [N [check [G [Lc [V E]]]]]]]].
    apply existsb_printable in P as P'. apply case_check in C. rewrite P', C. cbn [orb].
    pose proof (proj1 (printable_lower s) P) as Pl.
    rewrite zlen_lower. rewrite E.
    assert (~ In 49 (map b32_char (data ++ check))) as N49.
    { intros I. apply in_map_iff in I. destruct I as [d [E49 Hd]]. unfold gfs in G. rewrite Forall_forall in G.
      pose proof (b32_char_facts d (G d Hd)). tauto. }
    change (lit "1" ++ map b32_char (data ++ check)) with (49 :: map b32_char (data ++ check)).
    rewrite rfind1_last by exact N49.
    assert (zlen s = zlen hrp + 1 + zlen data + 6) as Ls.
    { assert (zlen check = 6) as Zc by (unfold zlen; rewrite Lc; reflexivity).
      rewrite <- zlen_lower, E. rewrite !zlen_app, zlen_map, zlen_app. change (zlen (lit "1")) with 1. lia. }
    assert (1 <= zlen hrp) as Lh by (destruct hrp; [congruence|rewrite zlen_cons; pose proof (zlen_nonneg hrp); lia]).
    pose proof (zlen_nonneg data).
    destruct ((zlen hrp <? 1) || (zlen s <? zlen hrp + 7) || (90 <? zlen s)) eqn:B; [lia|].
    change (49 :: map b32_char (data ++ check)) with ([49] ++ map b32_char (data ++ check)).
    rewrite slice_to_app by reflexivity.
    rewrite app_assoc, slice_from_app by (rewrite zlen_app; reflexivity).
    rewrite (proj2 (charset_all _)) by (exists (data ++ check); auto). cbn [negb].
    rewrite charset_finds by exact G.
    assert (printable hrp) as Ph by (rewrite E in Pl; apply Forall_app in Pl; apply Pl).
    rewrite (proj2 (verify_codeword hrp (data ++ check) Ph G) V). cbn [negb].
    rewrite slice_to_neg_app by (try lia; unfold zlen; rewrite Lc; reflexivity). reflexivity.
Qed.

(** * Segwit addresses *)

Lemma regroup_pad_inj from to a b l : 0 < from -> to <= from -> groups from a -> groups from b ->
  regroup_pad from to a l -> regroup_pad from to b l -> a = b.
Proof.
  intros Hf Ht Ga Gb [_ [p [Rp [Lp Vp]]]] [_ [q [Rq [Lq Vq]]]].
  assert (zlen a = zlen b) as L by nia.
  assert (p = q) as -> by nia.
  apply (be_num_inj_len (2 ^ from)); [|exact Ga|exact Gb|exact L|].
  - apply pow2_ge2. lia.
  - rewrite Vp in Vq. apply Z.mul_cancel_r in Vq; [exact Vq|]. apply Z.pow_nonzero; lia.
Qed.

Lemma bech32_text_unique hrp data s t : printable hrp -> bech32_text hrp data s -> bech32_text hrp data t -> s = t.
Proof.
  intros P [c [G [L [V ->]]]] [d [G' [L' [V' ->]]]].
  unfold gfs in *. apply Forall_app in G, G'.
  apply create_checksum_unique in V; [|exact P|apply G|exact L].
  apply create_checksum_unique in V'; [|exact P|apply G|exact L']. subst. reflexivity.
Qed.

Lemma bech32_text_data hrp d e s : bech32_text hrp d s -> bech32_text hrp e s -> d = e.
Proof.
  intros [c [G [L [V ->]]]] [c' [G' [L' [V' E]]]].
  apply app_inv_head in E. apply app_inv_head in E. apply map_b32_inj in E; [|exact G|exact G'].
  assert (length d = length e) as Ld.
  { apply (f_equal (@length Z)) in E. rewrite !app_length in E. lia. }
  apply app_inj_len in E; [apply E|exact Ld].
Qed.

Lemma bech32_text_exists hrp data : printable hrp -> gfs data ->
  exists s, bech32_encode hrp data = Ok s /\ bech32_text hrp data s /\ zlen s = zlen hrp + zlen data + 7.
Proof.
  intros P G. unfold bech32_encode.
  set (c := bech32_create_checksum hrp data).
  assert (gfs (data ++ c)) as Gc by (apply Forall_app; split; [exact G|apply create_checksum_gfs]).
  rewrite charset_mapM by exact Gc. cbn [bind]. eexists. split; [reflexivity|]. split.
  - exists c. split; [exact Gc|]. split; [reflexivity|]. split; [|reflexivity].
    apply create_checksum_unique; [exact P|exact G|reflexivity|reflexivity].
  - rewrite !zlen_app, zlen_map, zlen_app. change (zlen (lit "1")) with 1. change (zlen c) with 6. lia.
Qed.

(* the prefixes in use *)
Definition good_hrp (hrp : str) : Prop :=
  printable hrp /\ lower hrp = hrp /\ hrp <> [] /\ zlen hrp <= 18 /\ exists c, In c hrp /\ 97 <= c <= 122.

Lemma good_hrps name net hrp : get_network name = Ok net -> BECH32_HRP net = Some hrp -> good_hrp hrp.
Proof.
  intros E Eh.
  set (ok h := forallb (fun c => (33 <=? c) && (c <=? 126)) h && leqb (lower h) h && negb (leqb h [])
               && (zlen h <=? 18) && existsb (fun c => (97 <=? c) && (c <=? 122)) h).
  assert (match BECH32_HRP net with Some h => ok h | None => true end = true) as B.
  { revert E. apply (supported_forall (fun _ n => match BECH32_HRP n with Some h => ok h | None => true end)).
    vm_compute. reflexivity. }
  rewrite Eh in B. unfold ok in B. rewrite !andb_true_iff in B. destruct B as [[[[B1 B2] B3] B4] B5].
  rewrite forallb_forall in B1. apply leqb_eq in B2. apply existsb_exists in B5. destruct B5 as [c [Hc B5]].
  repeat split.
  - apply Forall_forall. intros x Hx. specialize (B1 x Hx). lia.
  - exact B2.
  - intros ->. discriminate.
  - lia.
  - exists c. split; [exact Hc|lia].
Qed.

Lemma groups_gfs l : groups 5 l <-> gfs l.
Proof. reflexivity. Qed.

Lemma slice_from_1 {A} (x : A) l : slice_from (x :: l) 1 = l.
Proof. rewrite slice_from_skipn by lia. reflexivity. Qed.
Lemma slice_from_1_nil {A} : slice_from (@nil A) 1 = [].
Proof. reflexivity. Qed.

Lemma segwit_decode_spec hrp s : good_hrp hrp ->
  (exists v prog, segwit_decode hrp s = Ok (Some (v, prog)) /\ witness_program v prog /\ one_case s /\
                  segwit_address hrp v prog (lower s)) \/
  (segwit_decode hrp s = Ok None /\
   forall v prog, witness_program v prog -> one_case s -> ~ segwit_address hrp v prog (lower s)).
Proof.
  intros [Ph [Lh [Nh [Zh Hh]]]]. unfold segwit_decode.
  assert (forall v prog, segwit_address hrp v prog (lower s) -> one_case s ->
            exists g5, regroup_pad 8 5 prog g5 /\ bech32_decode s = Some (hrp, v :: g5)) as Key.
  { intros v prog [g5 [R [T L]]] C. exists g5. split; [exact R|].
    apply bech32_decode_spec. split.
    - apply printable_lower. destruct T as [c [G [_ [_ ->]]]]. apply Forall_app. split; [exact Ph|].
      apply Forall_app. split; [apply Forall_cons; [vm_compute; split; discriminate|apply Forall_nil]|apply printable_b32, G].
    - split; [exact C|]. split; [|split; [exact Nh|exact T]].
      revert L. norm_spec. rewrite zlen_lower. lia. }
  destruct (bech32_decode s) as [[hrpgot data]|] eqn:D.
  2:{ right. split; [reflexivity|]. intros v prog W C A. destruct (Key v prog A C) as [g5 [_ E]]. discriminate. }
  destruct (leqb_spec hrpgot hrp) as [->|N]; cbn [negb].
  2:{ right. split; [reflexivity|]. intros v prog W C A. destruct (Key v prog A C) as [g5 [_ E]].
      injection E as E _. contradiction. }
  apply bech32_decode_spec in D. destruct D as [Ps [C [Ls [_ T]]]].
  assert (gfs data) as Gd by (destruct T as [c [G _]]; apply Forall_app in G; apply G).
  destruct data as [|v g5].
  { rewrite slice_from_1_nil. right. split; [reflexivity|].
    intros v prog W C' A. destruct (Key v prog A C') as [g5 [_ E]]. discriminate. }
  rewrite slice_from_1. unfold gfs in Gd. inversion Gd as [|? ? Gv G5]; subst.
  assert (forall prog, witness_program v prog -> regroup_pad 8 5 prog g5 -> segwit_address hrp v prog (lower s)) as Addr.
  { intros prog W R. exists g5. split; [exact R|]. split; [exact T|]. revert Ls. norm_spec. rewrite zlen_lower. lia. }
  destruct (convertbits_nopad g5 5 8 ltac:(lia) ltac:(lia) G5) as [[out [E [Go R]]]|[E N]]; rewrite E; cbn [bind].
  2:{ right. split; [reflexivity|]. intros v' prog W C' A. destruct (Key v' prog A C') as [g5' [R E']].
      injection E' as -> ->. apply (N prog); [apply W|exact R]. }
  assert (forall v' prog, witness_program v' prog -> segwit_address hrp v' prog (lower s) -> v' = v /\ prog = out) as Uniq.
  { intros v' prog W A. destruct (Key v' prog A C) as [g5' [R' E']].
    injection E' as <- <-. split; [reflexivity|].
    apply (regroup_pad_inj 8 5 prog out g5); try assumption; try lia. apply W. }
  rewrite index_0. cbn [bind].
  destruct ((zlen out <? 2) || (40 <? zlen out)) eqn:B1.
  { right. split; [reflexivity|]. intros v' prog W C' A. destruct (Uniq v' prog W A) as [-> ->].
    destruct W as [_ [_ [W _]]]. revert W. norm_spec. lia. }
  destruct (16 <? v) eqn:B2.
  { right. split; [reflexivity|]. intros v' prog W C' A. destruct (Uniq v' prog W A) as [-> ->].
    destruct W as [W _]. lia. }
  destruct ((v =? 0) && negb (zlen out =? 20) && negb (zlen out =? 32)) eqn:B3.
  { right. split; [reflexivity|]. intros v' prog W C' A. destruct (Uniq v' prog W A) as [-> ->].
    destruct W as [_ [_ [_ W]]]. revert W. norm_spec. lia. }
  left. exists v, out. split; [reflexivity|].
  assert (witness_program v out) as W.
  { unfold gf in Gv. split; [lia|]. split; [exact Go|]. norm_spec. split; [lia|]. intros Z0. lia. }
  split; [exact W|]. split; [exact C|]. apply Addr; assumption.
Qed.

Lemma segwit_address_unique hrp v prog s t : printable hrp ->
  segwit_address hrp v prog s -> segwit_address hrp v prog t -> s = t.
Proof.
  intros P [a [Ra [Ta _]]] [b [Rb [Tb _]]]. assert (a = b) as -> by (apply (regroup_pad_unique 8 5 prog); try assumption; lia).
  eapply bech32_text_unique; eassumption.
Qed.

Lemma segwit_address_lower hrp v prog s : lower hrp = hrp -> segwit_address hrp v prog s -> lower s = s.
Proof.
  intros Lh [g5 [R [[c [G [_ [_ ->]]]] _]]]. rewrite !lower_app, Lh, lower_b32 by exact G. reflexivity.
Qed.

Lemma segwit_address_program hrp v prog w prog' s :
  witness_program v prog -> witness_program w prog' ->
  segwit_address hrp v prog s -> segwit_address hrp w prog' s -> v = w /\ prog = prog'.
Proof.
  intros W W' [a [Ra [Ta _]]] [b [Rb [Tb _]]].
  pose proof (bech32_text_data _ _ _ _ Ta Tb) as E. injection E as -> ->. split; [reflexivity|].
  apply (regroup_pad_inj 8 5 prog prog' b); try assumption; try lia; [apply W|apply W'].
Qed.

Lemma regroup85_length prog g5 : regroup_pad 8 5 prog g5 -> 5 * zlen g5 <= 8 * zlen prog + 4.
Proof. intros [_ [p [Rp [Lp _]]]]. lia. Qed.

(* encoding: all outcomes *)
Lemma segwit_encode_spec hrp v prog : good_hrp hrp -> gf v -> all_bytes prog ->
  (exists s, segwit_encode hrp v prog = Ok (Some s) /\ witness_program v prog /\ segwit_address hrp v prog s) \/
  (segwit_encode hrp v prog = Ok None /\ ~ witness_program v prog).
Proof.
  intros GH Gv B. unfold segwit_encode.
  destruct (convertbits_pad_Ok prog 8 5 ltac:(lia) ltac:(lia) B) as [g5 [E R]]. rewrite E. cbn [bind].
  assert (gfs (v :: g5)) as G by (constructor; [exact Gv|apply R]).
  destruct (bech32_text_exists hrp (v :: g5) (proj1 GH) G) as [s [Es [T Ls]]]. rewrite Es. cbn [bind].
  assert (lower s = s) as Lo.
  { destruct T as [c [Gc [_ [_ ->]]]]. destruct GH as [_ [Lh _]]. rewrite !lower_app, Lh, lower_b32 by exact Gc. reflexivity. }
  destruct (segwit_decode_spec hrp s GH) as [[v' [prog' [D [W [C A]]]]]|[D N]]; rewrite D; cbn [bind].
  - left. exists s. split; [reflexivity|]. rewrite Lo in A.
    destruct A as [g5' [R' [T' L']]]. pose proof (bech32_text_data _ _ _ _ T T') as Eq. injection Eq as <- <-.
    assert (prog = prog') as <- by (apply (regroup_pad_inj 8 5 prog prog' g5); try assumption; try lia; apply W).
    split; [exact W|]. exists g5. auto.
  - right. split; [reflexivity|]. intros W. apply (N v prog W); [left; exact Lo|]. rewrite Lo.
    exists g5. split; [exact R|]. split; [exact T|]. norm_spec. rewrite Ls, zlen_cons.
    apply regroup85_length in R. destruct W as [_ [_ [W _]]]. revert W. norm_spec. intros W.
    destruct GH as [_ [_ [_ [Zh _]]]]. lia.
Qed.

Lemma net_encode_spec name net hrp data s : get_network name = Ok net -> BECH32_HRP net = Some hrp ->
  all_bytes data ->
  bech32_net_encode net data = Ok (Some s) <->
  exists v x prog, data = v :: x :: prog /\ witness_program v prog /\ segwit_address hrp v prog s.
Proof.
  intros En Eh B. pose proof (good_hrps _ _ _ En Eh) as GH. unfold bech32_net_encode. rewrite Eh. split.
  - destruct data as [|v data]; [discriminate|]. rewrite index_0. cbn [bind].
    inversion B as [|? ? Bv Bd]; subst. intros E.
    destruct (Z.ltb_spec v 32) as [Hv|Hv].
    + assert (gf v) as Gv by (unfold gf; lia).
      assert (all_bytes (slice_from (v :: data) 2)) as Bp by (apply is_bytes_slice_from; exact B).
      destruct (segwit_encode_spec hrp v _ GH Gv Bp) as [[s' [E' [W A]]]|[E' _]]; rewrite E' in E; [|discriminate].
      injection E as ->. destruct data as [|x prog].
      * exfalso. destruct W as [_ [_ [[W _] _]]]. vm_compute in W. apply W. reflexivity.
      * exists v, x, prog. rewrite slice_from_skipn in W, A by lia. cbn in W, A. auto.
    + exfalso. unfold segwit_encode in E.
      assert (all_bytes (slice_from (v :: data) 2)) as Bp by (apply is_bytes_slice_from; exact B).
      destruct (convertbits_pad_Ok _ 8 5 ltac:(lia) ltac:(lia) Bp) as [g5 [Eg R]]. rewrite Eg in E. cbn [bind] in E.
      unfold bech32_encode in E. cbn [app mapM] in E.
      rewrite index_err in E by (change (zlen CHARSET) with 32; lia). discriminate.
  - intros [v [x [prog [-> [W A]]]]]. rewrite index_0. cbn [bind].
    replace (slice_from (v :: x :: prog) 2) with prog by (rewrite slice_from_skipn by lia; reflexivity).
    assert (gf v) as Gv by (destruct W as [W _]; unfold gf; lia).
    destruct (segwit_encode_spec hrp v prog GH Gv ltac:(apply W)) as [[s' [E' [W' A']]]|[E' N]]; [|contradiction].
    rewrite E'. f_equal. f_equal. eapply segwit_address_unique; [apply GH|exact A'|exact A].
Qed.

Lemma net_decode_spec name net hrp s b : get_network name = Ok net -> BECH32_HRP net = Some hrp ->
  bech32_net_decode net s = Ok b <->
  exists v prog, b = witness_bytes v prog /\ witness_program v prog /\
                 one_case s /\ segwit_address hrp v prog (lower s).
Proof.
  intros En Eh. pose proof (good_hrps _ _ _ En Eh) as GH. unfold bech32_net_decode. rewrite Eh.
  assert (forall v prog, witness_program v prog ->
     forallb (fun b => (0 <=? b) && (b <=? 255)) (v :: zlen prog :: prog) = true) as FB.
  { intros v prog [W1 [W2 [W3 W4]]]. apply forallb_forall. intros x [<-|[<-|I]].
    - lia.
    - revert W3. norm_spec. lia.
    - unfold all_bytes in W2. rewrite Forall_forall in W2. specialize (W2 x I). lia. }
  destruct (segwit_decode_spec hrp s GH) as [[v [prog [D [W [C A]]]]]|[D N]]; rewrite D; cbn [bind].
  - rewrite (FB v prog W). cbn [negb guard bind]. split.
    + intros E. apply Ok_inj in E. subst b. exists v, prog. split; [reflexivity|]. auto.
    + intros [v' [prog' [-> [W' [_ A']]]]].
      destruct (segwit_address_program hrp v prog v' prog' (lower s) W W' A A') as [<- <-]. reflexivity.
  - split; [discriminate|]. intros [v [prog [_ [W [C A]]]]]. exfalso. exact (N v prog W C A).
Qed.

Lemma net_decode_total name net hrp s : get_network name = Ok net -> BECH32_HRP net = Some hrp ->
  (exists b, bech32_net_decode net s = Ok b) \/ bech32_net_decode net s = Err TypeError.
Proof.
  intros En Eh. pose proof (good_hrps _ _ _ En Eh) as GH.
  destruct (segwit_decode_spec hrp s GH) as [[v [prog [D [W [C A]]]]]|[D N]].
  - left. exists (witness_bytes v prog). apply (net_decode_spec name net hrp); try assumption. eauto 6.
  - right. unfold bech32_net_decode. rewrite Eh, D. reflexivity.
Qed.

Lemma segwit_address_exists hrp v prog : good_hrp hrp -> witness_program v prog ->
  exists s, segwit_address hrp v prog s.
Proof.
  intros GH W. assert (gf v) as Gv by (destruct W as [W _]; unfold gf; lia).
  destruct (segwit_encode_spec hrp v prog GH Gv ltac:(apply W)) as [[s [_ [_ A]]]|[_ N]]; [eauto|contradiction].
Qed.

Lemma encode_decode_lemma name net hrp v prog : get_network name = Ok net -> BECH32_HRP net = Some hrp ->
  witness_program v prog ->
  exists s, bech32_net_encode net (witness_bytes v prog) = Ok (Some s) /\
    segwit_address hrp v prog s /\ bech32_net_decode net s = Ok (witness_bytes v prog).
Proof.
  intros En Eh W. pose proof (good_hrps _ _ _ En Eh) as GH.
  destruct (segwit_address_exists hrp v prog GH W) as [s A]. exists s.
  assert (lower s = s) as Lo by (eapply segwit_address_lower; [apply GH|exact A]).
  split; [|split; [exact A|]].
  - apply (net_encode_spec name net hrp); try assumption.
    + unfold witness_bytes. destruct W as [W1 [W2 [W3 _]]]. constructor; [lia|].
      constructor; [revert W3; norm_spec; lia|exact W2].
    + exists v, (len prog), prog. auto.
  - apply (net_decode_spec name net hrp); try assumption. exists v, prog.
    split; [reflexivity|]. split; [exact W|]. split; [left; exact Lo|]. rewrite Lo. exact A.
Qed.

(** * Error detection *)

Lemma hamming_weight a b : length a = length b -> weight (poly_add a b) = hamming a b.
Proof.
  revert b. induction a as [|x a IH]; intros [|y b] L; try discriminate; [reflexivity|].
  rewrite poly_add_cons. cbn [hamming]. unfold weight in *. cbn [filter].
  injection L as L. destruct (Z.eq_dec x y) as [->|N].
  - unfold gf_add. rewrite Z.lxor_nilpotent. cbn [Z.eqb negb Nat.add]. apply IH, L.
  - destruct (Z.eqb_spec (gf_add x y) 0) as [E|_]; [apply Z.lxor_eq in E; contradiction|].
    cbn [negb length Nat.add]. rewrite IH by exact L. reflexivity.
Qed.

Lemma hamming_map (f : Z -> Z) a b : length a = length b -> (hamming (map f a) (map f b) <= hamming a b)%nat.
Proof.
  revert b. induction a as [|x a IH]; intros [|y b] L; try discriminate; [apply le_n|].
  injection L as L. cbn [map hamming]. specialize (IH b L).
  destruct (Z.eq_dec (f x) (f y)) as [E|E], (Z.eq_dec x y) as [->|N]; try lia; contradiction E; reflexivity.
Qed.

Lemma hamming_app_same p a b : hamming (p ++ a) (p ++ b) = hamming a b.
Proof.
  induction p as [|x p IH]; [reflexivity|]. cbn [app hamming].
  destruct (Z.eq_dec x x); [exact IH|contradiction].
Qed.

Lemma hamming_b32 a b : gfs a -> gfs b -> length a = length b ->
  hamming (map b32_char a) (map b32_char b) = hamming a b.
Proof.
  revert b. induction a as [|x a IH]; intros [|y b] Ga Gb L; try discriminate; [reflexivity|].
  unfold gfs in *. inversion Ga; inversion Gb; subst. injection L as L. cbn [map hamming]. rewrite IH by assumption.
  destruct (Z.eq_dec x y) as [->|N].
  - destruct (Z.eq_dec (b32_char y) (b32_char y)); [reflexivity|contradiction].
  - destruct (Z.eq_dec (b32_char x) (b32_char y)) as [E|_]; [|reflexivity].
    apply b32_char_inj in E; [contradiction|assumption|assumption].
Qed.

Lemma bech32_text_distance hrp d e s t : printable hrp -> hrp <> [] ->
  bech32_text hrp d s -> bech32_text hrp e t -> zlen s <= 90 -> length s = length t ->
  (hamming s t <= 4)%nat -> s = t.
Proof.
  intros P Nh [c [G [L [V ->]]]] [c' [G' [L' [V' ->]]]] Ls Lst Hd.
  rewrite !hamming_app_same in Hd.
  assert (length (d ++ c) = length (e ++ c')) as Lc.
  { rewrite !app_length, !map_length in Lst. lia. }
  rewrite hamming_b32 in Hd by assumption.
  assert (length (d ++ c) <= 88)%nat as L88.
  { assert (1 <= zlen hrp) by (destruct hrp; [congruence|rewrite zlen_cons; pose proof (zlen_nonneg hrp); lia]).
    rewrite !zlen_app, zlen_map in Ls. unfold zlen in *. cbn [length lit] in Ls. lia. }
  enough (d ++ c = e ++ c') as -> by reflexivity.
  set (x := d ++ c) in *. set (y := e ++ c') in *.
  pose proof (codeword_diff bech32_g 5 eq_refl (mul_closed_of _ bech32_g_gfs) bech32_g_inv
    (hrp_values hrp ++ x) (hrp_values hrp ++ y) ltac:(rewrite !app_length; lia) V V') as D.
  rewrite poly_add_app in D by reflexivity. rewrite poly_add_self in D. rewrite fold_left_app in D.
  rewrite (fold_zero_state bech32_g 5 eq_refl (mul_closed_of _ bech32_g_gfs) bech32_g_inv) in D.
  apply bech32_few_errors in D.
  - rewrite poly_add_length in D by exact Lc. apply poly_add_zero_eq; assumption.
  - apply poly_add_gfs; assumption.
  - rewrite poly_add_length by exact Lc. exact L88.
  - rewrite hamming_weight by exact Lc. exact Hd.
Qed.

Lemma one_case_determined p t t' hrp : (exists c, In c hrp /\ 97 <= c <= 122) ->
  one_case (p ++ t) -> one_case (p ++ t') -> lower p = hrp ++ lit "1" ->
  lower t = lower t' -> length t = length t' -> t = t'.
Proof.
  intros [c [Hc Rc]] C C' Ep E L.
  assert (exists x, In x p /\ lower1 x = c) as [x [Hx Ex]].
  { assert (In c (lower p)) as I by (rewrite Ep; apply in_or_app; left; exact Hc).
    apply in_map_iff in I. destruct I as [x [E1 E2]]. exists x. auto. }
  assert (forall f u, map f (p ++ u) = p ++ u -> f x = x /\ map f u = u) as Key.
  { intros f u Eu. rewrite map_app in Eu. apply app_inj_len in Eu; [|apply map_length]. destruct Eu as [E1 E2].
    split; [|exact E2]. clear - E1 Hx. induction p as [|y p IH]; [destruct Hx|]. injection E1 as E1 E1'.
    destruct Hx as [->|Hx]; auto. }
  assert (~ (lower1 x = x /\ upper1 x = x)) as Contra.
  { intros [A B]. unfold upper1 in B. rewrite <- A in B. rewrite Ex in B.
    destruct ((97 <=? c) && (c <=? 122)) eqn:T; lia. }
  destruct C as [C|C], C' as [C'|C']; apply Key in C; apply Key in C'.
  - destruct C as [_ <-], C' as [_ <-]. exact E.
  - exfalso. apply Contra. tauto.
  - exfalso. apply Contra. tauto.
  - destruct C as [_ C], C' as [_ C']. clear - C C' E L. revert t' C' E L.
    induction t as [|a t IH]; intros [|b t'] C' E L; try discriminate; [reflexivity|].
    cbn [map] in *. unfold lower in E. cbn [map] in E.
    injection C as C1 C2. injection C' as C1' C2'. injection E as E1 E2. injection L as L. f_equal.
    + unfold upper1 in *. unfold lower1 in E1.
      destruct ((97 <=? a) && (a <=? 122)) eqn:X1, ((97 <=? b) && (b <=? 122)) eqn:X2,
        ((65 <=? a) && (a <=? 90)) eqn:X3, ((65 <=? b) && (b <=? 90)) eqn:X4; lia.
    + apply IH; assumption.
Qed.

Lemma detect_lemma name net hrp p t t' b : get_network name = Ok net -> BECH32_HRP net = Some hrp ->
  len p = len hrp + 1 -> length t = length t' -> (1 <= hamming t t' <= 4)%nat ->
  bech32_net_decode net (p ++ t) = Ok b -> bech32_net_decode net (p ++ t') = Err TypeError.
Proof.
  intros En Eh Lp Lt Hd D. pose proof (good_hrps _ _ _ En Eh) as GH.
  destruct (net_decode_total name net hrp (p ++ t') En Eh) as [[b' D']|]; [exfalso|assumption].
  apply (net_decode_spec name net hrp) in D, D'; try assumption.
  destruct D as [v [prog [_ [W [C A]]]]], D' as [v' [prog' [_ [W' [C' A']]]]].
  assert (lower p = hrp ++ lit "1") as Ep.
  { destruct A as [g5 [_ [[c [_ [_ [_ E]]]] _]]]. rewrite lower_app, app_assoc in E.
    revert Lp. norm_spec. intros Lp.
    apply app_inj_len in E; [apply E|]. unfold lower. rewrite map_length, app_length. unfold zlen in Lp. cbn. lia. }
  assert (lower (p ++ t) = lower (p ++ t')) as E.
  { destruct A as [g5 [_ [T L90]]], A' as [g5' [_ [T' _]]].
    apply (bech32_text_distance hrp _ _ _ _ (proj1 GH) (proj1 (proj2 (proj2 GH))) T T').
    - exact L90.
    - unfold lower. rewrite !map_length, !app_length. lia.
    - eapply Nat.le_trans; [apply hamming_map; rewrite !app_length; lia|]. rewrite hamming_app_same. lia. }
  rewrite !lower_app in E. apply app_inv_head in E.
  assert (t = t') as <- by (eapply one_case_determined; try eassumption; apply GH).
  assert (hamming t t = 0%nat) as H0 by (rewrite <- (app_nil_r t); rewrite hamming_app_same; reflexivity). lia.
Qed.

Lemma net_encode_outcomes name net hrp data : get_network name = Ok net -> BECH32_HRP net = Some hrp ->
  all_bytes data ->
  (exists s, bech32_net_encode net data = Ok (Some s)) \/
  (bech32_net_encode net data = Ok None /\ exists v t, data = v :: t /\ v < 32) \/
  (bech32_net_encode net data = Err IndexError /\ forall v t, data = v :: t -> 32 <= v).
Proof.
  intros En Eh B. pose proof (good_hrps _ _ _ En Eh) as GH. unfold bech32_net_encode. rewrite Eh.
  destruct data as [|v data]; [right; right; split; [reflexivity|discriminate]|].
  rewrite index_0. cbn [bind].
  assert (all_bytes (slice_from (v :: data) 2)) as Bp by (apply is_bytes_slice_from; exact B).
  inversion B as [|? ? Bv Bd]; subst.
  destruct (Z.ltb_spec v 32) as [Hv|Hv].
  - assert (gf v) as Gv by (unfold gf; lia).
    destruct (segwit_encode_spec hrp v _ GH Gv Bp) as [[s' [E' [W A]]]|[E' _]]; rewrite E'; [eauto|].
    right; left. split; [reflexivity|]. exists v, data. auto.
  - right; right. split; [|intros v' t E; injection E as <- _; exact Hv]. unfold segwit_encode.
    destruct (convertbits_pad_Ok _ 8 5 ltac:(lia) ltac:(lia) Bp) as [g5 [Eg R]]. rewrite Eg. cbn [bind].
    unfold bech32_encode. cbn [app mapM].
    rewrite index_err by (change (zlen CHARSET) with 32; lia). reflexivity.
Qed.

Lemma canonical_lemma name net s b : get_network name = Ok net -> bech32_net_decode net s = Ok b ->
  bech32_net_encode net b = Ok (Some (lower s)).
Proof.
  intros En D. destruct (BECH32_HRP net) as [hrp|] eqn:Eh; [|unfold bech32_net_decode in D; rewrite Eh in D; discriminate].
  apply (net_decode_spec name net hrp) in D; try assumption.
  destruct D as [v [prog [-> [W [C A]]]]].
  apply (net_encode_spec name net hrp); try assumption.
  - unfold witness_bytes. destruct W as [W1 [W2 [W3 _]]]. constructor; [lia|].
    constructor; [revert W3; norm_spec; lia|exact W2].
  - exists v, (len prog), prog. auto.
Qed.

Lemma no_hrp_lemma net x s : BECH32_HRP net = None ->
  bech32_net_encode net x = Err ValueError /\ bech32_net_decode net s = Err ValueError.
Proof. intros E. unfold bech32_net_encode, bech32_net_decode. rewrite E. auto. Qed.
