(* Lemmas about convertbits (MBech32.v) *)
From Coq Require Import ZifyBool ZifyNat.
From Verif Require Import Py LBase MUtils MBech32 SBase58 SBits LBase58.
Open Scope list_scope.
Open Scope Z_scope.
Ltac Zify.zify_post_hook ::= idtac.

Lemma be_num_app base a b : be_num base (a ++ b) = be_num base a * base ^ zlen b + be_num base b.
Proof.
  induction b as [|d b IH] using rev_ind.
  - rewrite app_nil_r. cbn. lia.
  - rewrite app_assoc, !be_num_snoc, IH, zlen_app. change (zlen [d]) with 1.
    rewrite Z.pow_add_r by (pose proof (zlen_nonneg b); lia). ring.
Qed.

Lemma be_num_cons base d l : be_num base (d :: l) = d * base ^ zlen l + be_num base l.
Proof. change (d :: l) with ([d] ++ l). rewrite be_num_app. cbn. destruct d; reflexivity. Qed.

Lemma be_num_range base l : 2 <= base -> digits base l -> 0 <= be_num base l < base ^ zlen l.
Proof.
  intros Hb. induction l as [|d l IH]; intros D; [cbn; lia|].
  inversion D as [|? ? Hd D']; subst. specialize (IH D'). rewrite be_num_cons, zlen_cons.
  rewrite Z.pow_add_r by (pose proof (zlen_nonneg l); lia). rewrite Z.pow_1_r. nia.
Qed.

(* same length and same value *)
Lemma be_num_inj_len base a b : 2 <= base -> digits base a -> digits base b ->
  zlen a = zlen b -> be_num base a = be_num base b -> a = b.
Proof.
  intros Hb. revert b. induction a as [|x a IH]; intros b Da Db L E.
  - symmetry. apply zlen_0. rewrite <- L. reflexivity.
  - destruct b as [|y b]; [rewrite zlen_cons, zlen_nil in L; pose proof (zlen_nonneg a); lia|].
    rewrite !zlen_cons in L. assert (zlen a = zlen b) as L' by lia.
    inversion Da as [|? ? Hx Da']; inversion Db as [|? ? Hy Db']; subst.
    rewrite !be_num_cons, <- L' in E.
    pose proof (be_num_range base a Hb Da') as Ra. pose proof (be_num_range base b Hb Db') as Rb.
    rewrite <- L' in Rb.
    set (P := base ^ zlen a) in *.
    assert (x = y) as ->.
    { transitivity ((x * P + be_num base a) / P).
      - apply (Z.div_unique_pos _ _ _ (be_num base a)); lia.
      - symmetry. apply (Z.div_unique_pos _ _ _ (be_num base b)); lia. }
    f_equal. apply IH; [assumption|assumption|assumption|lia].
Qed.

Lemma pow2_pos n : 0 <= n -> 0 < 2 ^ n.
Proof. intros; apply Z.pow_pos_nonneg; lia. Qed.

Lemma pow2_ge2 n : 0 < n -> 2 <= 2 ^ n.
Proof. intros. change 2 with (2 ^ 1) at 1. apply Z.pow_le_mono_r; lia. Qed.

Lemma land_mask x n : 0 <= n -> Z.land x (Z.shiftl 1 n - 1) = x mod 2 ^ n.
Proof.
  intros Hn. rewrite Z.shiftl_1_l, Z.sub_1_r, <- Z.ones_equiv. apply Z.land_ones, Hn.
Qed.

Lemma convertbits_emit_Ok fuel acc bits to :
  0 < to -> 0 <= bits -> (Z.to_nat bits < fuel)%nat ->
  exists b out, convertbits_emit fuel acc bits to = Ok (b, out) /\
    0 <= b < to /\ bits = to * zlen out + b /\ groups to out /\
    acc mod 2 ^ bits = be_num (2 ^ to) out * 2 ^ b + acc mod 2 ^ b.
Proof.
  intros Ht. revert bits. induction fuel as [|fuel IH]; intros bits Hb Hf; [lia|].
  cbn [convertbits_emit]. destruct (bits <? to) eqn:E.
  - exists bits, []. split; [reflexivity|]. split; [lia|]. split; [rewrite zlen_nil; lia|].
    split; [constructor|]. cbn. lia.
  - destruct (IH (bits - to)) as [b [out [Eq [Rb [Eb [G V]]]]]]; [lia|lia|].
    rewrite Eq. cbn [bind]. eexists b, _. split; [reflexivity|]. split; [exact Rb|].
    split; [rewrite zlen_cons; lia|]. split.
    + constructor; [|exact G]. rewrite land_mask by lia. apply Z.mod_pos_bound, pow2_pos; lia.
    + rewrite be_num_cons, land_mask by lia. rewrite <- Z.pow_mul_r by (pose proof (zlen_nonneg out); lia).
      replace (to * zlen out) with (bits - to - b) by lia.
      rewrite Z.mul_add_distr_r, <- Z.mul_assoc, <- Z.pow_add_r by (try lia; pose proof (zlen_nonneg out); nia).
      replace (bits - to - b + b) with (bits - to) by lia.
      rewrite <- Z.add_assoc, <- V. rewrite Z.shiftr_div_pow2 by lia.
      pose proof (pow2_pos to ltac:(lia)). pose proof (pow2_pos (bits - to) ltac:(lia)).
      replace bits with (bits - to + to) at 1 by lia. rewrite Z.pow_add_r by lia.
      rewrite Z.rem_mul_r by lia. ring.
Qed.

Lemma acc_step acc from to bits v :
  0 < from -> 0 < to -> 0 <= bits < to -> 0 <= v < 2 ^ from ->
  (Z.land (Z.lor (Z.shiftl acc from) v) (Z.shiftl 1 (from + to - 1) - 1)) mod 2 ^ (bits + from)
  = (acc mod 2 ^ bits) * 2 ^ from + v.
Proof.
  intros Hf Ht Hb Hv. rewrite land_mask by lia.
  assert (Z.lor (Z.shiftl acc from) v = acc * 2 ^ from + v) as ->.
  { rewrite Z.shiftl_mul_pow2 by lia. symmetry.
    rewrite <- Z.shiftl_mul_pow2 by lia. rewrite Z.add_nocarry_lxor.
    - apply Z.lxor_lor. apply Z.bits_inj'. intros n Hn. rewrite Z.land_spec, Z.bits_0.
      destruct (Z.ltb_spec n from).
      + rewrite Z.shiftl_spec_low by lia. reflexivity.
      + replace (Z.testbit v n) with false; [apply andb_false_r|].
        symmetry. destruct (Z.eq_dec v 0) as [->|]; [apply Z.bits_0|].
        apply Z.bits_above_log2; [lia|]. apply Z.log2_lt_pow2; [lia|].
        eapply Z.lt_le_trans; [apply Hv|]. apply Z.pow_le_mono_r; lia.
    - apply Z.bits_inj'. intros n Hn. rewrite Z.land_spec, Z.bits_0.
      destruct (Z.ltb_spec n from).
      + rewrite Z.shiftl_spec_low by lia. reflexivity.
      + replace (Z.testbit v n) with false; [apply andb_false_r|].
        symmetry. destruct (Z.eq_dec v 0) as [->|]; [apply Z.bits_0|].
        apply Z.bits_above_log2; [lia|]. apply Z.log2_lt_pow2; [lia|].
        eapply Z.lt_le_trans; [apply Hv|]. apply Z.pow_le_mono_r; lia. }
  pose proof (pow2_pos bits ltac:(lia)). pose proof (pow2_pos from ltac:(lia)).
  replace (from + to - 1) with ((bits + from) + (to - 1 - bits)) by lia.
  rewrite (Z.pow_add_r 2 (bits + from)) by lia.
  pose proof (pow2_pos (bits + from) ltac:(lia)). pose proof (pow2_pos (to - 1 - bits) ltac:(lia)).
  rewrite Z.rem_mul_r by lia. rewrite (Z.mul_comm (2 ^ (bits + from))), Z.mod_add by lia.
  rewrite Z.mod_mod by lia.
  rewrite (Z.pow_add_r 2 bits from) by lia. rewrite (Z.mul_comm (2 ^ bits)).
  rewrite Z.rem_mul_r by lia.
  replace ((acc * 2 ^ from + v) mod 2 ^ from) with v
    by (rewrite Z.add_comm, Z.mod_add, Z.mod_small by lia; reflexivity).
  replace ((acc * 2 ^ from + v) / 2 ^ from) with acc
    by (rewrite Z.add_comm, Z.div_add, Z.div_small by lia; lia).
  ring.
Qed.

Lemma convertbits_loop_Ok data from to acc bits :
  0 < from -> 0 < to -> 0 <= bits < to -> groups from data ->
  exists acc' bits' out,
    convertbits_loop data from to acc bits = Ok (Some (acc', bits', out)) /\
    0 <= bits' < to /\ to * zlen out + bits' = bits + from * zlen data /\ groups to out /\
    (acc mod 2 ^ bits) * 2 ^ (from * zlen data) + be_num (2 ^ from) data
      = be_num (2 ^ to) out * 2 ^ bits' + acc' mod 2 ^ bits'.
Proof.
  intros Hf Ht. revert acc bits. induction data as [|v data IH]; intros acc bits Hb G.
  - cbn [convertbits_loop]. exists acc, bits, []. split; [reflexivity|]. split; [lia|].
    rewrite !zlen_nil. split; [lia|]. split; [constructor|]. rewrite Z.mul_0_r. cbn. lia.
  - inversion G as [|? ? Hv G']; subst. cbn [convertbits_loop].
    assert (Z.shiftr v from = 0) as S0 by (rewrite Z.shiftr_div_pow2 by lia; apply Z.div_small, Hv).
    rewrite S0. replace ((v <? 0) || negb (0 =? 0)) with false by lia. cbn zeta.
    set (acc1 := Z.land (Z.lor (Z.shiftl acc from) v) (Z.shiftl 1 (from + to - 1) - 1)).
    pose proof (acc_step acc from to bits v Hf Ht Hb Hv) as A. fold acc1 in A. clearbody acc1.
    destruct (convertbits_emit_Ok (S (Z.to_nat (bits + from))) acc1 (bits + from) to) as [b [o1 [E1 [Rb [Eb [G1 V1]]]]]];
      [lia|lia|lia|].
    rewrite E1. cbn [bind].
    destruct (IH acc1 b Rb G') as [acc2 [b2 [o2 [E2 [Rb2 [Eb2 [G2 V2]]]]]]].
    rewrite E2. cbn [bind]. exists acc2, b2, (o1 ++ o2). split; [reflexivity|].
    split; [exact Rb2|]. rewrite zlen_app, zlen_cons. split; [clear - Eb Eb2; lia|].
    split; [apply Forall_app; split; assumption|].
    rewrite be_num_app, be_num_cons. rewrite A in V1.
    pose proof (zlen_nonneg data). pose proof (zlen_nonneg o2).
    assert (0 <= from * zlen data) as N1 by (apply Z.mul_nonneg_nonneg; lia).
    assert (0 <= to * zlen o2) as N2 by (apply Z.mul_nonneg_nonneg; lia).
    set (P := 2 ^ (from * zlen data)) in *.
    assert (2 ^ (from * (1 + zlen data)) = 2 ^ from * P) as F1
      by (unfold P; rewrite <- Z.pow_add_r by lia; f_equal; lia).
    assert ((2 ^ from) ^ zlen data = P) as F2 by (unfold P; rewrite <- Z.pow_mul_r by lia; reflexivity).
    assert ((2 ^ to) ^ zlen o2 * 2 ^ b2 = 2 ^ b * P) as F3.
    { unfold P. rewrite <- Z.pow_mul_r, <- !Z.pow_add_r by lia. f_equal. lia. }
    rewrite F1, F2.
    transitivity (be_num (2 ^ to) o1 * (2 ^ b * P) + ((acc1 mod 2 ^ b) * P + be_num (2 ^ from) data)).
    + transitivity ((acc mod 2 ^ bits * 2 ^ from + v) * P + be_num (2 ^ from) data); [ring|].
      rewrite V1. ring.
    + rewrite V2, <- F3. ring.
Qed.

Lemma convertbits_loop_None data from to acc bits :
  0 < from -> 0 < to -> 0 <= bits < to -> ~ groups from data ->
  convertbits_loop data from to acc bits = Ok None.
Proof.
  intros Hf Ht. revert acc bits. induction data as [|v data IH]; intros acc bits Hb N.
  - exfalso. apply N. constructor.
  - cbn [convertbits_loop]. destruct ((v <? 0) || negb (Z.shiftr v from =? 0)) eqn:E; [reflexivity|].
    assert (0 <= v < 2 ^ from) as Hv.
    { rewrite Z.shiftr_div_pow2 in E by lia. pose proof (pow2_pos from ltac:(lia)) as P.
      split; [lia|]. assert (v / 2 ^ from = 0) as D by lia.
      apply Z.div_small_iff in D; lia. }
    cbn zeta. set (acc1 := Z.land _ _).
    destruct (convertbits_emit_Ok (S (Z.to_nat (bits + from))) acc1 (bits + from) to) as [b [o1 [E1 [Rb _]]]];
      [lia|lia|lia|].
    rewrite E1. cbn [bind]. rewrite IH; [reflexivity|exact Rb|]. intros C. apply N. constructor; assumption.
Qed.

Lemma groups_dec w l : {groups w l} + {~ groups w l}.
Proof.
  apply Forall_dec. intros x. destruct (Z_le_dec 0 x), (Z_lt_dec x (2 ^ w)); [left; lia|right; lia..].
Defined.

(* the padding form *)
Lemma convertbits_pad_Ok data from to :
  0 < from -> 0 < to -> groups from data ->
  exists out, convertbits data from to true = Ok (Some out) /\ regroup_pad from to data out.
Proof.
  intros Hf Ht G. unfold convertbits.
  destruct (convertbits_loop_Ok data from to 0 0 Hf Ht ltac:(lia) G) as [acc [b [out [E [Rb [Eb [Go V]]]]]]].
  rewrite E. cbn [bind]. rewrite Z.mod_0_l, Z.mul_0_l, Z.add_0_l in V by (apply Z.pow_nonzero; lia).
  destruct (b =? 0) eqn:B0; cbn [negb].
  - replace b with 0 in * by lia. exists out. split; [reflexivity|]. split; [exact Go|].
    exists 0. split; [lia|]. split; [lia|]. rewrite V. rewrite Z.mod_1_r. lia.
  - eexists. split; [reflexivity|]. rewrite land_mask by lia. split.
    + apply Forall_app. split; [exact Go|]. constructor; [|constructor].
      apply Z.mod_pos_bound, pow2_pos; lia.
    + exists (to - b). split; [lia|]. rewrite zlen_app. change (zlen [_]) with 1. split; [lia|].
      rewrite be_num_snoc, V. rewrite Z.shiftl_mul_pow2 by lia.
      replace (2 ^ to) with (2 ^ b * 2 ^ (to - b)) by (rewrite <- Z.pow_add_r by lia; f_equal; lia).
      pose proof (pow2_pos b ltac:(lia)). pose proof (pow2_pos (to - b) ltac:(lia)).
      rewrite (Z.mul_mod_distr_r acc) by lia. ring.
Qed.

Lemma convertbits_None data from to pad :
  0 < from -> 0 < to -> ~ groups from data -> convertbits data from to pad = Ok None.
Proof.
  intros Hf Ht N. unfold convertbits. rewrite convertbits_loop_None by (try assumption; lia). reflexivity.
Qed.

Lemma regroup_pad_unique from to l a b : 0 < to ->
  regroup_pad from to l a -> regroup_pad from to l b -> a = b.
Proof.
  intros Ht [Ga [p [Rp [Lp Vp]]]] [Gb [q [Rq [Lq Vq]]]].
  assert (zlen a = zlen b) as L.
  { destruct (Z.lt_trichotomy (zlen a) (zlen b)) as [Q|[Q|Q]]; [nia|exact Q|nia]. }
  assert (p = q) as -> by (rewrite L in Lp; lia).
  apply (be_num_inj_len (2 ^ to)); [apply pow2_ge2; lia|exact Ga|exact Gb|exact L|congruence].
Qed.

(* the form without padding: accepted exactly when the leftover is shorter than
   a source group and zero, i.e. when padding the result gives the source back *)
Lemma convertbits_nopad data from to :
  0 < from -> from <= to -> groups from data ->
  (exists out, convertbits data from to false = Ok (Some out) /\ groups to out /\
               regroup_pad to from out data) \/
  (convertbits data from to false = Ok None /\
   forall out, groups to out -> ~ regroup_pad to from out data).
Proof.
  intros Hf Hft G. assert (0 < to) as Ht by lia. unfold convertbits.
  destruct (convertbits_loop_Ok data from to 0 0 Hf Ht ltac:(lia) G) as [acc [b [out [E [Rb [Eb [Go V]]]]]]].
  rewrite E. cbn [bind]. rewrite Z.mod_0_l, Z.mul_0_l, Z.add_0_l in V by (apply Z.pow_nonzero; lia).
  rewrite land_mask, Z.shiftl_mul_pow2 by lia.
  replace (2 ^ to) with (2 ^ b * 2 ^ (to - b)) in * by (rewrite <- Z.pow_add_r by lia; f_equal; lia).
  pose proof (pow2_pos b ltac:(lia)) as Pb. pose proof (pow2_pos (to - b) ltac:(lia)) as Ptb.
  rewrite (Z.mul_mod_distr_r acc) by lia.
  destruct ((from <=? b) || negb (acc mod 2 ^ b * 2 ^ (to - b) =? 0)) eqn:C.
  - right. split; [reflexivity|]. intros o2 G2 [_ [p [Rp [Lp Vp]]]].
    assert (zlen o2 = zlen out /\ p = b) as [L ->].
    { pose proof (zlen_nonneg out). pose proof (zlen_nonneg o2). rewrite Lp in Eb.
      destruct (Z.lt_trichotomy (zlen out) (zlen o2)) as [Q|[Q|Q]]; [nia|split; nia|nia]. }
    replace (2 ^ b * 2 ^ (to - b)) with (2 ^ to) in * by (rewrite <- Z.pow_add_r by lia; f_equal; lia).
    rewrite V in Vp. assert (acc mod 2 ^ b = 0) as A0; [|lia].
    assert ((be_num (2 ^ to) out * 2 ^ b + acc mod 2 ^ b) mod 2 ^ b = (be_num (2 ^ to) o2 * 2 ^ b) mod 2 ^ b) as M by (rewrite Vp; reflexivity).
    rewrite Z.mod_mul in M by lia. rewrite Z.add_comm, Z.mod_add, Z.mod_mod in M by lia. exact M.
  - left. exists out. split; [reflexivity|]. 
    replace (2 ^ b * 2 ^ (to - b)) with (2 ^ to) in * by (rewrite <- Z.pow_add_r by lia; f_equal; lia).
    split; [exact Go|]. split; [exact G|]. exists b.
    split; [lia|]. split; [lia|]. rewrite V. nia.
Qed.
