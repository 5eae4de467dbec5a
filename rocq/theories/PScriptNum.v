(* C84: what i2le_script writes for every integer, and what a script reads from it.
   [scriptnum_value], [scriptnum_minimal] and [twos_value] are in SNum.v. *)
From Coq Require Import String.
From Verif Require Import Py MUtils SNum LBase LUtils LScriptNum PUtils.
Open Scope list_scope.
Open Scope Z_scope.

(* keeps 256 ^ 519 as an unknown *)
Ltac plia := repeat match goal with X : context [256 ^ 519] |- _ => revert X end; try generalize (256 ^ 519); intros; lia.

(* the text of every integer: the two special cases, and otherwise two's complement of the
   fewest bytes *)
Theorem i2le_script_total : forall n,
  (n = 0 -> i2le_script n = Ok (lit "00")) /\ (n = -1 -> i2le_script n = Ok []) /\
  (n <> 0 -> n <> -1 -> - 256 ^ 519 <= 2 * n < 256 ^ 519 ->
     exists b, i2le_script n = Ok (hex b) /\ all_bytes b /\ 1 <= len b <= 519 /\ twos_value b = n /\
       forall b', all_bytes b' -> b' <> [] -> twos_value b' = n -> len b <= len b') /\
  (2 * n < - 256 ^ 519 \/ 256 ^ 519 <= 2 * n -> i2le_script n = Err ValueError).
Proof.
  intros n. split; [intros ->; reflexivity|]. split; [intros ->; reflexivity|]. pose proof pow519_even as Even.
  split.
  - intros N0 N1 R. assert (smag n < 256 ^ 519) as S by (unfold smag; destruct (n <? 0) eqn:E; plia).
    destruct (i2le_script_Ok n N0 N1 S) as [k [K [E [U L]]]]. exists (to_le (Z.to_nat k) n). split; [exact E|]. split; [apply to_le_bytes|].
    assert (len (to_le (Z.to_nat k) n) = k) as Lk by (norm_spec; rewrite zlen_to_le; plia). rewrite Lk. split; [plia|]. split.
    + destruct (Z_lt_le_dec n 0) as [Ng|Ps].
      * destruct (i2le_script_negative n) as [b [Eb [Bb [_ [T _]]]]]; [plia| |].
        { unfold smag in S. destruct (n <? 0) eqn:E'; plia. }
        rewrite E in Eb. apply Ok_inj, hex_inj in Eb; [rewrite Eb; exact T|apply to_le_bytes|exact Bb].
      * destruct (i2le_script_positive n) as [b [Eb [Bb [_ [V _]]]]]; [plia|plia|].
        rewrite E in Eb. apply Ok_inj, hex_inj in Eb; [|apply to_le_bytes|exact Bb]. rewrite Eb. unfold scriptnum_value in V. unfold twos_value.
        destruct (last b 0 <? 128) eqn:Lb; [exact V|]. exfalso. assert (b <> []) as Nb by (intros ->; cbn in Lb; discriminate).
        destruct (exists_last Nb) as [p [x ->]]. rewrite last_last in Lb. unfold all_bytes in Bb. apply is_bytes_app in Bb. destruct Bb as [Bp _].
        norm_spec. rewrite from_le_app, zlen_app in V. cbn [from_le] in V. change (zlen [x]) with 1 in V. replace (zlen p + 1 - 1) with (zlen p) in V by plia.
        pose proof (from_le_range p Bp) as Rp. assert (0 < 256 ^ zlen p) by (apply pow256_pos; apply zlen_nonneg). nia.
    + intros b' B' N' T'. destruct (Z_le_gt_dec k (len b')) as [Q|Q]; [exact Q|exfalso]. pose proof (twos_range b' B' N') as T. rewrite T' in T.
      assert (smag n < 256 ^ len b') as S'.
      { unfold smag. assert (256 ^ len b' mod 2 = 0) as Ev.
        { replace (len b') with (Z.succ (len b' - 1)) by plia. assert (0 <= len b' - 1) by (destruct b'; [contradiction|unfold len; cbn [length]; plia]).
          rewrite Z.pow_succ_r by plia. rewrite Z.mul_mod by plia. reflexivity. }
        destruct (n <? 0) eqn:E'; plia. }
      assert (256 ^ len b' <= 256 ^ (k - 1)) by (apply Z.pow_le_mono_r; plia). plia.
  - intros R. apply i2le_script_limit_lemma. plia.
Qed.
Print Assumptions i2le_script_total.

(* what a script reads, and when that is the number in its canonical form *)
Theorem i2le_script_read : forall n b, i2le_script n = Ok (hex b) -> all_bytes b ->
  (0 <= n -> scriptnum_value b = n) /\ (n < -1 -> scriptnum_value b = - (n + 256 ^ len b / 2)) /\ (n = -1 -> scriptnum_value b = 0) /\
  (scriptnum_value b = n /\ scriptnum_minimal b <-> 0 < n \/ exists k, 1 <= k /\ n = - (64 * 256 ^ (k - 1))).
Proof.
  intros n b E B. destruct (i2le_script_total n) as [Z0 [Z1 [In Out]]].
  destruct (Z.eq_dec n 0) as [->|N0].
  { specialize (Z0 eq_refl). rewrite Z0 in E. apply Ok_inj in E. change (lit "00") with (hex [0]) in E. apply hex_inj in E; [|repeat constructor; plia|exact B].
    subst b. split; [reflexivity|]. split; [plia|]. split; [plia|]. split.
    - intros [_ M]. exfalso. apply (proj2 (proj1 i2le_script_refuted) M).
    - intros [X|[k [K X]]]; [plia|]. assert (0 < 256 ^ (k - 1)) by (apply pow256_pos; plia). plia. }
  destruct (Z.eq_dec n (-1)) as [->|N1].
  { specialize (Z1 eq_refl). rewrite Z1 in E. apply Ok_inj in E. change (@nil Z) with (hex []) in E. apply hex_inj in E; [|constructor|exact B].
    subst b. split; [plia|]. split; [plia|]. split; [reflexivity|]. split; [intros [X _]; discriminate X|].
    intros [X|[k [K X]]]; [plia|]. assert (0 < 256 ^ (k - 1)) by (apply pow256_pos; plia). plia. }
  assert (- 256 ^ 519 <= 2 * n < 256 ^ 519) as R.
  { destruct (Z_lt_le_dec (2 * n) (- 256 ^ 519)); [rewrite (Out ltac:(plia)) in E; discriminate|].
    destruct (Z_lt_le_dec (2 * n) (256 ^ 519)); [plia|rewrite (Out ltac:(plia)) in E; discriminate]. }
  pose proof pow519_even as Even.
  destruct (Z_lt_le_dec n 0) as [Ng|Ps].
  - destruct (i2le_script_negative n) as [b' [Eb [Bb [Nb [T V]]]]]; [plia|plia|]. rewrite E in Eb. apply Ok_inj, hex_inj in Eb; [|exact B|exact Bb]. subst b'.
    destruct (exists_last Nb) as [p [x Ep]].
    assert (256 ^ len b = 2 * (128 * 256 ^ (len b - 1))) as Pw.
    { assert (1 <= len b) by (destruct b; [contradiction|unfold len; cbn [length]; plia]). replace (len b) with (Z.succ (len b - 1)) at 1 by plia. rewrite Z.pow_succ_r by plia. ring. }
    assert (le_value b = n + 256 ^ len b /\ (last b 0 <? 128) = false) as [Lv Ls].
    { unfold twos_value in T. destruct (last b 0 <? 128); [|split; [plia|reflexivity]]. pose proof (from_le_range b B). norm_spec. plia. }
    assert (scriptnum_value b = - (n + 256 ^ len b / 2)) as Sv.
    { unfold scriptnum_value. rewrite Ls, Lv. assert (256 ^ len b / 2 = 128 * 256 ^ (len b - 1)) as -> by (rewrite Pw, Z.mul_comm; apply Z.div_mul; plia). plia. }
    split; [plia|]. split; [intros _; exact Sv|]. split; [plia|]. rewrite V. assert (1 <= len b) as L1 by (destruct b; [contradiction|unfold len; cbn [length]; plia]). split.
    + intros [X _]. right. exists (len b). split; [exact L1|plia].
    + intros [X|[k [K X]]]; [plia|].
      assert (k = len b) as ->.
      { pose proof (twos_range b B Nb) as Tr. rewrite T in Tr.
        destruct (i2le_script_total n) as [_ [_ [Tot _]]]. destruct (Tot N0 N1 R) as [b2 [E2 [B2 [_ [_ Mn]]]]]. rewrite E in E2. apply Ok_inj, hex_inj in E2; [|exact B|exact B2]. subst b2.
        destruct (Z_lt_le_dec k (len b)) as [Lt|Ge].
        - exfalso. assert (256 ^ k = 4 * (64 * 256 ^ (k - 1))) as Pk. { replace k with (Z.succ (k - 1)) at 1 by plia. rewrite Z.pow_succ_r by plia. ring. }
          specialize (Mn (to_le (Z.to_nat k) n) (to_le_bytes _ _)). assert (0 < 256 ^ (k - 1)) by (apply pow256_pos; plia).
          assert (len (to_le (Z.to_nat k) n) = k) as Lk by (norm_spec; rewrite zlen_to_le; plia).
          rewrite Lk in Mn. assert (len b <= k); [|plia]. apply Mn.
          + intros X2. apply (f_equal (fun l => len l)) in X2. rewrite Lk in X2. change (len []) with 0 in X2. plia.
          + unfold twos_value. assert (from_le (to_le (Z.to_nat k) n) = n + 256 ^ Z.of_nat (Z.to_nat k)) as Fv by (apply from_le_neg; rewrite Z2Nat.id; plia).
            assert ((last (to_le (Z.to_nat k) n) 0 <? 128) = false) as La.
            { rewrite last_to_le_small by plia. rewrite <- from_to_le, Fv. rewrite !Z2Nat.id by plia. plia. }
            rewrite La. norm_spec. rewrite Fv, zlen_to_le, Z2Nat.id by plia. plia.
        - assert (256 ^ k = 256 * 256 ^ (k - 1)) as Pk. { replace k with (Z.succ (k - 1)) at 1 by plia. rewrite Z.pow_succ_r by plia. ring. }
          destruct (Z.eq_dec k (len b)); [assumption|exfalso]. assert (256 ^ len b <= 256 ^ (k - 1)) by (apply Z.pow_le_mono_r; plia).
          assert (0 < 256 ^ (k - 1)) by (apply pow256_pos; plia). plia. }
      split; [plia|]. right. left. rewrite Ep, last_last. intros M0. subst b. rewrite last_last in Ls. unfold all_bytes in B. apply is_bytes_app in B. destruct B as [Bp Bx]. inversion Bx as [|? ? Xb _]; subst. unfold is_byte in Xb.
      assert (x = 128) by plia. subst x. norm_spec. rewrite from_le_app in Lv. cbn [from_le] in Lv. rewrite zlen_app in *. change (zlen [128]) with 1 in *.
      replace (zlen p + 1 - 1) with (zlen p) in * by plia. rewrite Z.pow_add_r in Lv by (try apply zlen_nonneg; plia). pose proof (from_le_range p Bp). plia.
  - destruct (i2le_script_positive n) as [b' [Eb [Bb [M [V _]]]]]; [plia|plia|]. rewrite E in Eb. apply Ok_inj, hex_inj in Eb; [|exact B|exact Bb]. subst b'.
    split; [auto|]. split; [plia|]. split; [plia|]. split; [intros _; left; plia|auto].
Qed.
Print Assumptions i2le_script_read.
Example i2le_script_all_ex : i2le_script (-64) = Ok (hex [192]) /\ i2le_script (-65) = Ok (hex [191]) /\ scriptnum_value [191] = -63 /\ -63 = - (-65 + 256 ^ 1 / 2) /\
  i2le_script (-16384) = Ok (hex [0; 192]) /\ scriptnum_value [0; 192] = -16384 /\ i2le_script 32768 = Ok (hex [0; 128; 0]) /\ i2le_script (256 ^ 519) = Err ValueError.
Proof.
  do 7 (split; [vm_compute; reflexivity|]). apply i2le_script_total. right. assert (0 < 256 ^ 519) by (apply pow256_pos; plia). plia.
Qed.
