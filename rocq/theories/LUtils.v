(* Lemmas about MUtils.v *)
From Coq Require Import ZifyBool ZifyNat String.
From Verif Require Import Py LBase MNet MUtils SNum.
Open Scope list_scope.
Open Scope Z_scope.
Ltac Zify.zify_post_hook ::= Z.div_mod_to_equations.

Lemma le_value_from_le l : le_value l = from_le l.
Proof. induction l as [|b l IH]; cbn [le_value from_le]; [|rewrite IH]; reflexivity. Qed.

(* the specification's functions are convertible with the model's *)
Ltac norm_spec :=
  change len with (@zlen Z) in *; change le_value with from_le in *.

Lemma len_zlen l : len l = zlen l.
Proof. reflexivity. Qed.

Lemma all_bytes_is_bytes l : all_bytes l <-> is_bytes l.
Proof. reflexivity. Qed.

Lemma le_bytes_to_le k n : le_bytes k n = to_le k n.
Proof.
  unfold le_bytes. revert n. induction k as [|k IH]; intros n; [reflexivity|].
  cbn [seq map to_le]. f_equal.
  - change (256 ^ Z.of_nat 0) with 1. rewrite Z.div_1_r. reflexivity.
  - rewrite <- seq_shift, map_map, <- IH. apply map_ext. intros i.
    rewrite pow256_S. pose proof (pow256_pos (Z.of_nat i)).
    rewrite Z.div_div by lia. reflexivity.
Qed.

Lemma zlen_le_bytes k n : zlen (le_bytes k n) = Z.of_nat k.
Proof. rewrite le_bytes_to_le. apply zlen_to_le. Qed.

(** * i2le, i2be *)

Lemma i2le_Ok n : 0 <= n ->
  exists k, i2le n = Ok (to_le (S k) n) /\ 0 <= n < 256 ^ Z.of_nat (S k)
            /\ (k = O \/ 256 ^ Z.of_nat k <= n).
Proof.
  intros Hn. unfold i2le. destruct (n =? 0) eqn:E.
  - exists O. replace n with 0 by lia. split; [reflexivity|]. split; [cbn; lia|left; reflexivity].
  - destruct (byte_length_spec n) as [[L U] K]; [lia|].
    set (k := (bit_length n + 7) / 8) in *. clearbody k.
    exists (Z.to_nat (k - 1)). rewrite to_bytes_le by lia.
    replace (S (Z.to_nat (k - 1))) with (Z.to_nat k) by lia.
    rewrite !Z2Nat.id by lia. repeat split; try lia.
Qed.

Lemma i2le_shortest n k b :
  is_bytes b -> b <> [] -> from_le b = n -> (k = O \/ 256 ^ Z.of_nat k <= n) ->
  Z.of_nat (S k) <= zlen b.
Proof.
  intros Hb Hne E Hk. destruct Hk as [->|Hk].
  - destruct b; [congruence|]. rewrite zlen_cons. pose proof (zlen_nonneg b). lia.
  - pose proof (from_le_range b Hb) as R.
    destruct (Z.leb_spec (Z.of_nat (S k)) (zlen b)) as [|L]; [assumption|].
    assert (256 ^ zlen b <= 256 ^ Z.of_nat k); [|lia].
    apply Z.pow_le_mono_r; [lia|]. lia.
Qed.

Lemma i2le_exact n : 0 <= n ->
  exists b, i2le n = Ok b /\ all_bytes b /\ b <> [] /\ le_value b = n /\
            forall b', all_bytes b' -> b' <> [] -> le_value b' = n -> len b <= len b'.
Proof.
  intros Hn. destruct (i2le_Ok n Hn) as [k [E [R M]]].
  exists (to_le (S k) n). split; [exact E|]. split; [apply to_le_bytes|].
  split; [discriminate|]. split.
  - norm_spec. rewrite from_to_le. apply Z.mod_small. lia.
  - intros b' Hb' Hne Ev. norm_spec. change len with (@zlen Z); rewrite !zlen_to_le.
    eapply i2le_shortest; eassumption.
Qed.

Lemma i2be_i2le n b : i2be n = Ok b <-> i2le n = Ok (rev b).
Proof.
  unfold i2be, i2le. destruct (n =? 0).
  - split; intros E; [injection E as <-; reflexivity|].
    apply Ok_inj in E. rewrite <- (rev_involutive b), <- E. reflexivity.
  - unfold to_bytes. destruct (_ <? 0); [split; discriminate|].
    destruct (fits _ _ _); [|split; discriminate]. split; intros E; apply Ok_inj in E.
    + rewrite <- E, rev_involutive. reflexivity.
    + rewrite E, rev_involutive. reflexivity.
Qed.

Lemma i2le_neg n : n < 0 -> i2le n = Err OverflowError /\ i2be n = Err OverflowError.
Proof.
  intros Hn. unfold i2le, i2be, to_bytes, fits. destruct (n =? 0) eqn:E; [lia|].
  assert (0 <= bit_length n) as B.
  { unfold bit_length. rewrite E. pose proof (Z.log2_nonneg (Z.abs n)). lia. }
  destruct (_ <? 0) eqn:F; [lia|].
  replace (0 <=? n) with false by lia. split; reflexivity.
Qed.

Lemma i2be_exact n : 0 <= n ->
  exists b, i2be n = Ok b /\ all_bytes b /\ b <> [] /\ le_value (rev b) = n /\
            forall b', all_bytes b' -> b' <> [] -> le_value (rev b') = n -> len b <= len b'.
Proof.
  intros Hn. destruct (i2le_exact n Hn) as [b [E [B [N [V M]]]]].
  exists (rev b). rewrite i2be_i2le, rev_involutive. split; [exact E|].
  split; [apply is_bytes_rev, B|]. split.
  { intros C. apply N. rewrite <- (rev_involutive b), C. reflexivity. }
  split; [exact V|]. intros b' Hb' Hne V'. change (zlen (rev b) <= zlen b'). rewrite zlen_rev, <- (zlen_rev b').
  apply (M (rev b')); [apply is_bytes_rev, Hb'| |exact V'].
  intros C. apply Hne. rewrite <- (rev_involutive b'), C. reflexivity.
Qed.

(** * padded *)

Lemma i2le_padded_Ok n k : 0 <= k -> 0 <= n < 256 ^ k -> i2le_padded n k = Ok (le_bytes (Z.to_nat k) n).
Proof. intros. unfold i2le_padded. rewrite to_bytes_le, le_bytes_to_le by lia. reflexivity. Qed.

Lemma i2le_padded_exact n k : 0 <= k ->
  (0 <= n < 256 ^ k ->
     exists b, i2le_padded n k = Ok b /\ all_bytes b /\ len b = k /\ le_value b = n) /\
  (~ 0 <= n < 256 ^ k -> i2le_padded n k = Err OverflowError).
Proof.
  intros Hk. split.
  - intros Hn. exists (to_le (Z.to_nat k) n). unfold i2le_padded. rewrite to_bytes_le by lia.
    split; [reflexivity|]. split; [apply to_le_bytes|]. split.
    + change len with (@zlen Z); rewrite zlen_to_le. lia.
    + norm_spec. rewrite from_to_le, Z2Nat.id by lia. apply Z.mod_small; lia.
  - intros Hn. unfold i2le_padded, to_bytes, fits. destruct (k <? 0) eqn:E; [lia|].
    destruct ((0 <=? n) && (n <? 256 ^ k)) eqn:F; [lia|reflexivity].
Qed.

Lemma i2be_padded_i2le n k b : i2be_padded n k = Ok b <-> i2le_padded n k = Ok (rev b).
Proof.
  unfold i2be_padded, i2le_padded, to_bytes. destruct (_ <? 0); [split; discriminate|].
  destruct (fits _ _ _); [|split; discriminate]. split; intros E; apply Ok_inj in E.
  - rewrite <- E, rev_involutive. reflexivity.
  - rewrite E, rev_involutive. reflexivity.
Qed.

Lemma i2be_padded_exact n k : 0 <= k ->
  (0 <= n < 256 ^ k ->
     exists b, i2be_padded n k = Ok b /\ all_bytes b /\ len b = k /\ le_value (rev b) = n) /\
  (~ 0 <= n < 256 ^ k -> i2be_padded n k = Err OverflowError).
Proof.
  intros Hk. destruct (i2le_padded_exact n k Hk) as [P Q]. split.
  - intros Hn. destruct (P Hn) as [b [E [B [L V]]]]. exists (rev b).
    rewrite i2be_padded_i2le, rev_involutive. split; [exact E|].
    split; [apply is_bytes_rev, B|]. split; [change len with (@zlen Z); rewrite zlen_rev; exact L|exact V].
  - intros Hn. unfold i2be_padded, to_bytes, fits. destruct (k <? 0) eqn:E; [lia|].
    destruct ((0 <=? n) && (n <? 256 ^ k)) eqn:F; [lia|reflexivity].
Qed.

Lemma padded_neg_length n k : k < 0 ->
  i2le_padded n k = Err ValueError /\ i2be_padded n k = Err ValueError.
Proof.
  intros Hk. unfold i2le_padded, i2be_padded, to_bytes. destruct (k <? 0) eqn:E; [|lia].
  split; reflexivity.
Qed.

(** * reading *)

Lemma last_le_range l : is_bytes l -> l <> [] ->
  (last l 0 <? 128) = (2 * from_le l <? 256 ^ zlen l).
Proof.
  intros Hl Hne. destruct (exists_last Hne) as [p [x ->]]. rewrite last_last.
  apply is_bytes_app in Hl. destruct Hl as [Hp Hx]. inversion Hx as [|? ? Hx' _]; subst.
  unfold is_byte in Hx'. pose proof (from_le_range p Hp) as R.
  rewrite from_le_app, zlen_app. cbn [from_le]. change (zlen [x]) with 1.
  rewrite Z.pow_add_r by (pose proof (zlen_nonneg p); lia). change (256 ^ 1) with 256.
  set (P := 256 ^ zlen p) in *. clearbody P. nia.
Qed.

Lemma from_bytes_signed l : is_bytes l -> from_bytes false true l = twos_value l.
Proof.
  intros Hl. unfold from_bytes, twos_value. norm_spec.
  destruct l as [|b l]; [reflexivity|].
  rewrite last_le_range by (try assumption; discriminate).
  set (x := b :: l) in *. assert (zlen x <> 0) as N by (intros C; apply zlen_0 in C; discriminate).
  clearbody x. replace (zlen x =? 0) with false by lia. cbn [andb negb]. rewrite andb_true_r.
  destruct (256 ^ zlen x <=? 2 * from_le x) eqn:E1, (2 * from_le x <? 256 ^ zlen x) eqn:E2;
    try lia.
Qed.

Lemma le2i_value b : is_bytes b ->
  le2i b false = le_value b /\ le2i b true = twos_value b /\
  be2i b false = le_value (rev b) /\ be2i b true = twos_value (rev b).
Proof.
  intros Hb. unfold le2i, be2i. norm_spec.
  repeat split.
  - apply from_bytes_signed, Hb.
  - rewrite <- from_bytes_signed by (apply is_bytes_rev; assumption).
    unfold from_bytes. rewrite zlen_rev. reflexivity.
Qed.

Lemma pad_le2i b : is_bytes b ->
  i2le_padded (le2i b false) (zlen b) = Ok b /\ i2be_padded (be2i b false) (zlen b) = Ok b.
Proof.
  intros Hb. assert (forall c, is_bytes c -> i2le_padded (from_le c) (zlen c) = Ok c) as A.
  { intros c Hc. unfold i2le_padded. pose proof (from_le_range c Hc). pose proof (zlen_nonneg c).
    rewrite to_bytes_le by lia. unfold zlen. rewrite Nat2Z.id, to_from_le by assumption. reflexivity. }
  split; [apply A, Hb|]. rewrite i2be_padded_i2le.
  rewrite <- (zlen_rev b). apply A, is_bytes_rev, Hb.
Qed.

Lemma change_endianness_spec b :
  change_endianness (change_endianness b) = b /\
  forall signed, le2i (change_endianness b) signed = be2i b signed /\
                 be2i (change_endianness b) signed = le2i b signed.
Proof.
  unfold change_endianness, le2i, be2i, from_bytes. rewrite rev_involutive, zlen_rev. auto.
Qed.

(** * i2le_script *)

Lemma script_loop_find n start k fuel :
  0 <= start <= k -> (Z.to_nat (k - start) < fuel)%nat ->
  fits true n k = true ->
  (forall j, start <= j < k -> fits true n j = false) ->
  i2le_script_loop n start fuel = Ok (hex (to_le (Z.to_nat k) n)).
Proof.
  revert start. induction fuel as [|fuel IH]; intros start Hs Hf Hk Hj; [lia|].
  cbn [i2le_script_loop]. unfold to_bytes. destruct (start <? 0) eqn:E; [lia|].
  destruct (Z.eq_dec start k) as [->|N].
  - rewrite Hk. reflexivity.
  - rewrite (Hj start) by lia. apply IH; [lia|lia|assumption|]. intros j Hj'. apply Hj. lia.
Qed.

Lemma script_loop_none n start fuel :
  0 <= start ->
  (forall j, start <= j < start + Z.of_nat fuel -> fits true n j = false) ->
  i2le_script_loop n start fuel = Err ValueError.
Proof.
  revert start. induction fuel as [|fuel IH]; intros start Hs Hj; [reflexivity|].
  cbn [i2le_script_loop]. unfold to_bytes. destruct (start <? 0) eqn:E; [lia|].
  rewrite (Hj start) by lia. apply IH; [lia|]. intros j Hj'. apply Hj. lia.
Qed.

(* 2n+1 for n >= 0 and -2n for n < 0 have the width that a signed encoding needs *)
Definition smag (n : Z) : Z := if n <? 0 then - 2 * n - 1 else 2 * n.

Lemma fits_true_smag n k : 0 < k -> fits true n k = (smag n <? 256 ^ k).
Proof.
  intros Hk. unfold fits, smag. pose proof (pow256_pos k).
  replace (k =? 0) with false by lia. rewrite andb_false_l, orb_false_r.
  assert (256 ^ k mod 2 = 0).
  { replace k with (Z.succ (k - 1)) by lia. rewrite Z.pow_succ_r by lia.
    replace (256 * 256 ^ (k - 1)) with (128 * 256 ^ (k - 1) * 2) by ring. apply Z.mod_mul. lia. }
  destruct (n <? 0) eqn:E; lia.
Qed.

Lemma pow256_mono a b : 0 <= a <= b -> 256 ^ a <= 256 ^ b.
Proof. intros. apply Z.pow_le_mono_r; lia. Qed.

Lemma i2le_script_Ok n : n <> 0 -> n <> -1 -> smag n < 256 ^ 519 ->
  exists k, 1 <= k <= 519 /\ i2le_script n = Ok (hex (to_le (Z.to_nat k) n))
            /\ smag n < 256 ^ k /\ 256 ^ (k - 1) <= smag n.
Proof.
  intros N0 N1 R.
  assert (0 < smag n) as P by (unfold smag; destruct (n <? 0) eqn:E; lia).
  destruct (byte_length_spec (smag n) P) as [[L U] K].
  set (k := (bit_length (smag n) + 7) / 8) in *. clearbody k.
  exists k. assert (k <= 519) as K2.
  { destruct (Z.leb_spec k 519); [assumption|]. pose proof (pow256_mono 519 (k - 1)). lia. }
  repeat split; try assumption; try lia.
  unfold i2le_script. destruct (n =? 0) eqn:E; [lia|].
  apply script_loop_find; [lia|lia|rewrite fits_true_smag; lia|].
  intros j Hj. destruct (Z.eq_dec j 0) as [->|].
  - unfold fits. cbn [Z.pow]. lia.
  - rewrite fits_true_smag by lia. pose proof (pow256_mono j (k - 1)). lia.
Qed.

Lemma i2le_script_too_big n : 256 ^ 519 <= smag n -> i2le_script n = Err ValueError.
Proof.
  intros R. assert (0 < 256 ^ 519) by (apply pow256_pos; lia).
  unfold i2le_script. destruct (n =? 0) eqn:E.
  { unfold smag in R. replace n with 0 in R by lia. cbn [Z.ltb Z.compare Z.mul] in R. lia. }
  apply script_loop_none; [lia|].
  change (0 + Z.of_nat 520) with 520. intros j Hj.
  assert (n <> -1) as N.
  { intros ->. unfold smag in R. cbn [Z.ltb Z.compare] in R.
    assert (256 ^ 1 <= 256 ^ 519) by (apply pow256_mono; lia). change (256 ^ 1) with 256 in *. lia. }
  destruct (Z.eq_dec j 0) as [->|].
  - unfold fits. cbn [Z.pow]. lia.
  - rewrite fits_true_smag by lia. pose proof (pow256_mono j 519). lia.
Qed.

Lemma from_le_neg n k : - 256 ^ Z.of_nat k <= n < 0 -> from_le (to_le k n) = n + 256 ^ Z.of_nat k.
Proof.
  intros Hn. rewrite from_to_le.
  replace n with (n + 256 ^ Z.of_nat k + (-1) * 256 ^ Z.of_nat k) at 1 by ring.
  rewrite Z.mod_add by lia. apply Z.mod_small. lia.
Qed.

Lemma last_to_le_small n k : (0 < k)%nat ->
  (last (to_le k n) 0 <? 128) = (2 * (n mod 256 ^ Z.of_nat k) <? 256 ^ Z.of_nat k).
Proof.
  intros Hk. rewrite last_le_range; [|apply to_le_bytes|destruct k; [lia|discriminate]].
  rewrite from_to_le, zlen_to_le. reflexivity.
Qed.

Lemma scriptnum_minimal_unique a b :
  is_bytes a -> is_bytes b -> scriptnum_minimal a -> scriptnum_minimal b ->
  scriptnum_value a = scriptnum_value b -> a = b.
Proof.
  (* a minimal string is determined by its value: its length is forced by the
     size of the value, and at equal length the value determines the digits *)
  assert (forall l, is_bytes l -> scriptnum_minimal l -> l <> [] ->
            256 ^ (zlen l - 1) <= 2 * Z.abs (scriptnum_value l) < 256 ^ zlen l) as W.
  { intros l Hl M Hne. destruct (exists_last Hne) as [p [y ->]].
    pose proof Hl as Hl0. apply is_bytes_app in Hl. destruct Hl as [Hp Hy].
    inversion Hy as [|? ? Hy' _]; subst. unfold is_byte in Hy'.
    pose proof (from_le_range p Hp) as R. unfold scriptnum_value.
    norm_spec. rewrite last_last, from_le_app, zlen_app.
    change (zlen [y]) with 1. replace (zlen p + 1 - 1) with (zlen p) by lia.
    rewrite Z.pow_add_r by (pose proof (zlen_nonneg p); lia). change (256 ^ 1) with 256.
    cbn [from_le].
    assert (y mod 128 <> 0 \/ y mod 128 = 0 /\ 256 ^ zlen p <= 2 * from_le p) as D.
    { destruct M as [C|[C|[q [x [z [E X]]]]]].
      - destruct p; discriminate.
      - rewrite last_last in C. left; exact C.
      - assert (p = q ++ [x] /\ y = z) as [-> ->].
        { change [x; z] with ([x] ++ [z]) in E. rewrite app_assoc in E.
          apply app_inj_tail in E. exact E. }
        apply is_bytes_app in Hp. destruct Hp as [Hq Hx]. inversion Hx as [|? ? Hx' _]; subst.
        unfold is_byte in Hx'. pose proof (from_le_range q Hq) as Rq.
        destruct (Z.eq_dec (z mod 128) 0) as [Z0|]; [right; split; [exact Z0|]|left; assumption].
        rewrite from_le_app, zlen_app. change (zlen [x]) with 1.
        rewrite Z.pow_add_r by (pose proof (zlen_nonneg q); lia). change (256 ^ 1) with 256.
        cbn [from_le]. set (Q := 256 ^ zlen q) in *. clearbody Q. nia. }
    set (P := 256 ^ zlen p) in *. clearbody P. set (f := from_le p) in *. clearbody f.
    assert (y = 0 \/ 1 <= y < 128 \/ y = 128 \/ 128 < y) as S by lia.
    destruct (y <? 128) eqn:E; nia. }
  intros Ha Hb Ma Mb E.
  destruct a as [|x a]; destruct b as [|y b]; [reflexivity| | |].
  - pose proof (W _ Hb Mb ltac:(discriminate)) as W2. rewrite <- E in W2.
    change (scriptnum_value []) with 0 in W2. rewrite zlen_cons in W2.
    pose proof (pow256_pos (1 + zlen b - 1)). pose proof (zlen_nonneg b). lia.
  - pose proof (W _ Ha Ma ltac:(discriminate)) as W2. rewrite E in W2.
    change (scriptnum_value []) with 0 in W2. rewrite zlen_cons in W2.
    pose proof (pow256_pos (1 + zlen a - 1)). pose proof (zlen_nonneg a). lia.
  - pose proof (W _ Ha Ma ltac:(discriminate)) as Wa.
    pose proof (W _ Hb Mb ltac:(discriminate)) as Wb.
    rewrite <- E in Wb. set (A := x :: a) in *. set (B := y :: b) in *.
    assert (1 <= zlen A /\ 1 <= zlen B) as [LA LB].
    { unfold A, B. rewrite !zlen_cons. pose proof (zlen_nonneg a). pose proof (zlen_nonneg b). lia. }
    assert (A <> [] /\ B <> []) as [NA NB] by (split; discriminate).
    clearbody A B. clear x a y b.
    assert (zlen A = zlen B) as L.
    { destruct (Z.lt_trichotomy (zlen A) (zlen B)) as [C|[C|C]]; [|exact C|].
      - pose proof (pow256_mono (zlen A) (zlen B - 1)). lia.
      - pose proof (pow256_mono (zlen B) (zlen A - 1)). lia. }
    apply from_le_inj; [assumption|assumption|unfold zlen in L; lia|].
    unfold scriptnum_value in E. norm_spec.
    rewrite (last_le_range A), (last_le_range B) in * by assumption.
    rewrite <- L in *. pose proof (from_le_range A Ha) as RA. pose proof (from_le_range B Hb) as RB.
    rewrite <- L in RB.
    replace (zlen A) with (Z.succ (zlen A - 1)) in RA, RB, E at 1 by lia.
    assert (256 ^ zlen A = 256 * 256 ^ (zlen A - 1)) as PE.
    { rewrite <- Z.pow_succ_r by lia. f_equal. lia. }
    assert (256 ^ Z.succ (zlen A - 1) = 256 * 256 ^ (zlen A - 1)) as PS by (apply Z.pow_succ_r; lia).
    rewrite ?PE, ?PS in *. set (P := 256 ^ (zlen A - 1)) in *.
    assert (0 < P) by (apply pow256_pos; lia).
    assert (256 ^ (zlen A - 1) = P) as PQ by reflexivity. clearbody P.
    destruct (2 * from_le A <? 256 * P) eqn:EA; destruct (2 * from_le B <? 256 * P) eqn:EB; try lia.
    + unfold scriptnum_value in Wa. rewrite last_le_range in Wa by assumption.
      norm_spec. rewrite PE, EA, ?PQ in Wa. lia.
    + exfalso. unfold scriptnum_value in Wa. rewrite last_le_range in Wa by assumption.
      norm_spec. rewrite PE, EA, ?PQ in Wa. lia.
Qed.

Lemma i2le_script_positive n : 0 < n -> 2 * n < 256 ^ 519 ->
  exists b, i2le_script n = Ok (hex b) /\ all_bytes b /\ scriptnum_minimal b /\
            scriptnum_value b = n /\
            (forall b', all_bytes b' -> scriptnum_minimal b' -> scriptnum_value b' = n -> b' = b).
Proof.
  intros Hn Hb. assert (smag n = 2 * n) as S by (unfold smag; destruct (n <? 0) eqn:E; lia).
  destruct (i2le_script_Ok n) as [k [K [E [U L]]]]; [lia|lia|lia|].
  rewrite S in U, L. assert (exists m, k = Z.of_nat m) as [m ->] by (exists (Z.to_nat k); lia).
  rewrite Nat2Z.id in E.
  assert (0 < m)%nat as M by lia.
  assert (n mod 256 ^ Z.of_nat m = n) as Nm by (apply Z.mod_small; lia).
  assert ((last (to_le m n) 0 <? 128) = true) as La.
  { rewrite last_to_le_small, Nm by assumption. lia. }
  assert (scriptnum_minimal (to_le m n)) as Mi.
  { destruct m as [|m']; [lia|].
    replace (Z.of_nat (Datatypes.S m') - 1) with (Z.of_nat m') in L by lia.
    destruct (Z.ltb_spec n (256 ^ Z.of_nat m')) as [Lt|Ge].
    - rewrite to_le_small_S by lia. right; right. destruct m' as [|m''].
      { cbn in Lt. lia. }
      assert (to_le (Datatypes.S m'') n <> []) as Ne by discriminate.
      destruct (exists_last Ne) as [p [x Ex]]. exists p, x, 0. split.
      + rewrite Ex, <- app_assoc. reflexivity.
      + assert ((last (to_le (Datatypes.S m'') n) 0 <? 128) = false) as La'.
        { rewrite last_to_le_small by lia. rewrite Z.mod_small by lia. lia. }
        rewrite Ex, last_last in La'. lia.
    - right; left. assert (to_le (Datatypes.S m') n <> []) as Ne by discriminate.
      destruct (exists_last Ne) as [p [x Ex]]. rewrite Ex, last_last in *.
      pose proof (to_le_bytes (Datatypes.S m') n) as By. rewrite Ex in By.
      apply is_bytes_app in By. destruct By as [Bp Bx]. inversion Bx as [|? ? Bx' _]; subst.
      unfold is_byte in Bx'. assert (x <> 0); [|lia]. intros ->.
      pose proof (from_to_le (Datatypes.S m') n) as V. rewrite Ex, from_le_app, Nm in V.
      cbn [from_le] in V. pose proof (from_le_range p Bp) as R.
      assert (zlen p = Z.of_nat m') as Lp.
      { pose proof (zlen_to_le (Datatypes.S m') n) as Z1. rewrite Ex, zlen_app in Z1.
        change (zlen [0]) with 1 in Z1. lia. }
      rewrite Lp in R. lia. }
  assert (scriptnum_value (to_le m n) = n) as V.
  { unfold scriptnum_value. rewrite La. norm_spec. rewrite from_to_le. exact Nm. }
  exists (to_le m n). split; [exact E|]. split; [apply to_le_bytes|].
  split; [exact Mi|]. split; [exact V|]. intros b' Hb' Mb' Vb'.
  apply scriptnum_minimal_unique; [exact Hb'|apply to_le_bytes|exact Mb'|exact Mi|].
  rewrite V. exact Vb'.
Qed.

(* negative numbers: two's complement, which reads back as a Script number only
   for the numbers -2^(8k-2) *)
Lemma i2le_script_negative n : n < -1 -> - 2 * n - 1 < 256 ^ 519 ->
  exists b, i2le_script n = Ok (hex b) /\ all_bytes b /\ b <> [] /\ twos_value b = n /\
            (scriptnum_value b = n <-> 4 * n = - 256 ^ len b).
Proof.
  intros Hn Hb. assert (smag n = - 2 * n - 1) as S by (unfold smag; destruct (n <? 0) eqn:E; lia).
  destruct (i2le_script_Ok n) as [k [K [E [U L]]]]; [lia|lia|lia|].
  rewrite S in U, L. assert (exists m, k = Z.of_nat m) as [m ->] by (exists (Z.to_nat k); lia).
  rewrite Nat2Z.id in E.
  assert (0 < m)%nat as M by lia.
  assert (from_le (to_le m n) = n + 256 ^ Z.of_nat m) as V by (apply from_le_neg; lia).
  assert ((last (to_le m n) 0 <? 128) = false) as La.
  { rewrite last_to_le_small by assumption. rewrite <- from_to_le, V.
    assert (256 ^ Z.of_nat m = 2 * (128 * 256 ^ (Z.of_nat m - 1))) as Ev.
    { replace (Z.of_nat m) with (Z.succ (Z.of_nat m - 1)) at 1 by lia.
      rewrite Z.pow_succ_r by lia. ring. }
    lia. }
  exists (to_le m n). split; [exact E|]. split; [apply to_le_bytes|].
  split; [destruct m; [lia|discriminate]|]. unfold twos_value, scriptnum_value. rewrite La.
  norm_spec. rewrite zlen_to_le, V. split; [lia|].
  assert (256 ^ Z.of_nat m = 2 * (128 * 256 ^ (Z.of_nat m - 1))) as Ev.
  { replace (Z.of_nat m) with (Z.succ (Z.of_nat m - 1)) at 1 by lia.
    rewrite Z.pow_succ_r by lia. ring. }
  lia.
Qed.

Lemma i2le_script_limit_lemma n :
  256 ^ 519 <= 2 * n \/ 256 ^ 519 <= - 2 * n - 1 -> i2le_script n = Err ValueError.
Proof.
  intros Hn. apply i2le_script_too_big. assert (0 < 256 ^ 519) by (apply pow256_pos; lia).
  unfold smag. destruct (n <? 0) eqn:E; lia.
Qed.
