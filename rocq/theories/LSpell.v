(* How many texts stand for one payload *)
From Coq Require Import ZifyBool ZifyNat String.
From Verif Require Import Py LBase MNet MUtils MBase58 MBech32 MCashaddr SNum SNet SBase58 SBits SBch SBech32 SCashaddr SHash
  LNet LUtils LBase58 LBits LBch LBchErr LBech32 LCashaddr LBurst.
Open Scope list_scope.
Open Scope Z_scope.
Ltac Zify.zify_post_hook ::= idtac.

(* base 32 digits, a fixed number of them *)
Fixpoint digs (n : nat) (x : Z) : list Z := match n with O => [] | S n => digs n (x / 32) ++ [x mod 32] end.

Lemma digs_length n x : length (digs n x) = n.
Proof. revert x. induction n as [|n IH]; intros x; [reflexivity|]. cbn [digs]. rewrite app_length, IH. cbn [length]. lia. Qed.

Lemma digs_gfs n x : gfs (digs n x).
Proof.
  revert x. induction n as [|n IH]; intros x; [constructor|]. cbn [digs]. apply Forall_app. split; [apply IH|].
  constructor; [|constructor]. apply Z.mod_pos_bound. lia.
Qed.

Lemma digs_value n x : 0 <= x < 32 ^ Z.of_nat n -> be_num 32 (digs n x) = x.
Proof.
  revert x. induction n as [|n IH]; intros x Hx; [cbn in *; lia|]. cbn [digs]. rewrite be_num_snoc.
  rewrite Nat2Z.inj_succ, Z.pow_succ_r in Hx by lia.
  rewrite IH; [pose proof (Z.div_mod x 32); lia|]. split; [apply Z.div_pos; lia|apply Z.div_lt_upper_bound; lia].
Qed.

Lemma digs_of l : gfs l -> digs (length l) (be_num 32 l) = l.
Proof.
  intros G. pose proof (pack_range l G) as R. unfold zlen in R.
  apply (be_num_inj_len 32); [lia|apply digs_gfs|exact G|unfold zlen; rewrite digs_length; reflexivity|].
  apply digs_value, R.
Qed.

Lemma NoDup_map_on {A B} (f : A -> B) l : (forall x y, In x l -> In y l -> f x = f y -> x = y) -> NoDup l -> NoDup (map f l).
Proof.
  intros Inj N. induction N as [|x l I N IH]; [constructor|]. cbn [map]. constructor.
  - intros J. apply in_map_iff in J. destruct J as [y [E J]]. apply Inj in E; [subst; contradiction|right; exact J|left; reflexivity].
  - apply IH. intros y z Hy Hz. apply Inj; right; assumption.
Qed.

Lemma NoDup_app_disjoint {A} (l m : list A) : NoDup l -> NoDup m -> (forall x, In x l -> ~ In x m) -> NoDup (l ++ m).
Proof.
  intros Nl Nm D. induction Nl as [|x l I Nl IH]; [exact Nm|]. cbn [app]. constructor.
  - rewrite in_app_iff. intros [J|J]; [contradiction|]. exact (D x (or_introl eq_refl) J).
  - apply IH. intros y Hy. apply D. right. exact Hy.
Qed.

(* the numbers of spare bits, and their values *)
Definition spare (n : Z) : list Z := filter (fun f => (8 * n + f) mod 5 =? 0) [1; 2; 3; 4; 5; 6; 7; 8].
Definition pads (f : Z) : list (Z * Z) := map (fun i => (f, Z.of_nat i)) (seq 0 (Z.to_nat (2 ^ f))).
Definition paddings (n : Z) : list (Z * Z) := flat_map pads (spare n).

Lemma in_paddings n f q : In (f, q) (paddings n) <-> 1 <= f <= 8 /\ (8 * n + f) mod 5 = 0 /\ 0 <= q < 2 ^ f.
Proof.
  unfold paddings, pads. rewrite in_flat_map. split.
  - intros [g [Hg Hq]]. apply in_map_iff in Hq. destruct Hq as [i [E Hi]]. injection E as -> <-.
    apply in_seq in Hi. apply filter_In in Hg. destruct Hg as [Hg M]. apply Z.eqb_eq in M.
    assert (1 <= f <= 8) by (cbn [In] in Hg; lia). split; [assumption|]. split; [exact M|]. lia.
  - intros [Hf [M Hq]]. exists f. split.
    + apply filter_In. split; [cbn [In]; lia|apply Z.eqb_eq, M].
    + apply in_map_iff. exists (Z.to_nat q). split; [f_equal; lia|]. apply in_seq. lia.
Qed.

Lemma paddings_NoDup n : NoDup (paddings n).
Proof.
  unfold paddings. assert (NoDup (spare n)) as N.
  { apply NoDup_filter. repeat (constructor; [cbn [In]; lia|]). constructor. }
  induction N as [|f l I N IH]; [constructor|]. cbn [flat_map]. apply NoDup_app_disjoint.
  - apply NoDup_map_on; [|apply seq_NoDup]. intros x y _ _ E. injection E as E. lia.
  - exact IH.
  - intros [g q] H1 H2. apply in_map_iff in H1. destruct H1 as [i [E _]]. injection E as <- _.
    apply in_flat_map in H2. destruct H2 as [g [Hg H2]]. apply in_map_iff in H2. destruct H2 as [j [E _]]. injection E as -> _.
    contradiction.
Qed.

Lemma paddings_length n : Z.of_nat (length (paddings n)) =
  fold_right Z.add 0 (map (fun f => if (8 * n + f) mod 5 =? 0 then 2 ^ f else 0) [1; 2; 3; 4; 5; 6; 7; 8]).
Proof.
  unfold paddings, spare. assert (Forall (fun f => 0 <= f) [1; 2; 3; 4; 5; 6; 7; 8]) as F by (repeat (constructor; [lia|]); constructor).
  induction F as [|f l Hf F IH]; [reflexivity|]. cbn [filter map fold_right].
  destruct ((8 * n + f) mod 5 =? 0); [|lia]. cbn [flat_map]. rewrite app_length, Nat2Z.inj_add, IH.
  unfold pads. rewrite map_length, seq_length. pose proof (Z.pow_nonneg 2 f). lia.
Qed.

Section Spell.
  Context (P : str) (b : bytes).
  Definition sp_data (fq : Z * Z) : list Z := digs (Z.to_nat ((8 * len b + fst fq) / 5)) (be_num 256 b * 2 ^ fst fq + snd fq).
  Definition sp_check (d : list Z) : list Z :=
    poly_add (poly_residue cashaddr_g ((cashaddr_prefix_values P ++ d) ++ zeros 7)) (poly_one cashaddr_g).
  Definition spelling (fq : Z * Z) : str := map b32_char (sp_data fq ++ sp_check (sp_data fq)).

  Lemma prefix_values_gfs : gfs (cashaddr_prefix_values P).
  Proof.
    apply Forall_app. split; [|constructor; [unfold gf; lia|constructor]].
    apply Forall_map, Forall_forall. intros z _. apply Z.mod_pos_bound. lia.
  Qed.

  Lemma one_gfs : gfs (poly_one cashaddr_g).
  Proof. repeat (constructor; [unfold gf; lia|]). constructor. Qed.

  Lemma sp_check_ok d : gfs d -> gfs (sp_check d) /\ length (sp_check d) = 8%nat.
  Proof.
    intros G. assert (gfs (poly_residue cashaddr_g ((cashaddr_prefix_values P ++ d) ++ zeros 7))) as R.
    { apply (fold_push_gfs cashaddr_g 7 eq_refl (mul_closed_of _ cashaddr_g_gfs) cashaddr_g_inv); [|apply one_gfs].
      apply Forall_app. split; [apply Forall_app; split; [apply prefix_values_gfs|exact G]|apply gfs_repeat0]. }
    assert (length (poly_residue cashaddr_g ((cashaddr_prefix_values P ++ d) ++ zeros 7)) = 8%nat) as L
      by (apply (fold_push_length cashaddr_g 7 eq_refl (mul_closed_of _ cashaddr_g_gfs) cashaddr_g_inv); reflexivity).
    split; [apply poly_add_gfs; [exact R|apply one_gfs]|]. unfold sp_check. rewrite poly_add_length; rewrite L; reflexivity.
  Qed.

  Lemma sp_check_iff d c : length c = 8%nat -> codeword cashaddr_g (cashaddr_prefix_values P ++ d ++ c) <-> c = sp_check d.
  Proof.
    intros L. rewrite app_assoc. apply (codeword_check cashaddr_g 7 eq_refl (mul_closed_of _ cashaddr_g_gfs) cashaddr_g_inv). exact L.
  Qed.

  (* the padding can be read off the text *)
  Lemma spelling_data f q : all_bytes b -> In (f, q) (paddings (len b)) ->
    zlen (sp_data (f, q)) = (8 * len b + f) / 5 /\ 5 * zlen (sp_data (f, q)) = 8 * len b + f /\
    be_num 32 (sp_data (f, q)) = be_num 256 b * 2 ^ f + q.
  Proof.
    intros B I. apply in_paddings in I. destruct I as [Hf [M Hq]].
    assert (0 <= len b) as Lb by apply zlen_nonneg.
    pose proof (Z.div_mod (8 * len b + f) 5 ltac:(lia)) as DM.
    assert (zlen (sp_data (f, q)) = (8 * len b + f) / 5) as L.
    { unfold sp_data, zlen. rewrite digs_length. cbn [fst]. apply Z2Nat.id, Z.div_pos; lia. }
    split; [exact L|]. split; [lia|]. unfold sp_data. cbn [fst snd]. apply digs_value.
    rewrite Z2Nat.id by (apply Z.div_pos; lia).
    pose proof (be_num_range 256 b ltac:(lia) B) as R. change (zlen b) with (len b) in R.
    change 32 with (2 ^ 5). rewrite <- Z.pow_mul_r by lia.
    replace (5 * ((8 * len b + f) / 5)) with (8 * len b + f) by lia. rewrite Z.pow_add_r by lia.
    rewrite (Z.pow_mul_r 2 8) by lia. change (2 ^ 8) with 256.
    set (E := 2 ^ f) in *. assert (0 < E) by lia. nia.
  Qed.

  Lemma spelling_inj x y : all_bytes b -> In x (paddings (len b)) -> In y (paddings (len b)) -> spelling x = spelling y -> x = y.
  Proof.
    destruct x as [f q], y as [f' q']. intros B I I' E. unfold spelling in E.
    destruct (sp_check_ok (sp_data (f, q)) (digs_gfs _ _)) as [Gc Lc].
    destruct (sp_check_ok (sp_data (f', q')) (digs_gfs _ _)) as [Gc' Lc'].
    apply map_b32_inj in E; [|apply Forall_app; split; [apply digs_gfs|assumption]|apply Forall_app; split; [apply digs_gfs|assumption]].
    destruct (spelling_data f q B I) as [L [L5 V]], (spelling_data f' q' B I') as [L' [L5' V']].
    assert (length (sp_data (f, q)) = length (sp_data (f', q'))) as LL
      by (apply (f_equal (@length Z)) in E; rewrite !app_length, Lc, Lc' in E; lia).
    assert (f = f') as <- by (unfold zlen in L5, L5'; lia).
    apply app_inj_len in E; [|exact LL]. destruct E as [E _]. f_equal.
    rewrite E in V. lia.
  Qed.
End Spell.

Lemma spellings_lemma name net p x b : get_network name = Ok net -> CASHADDR_PREFIX net = Some p -> ~ In 58 x -> all_bytes b -> b <> [] ->
  exists ts, NoDup ts /\ (forall t, In t ts <-> cashaddr_decode net ((p ++ x) ++ lit ":" ++ t) = Ok b) /\
    Z.of_nat (length ts) =
      fold_right Z.add 0 (map (fun f => if (8 * len b + f) mod 5 =? 0 then 2 ^ f else 0) [1; 2; 3; 4; 5; 6; 7; 8]).
Proof.
  intros En Ep Nx B Nb. destruct (good_prefixes _ _ _ En Ep) as [N58 _].
  assert (~ In 58 (p ++ x)) as NP by (rewrite in_app_iff; tauto).
  assert (1 <= len b) as Lb by (destruct b; [contradiction|unfold len; cbn [length]; lia]).
  exists (map (spelling (p ++ x) b) (paddings (len b))).
  split; [apply NoDup_map_on; [intros u v Hu Hv; apply spelling_inj; assumption|apply paddings_NoDup]|].
  split; [|rewrite map_length; apply paddings_length].
  intros t. rewrite in_map_iff. split.
  - intros [[f q] [<- I]]. destruct (spelling_data b f q B I) as [L [L5 V]].
    destruct (sp_check_ok (p ++ x) (sp_data b (f, q)) (digs_gfs _ _)) as [Gc Lc].
    apply (ca_decode_spec name net p); try assumption. unfold spelling.
    set (d := sp_data b (f, q)) in *. set (c := sp_check (p ++ x) d) in *. exists x, (d ++ c).
    assert (zlen c = 8) as Zc by (unfold zlen; lia).
    apply in_paddings in I. destruct I as [Hf [M Hq]].
    assert (gfs (d ++ c)) as G by (apply Forall_app; split; [apply digs_gfs|exact Gc]).
    split; [exact Nx|]. split; [split; [exact G|split; [apply sp_check_iff; [exact Lc|reflexivity]|reflexivity]]|].
    assert (len (d ++ c) = zlen d + 8) as Ldc by (norm_spec; rewrite zlen_app; lia).
    rewrite Ldc. split.
    + split; [exact B|]. rewrite Ldc. split; [lia|]. rewrite be_num_app, Zc, V.
      replace (5 * (zlen d + 8) - 8 * len b) with (f + 40) by lia. rewrite Z.pow_add_r by lia. change (32 ^ 8) with (2 ^ 40).
      pose proof (pack_range c Gc) as Rc. rewrite Zc in Rc. change (32 ^ 8) with (2 ^ 40) in Rc.
      set (E := 2 ^ 40) in *. assert (0 < E) by reflexivity. set (F := 2 ^ f) in *. assert (0 < F) by lia.
      apply Z.div_unique_pos with (r := q * E + be_num 32 c); [nia|ring].
    + replace (5 * (zlen d + 8) + 7) with (8 * (len b + 5) + (f + 7)) by lia.
      replace ((8 * (len b + 5) + (f + 7)) / 8) with (len b + 6); [lia|].
      apply Z.div_unique_pos with (r := f - 1); lia.
  - intros D. destruct (ca_text_under net name p _ _ b En Ep NP D) as [x' [v [_ [_ [-> [G [V [LB L]]]]]]]].
    set (n := len b) in *. set (m := zlen v).
    assert (len v = m) as Lm by reflexivity. rewrite Lm in L.
    assert (8 * n + 1 <= 5 * (m - 8) <= 8 * n + 8) as Hm.
    { pose proof (Z.div_mod (5 * m + 7) 8 ltac:(lia)). pose proof (Z.mod_pos_bound (5 * m + 7) 8 ltac:(lia)). lia. }
    set (k := Z.to_nat (m - 8)). rewrite <- (firstn_skipn k v) in *.
    set (d := firstn k v) in *. set (c := skipn k v) in *.
    assert (length d = k) as Ld by (unfold d; rewrite firstn_length; unfold m, zlen in *; lia).
    assert (length c = 8%nat) as Lc by (unfold c; rewrite skipn_length; unfold m, zlen in *; lia).
    apply Forall_app in G. destruct G as [Gd Gc].
    apply sp_check_iff in V; [|exact Lc].
    set (f := 5 * (m - 8) - 8 * n). assert (5 * zlen d = 8 * n + f) as L5 by (unfold zlen; lia).
    assert (1 <= f <= 8) as Hf by lia.
    assert (leading_bytes d b) as LD by (apply (leading_of_front d c); [exact Gd|exact Gc|exact LB|norm_spec; change (zlen b) with n; lia]).
    destruct LD as [_ [_ LD]]. change (len d) with (zlen d) in LD. change (len b) with n in LD.
    replace (5 * zlen d - 8 * n) with f in LD by lia.
    assert (0 < 2 ^ f) as PF by (apply Z.pow_pos_nonneg; lia).
    exists (f, be_num 32 d mod 2 ^ f). split.
    + unfold spelling. enough (sp_data b (f, be_num 32 d mod 2 ^ f) = d) as -> by (rewrite <- V; reflexivity).
      unfold sp_data. cbn [fst snd]. change (len b) with n. replace (8 * n + f) with (zlen d * 5) by lia. rewrite Z.div_mul by lia.
      unfold zlen. rewrite Nat2Z.id. rewrite LD, Z.mul_comm, <- Z.div_mod by lia. apply digs_of, Gd.
    + apply in_paddings. split; [exact Hf|]. split; [|apply Z.mod_pos_bound, PF].
      replace (8 * n + f) with (zlen d * 5) by lia. apply Z.mod_mul. lia.
Qed.

Lemma case1 c : upper1 (lower1 c) = upper1 c /\ lower1 (upper1 c) = lower1 c /\ lower1 (lower1 c) = lower1 c /\ upper1 (upper1 c) = upper1 c.
Proof.
  unfold upper1, lower1. destruct ((65 <=? c) && (c <=? 90)) eqn:X, ((97 <=? c) && (c <=? 122)) eqn:Y; try lia;
  rewrite ?X, ?Y; repeat match goal with |- context [if ?b then _ else _] => destruct b eqn:? end; lia.
Qed.

Lemma case_texts s : upper (lower s) = upper s /\ lower (upper s) = lower s /\ lower (lower s) = lower s /\ upper (upper s) = upper s.
Proof. unfold upper, lower. rewrite !map_map. repeat split; apply map_ext; intros c; apply case1. Qed.

Lemma bech32_spellings_lemma name net s b : get_network name = Ok net -> bech32_net_decode net s = Ok b ->
  lower s <> upper s /\ forall s', bech32_net_decode net s' = Ok b <-> s' = lower s \/ s' = upper s.
Proof.
  intros En D. destruct (case_texts s) as [UL [LU [LL UU]]].
  destruct (BECH32_HRP net) as [hrp|] eqn:Eh; [|unfold bech32_net_decode in D; rewrite Eh in D; discriminate].
  pose proof (good_hrps _ _ _ En Eh) as GH. pose proof D as D0. apply (net_decode_spec name net hrp) in D; try assumption.
  destruct D as [v [prog [Eb [W [C A]]]]]. split.
  - destruct GH as [_ [_ [_ GH]]]. destruct A as [g5 [_ [[k [_ [_ [_ E]]]] _]]]. intros F.
    assert (exists c, In c hrp /\ 97 <= c <= 122) as [c [Hc Rc]] by (apply (good_hrps _ _ _ En Eh)).
    assert (In c (lower s)) as I by (rewrite E, in_app_iff; left; exact Hc).
    rewrite <- UL, E in F. unfold upper in F. rewrite (map_app upper1 hrp) in F.
    apply app_inj_len in F; [|rewrite map_length; reflexivity]. destruct F as [F _].
    clear - Hc Rc F. induction hrp as [|h hrp IH]; [destruct Hc|]. cbn [map] in F. injection F as F1 F2.
    destruct Hc as [->|Hc]; [|exact (IH F2 Hc)]. unfold upper1 in F1. destruct ((97 <=? c) && (c <=? 122)) eqn:X; lia.
  - intros s'. split.
    + intros D'. pose proof (canonical_lemma _ _ _ _ En D0) as E. pose proof (canonical_lemma _ _ _ _ En D') as E'.
      rewrite E in E'. injection E' as E'. apply (net_decode_spec name net hrp) in D'; try assumption.
      destruct D' as [_ [_ [_ [_ [[C'|C'] _]]]]].
      * left. congruence.
      * right. destruct (case_texts s') as [UL' _]. congruence.
    + intros [-> | ->]; apply (net_decode_spec name net hrp); try assumption; exists v, prog.
      * rewrite LL. repeat (split; [assumption|]). split; [left; exact LL|exact A].
      * rewrite LU. repeat (split; [assumption|]). split; [right; exact UU|exact A].
Qed.

Lemma base58_spelling_lemma H net s s' b : hashes_ok H ->
  decode_with_checksum H net s = Ok b -> decode_with_checksum H net s' = Ok b -> s = s'.
Proof.
  intros HH D D'. apply decode_checksum_spec in D, D'; try assumption. destruct D as [_ D], D' as [_ D']. congruence.
Qed.
