(* How addresses begin *)
From Coq Require Import ZifyBool ZifyNat String Lia.
From Verif Require Import Py LBase MNet MUtils MAddr SNum SHash SNet SBase58 SBits SBch SBech32 SCashaddr SAddr SParams SBack SFirst
  LNet LUtils LBase58 LBits LParams LAddr LBack.
Open Scope list_scope.
Open Scope Z_scope.
Ltac Zify.zify_post_hook ::= idtac.

Lemma canon_length ds n : digits 58 ds -> canon ds -> 1 <= n -> 58 ^ (n - 1) <= be_num 58 ds < 58 ^ n -> zlen ds = n.
Proof.
  intros D C N [L U]. assert (ds <> []) as Ne by (intros ->; change (be_num 58 []) with 0 in L; assert (0 < 58 ^ (n - 1)) by (apply Z.pow_pos_nonneg; lia); lia).
  pose proof (be_num_pos 58 ds ltac:(lia) D C Ne) as P. pose proof (be_num_range 58 ds ltac:(lia) D) as [_ R].
  assert (1 <= zlen ds) by (destruct ds; [congruence|rewrite zlen_cons; pose proof (zlen_nonneg ds); lia]).
  replace (Z.of_nat (length ds - 1)) with (zlen ds - 1) in P by (unfold zlen in *; lia).
  assert (58 ^ (n - 1) < 58 ^ zlen ds) as A by lia. assert (58 ^ (zlen ds - 1) < 58 ^ n) as B by lia.
  apply Z.pow_lt_mono_r_iff in A; [|lia|lia]. apply Z.pow_lt_mono_r_iff in B; lia.
Qed.

(* the digits after the zeros *)
Lemma base58_parts b s : digits 256 b -> base58_of b s -> exists c ds, b = repeat 0 (leading 0 b) ++ c /\ canon c /\ digits 256 c /\
  digits 58 ds /\ canon ds /\ be_num 58 ds = be_num 256 c /\ s = repeat 49 (leading 0 b) ++ map b58_char ds.
Proof.
  intros B (ds & D & -> & E & L). destruct (leading_split b) as (c & Eb & C). destruct (leading_split ds) as (d & Ed & Cd). rewrite L in Ed.
  exists c, d. split; [exact Eb|]. split; [exact C|]. rewrite Eb in B. apply digits_app in B. split; [apply B|].
  assert (digits 58 ds) as D' by exact D. rewrite Ed in D'. apply digits_app in D'. split; [apply D'|]. split; [exact Cd|].
  rewrite Eb, Ed, !be_num_zeros in E. split; [exact E|]. rewrite Ed at 1. rewrite map_app. f_equal.
  clear. induction (leading 0 b) as [|n IH]; [reflexivity|]. cbn [repeat map]. rewrite IH. reflexivity.
Qed.

Definition front (two : bool) (q : Z) : list Z := if two then [q / 58; q mod 58] else [q].
Definition width (two : bool) : Z := if two then 2 else 1.
Definition numbers (V m n : Z) (two : bool) : list Z :=
  let lo := V * 256 ^ m / 58 ^ (n - width two) in
  let hi := ((V + 1) * 256 ^ m - 1) / 58 ^ (n - width two) in
  map (fun i => lo + Z.of_nat i) (seq 0 (Z.to_nat (hi - lo + 1))).
Definition start_ok (zeros : nat) (V m n : Z) (two : bool) (starts : list string) : bool :=
  (2 <=? n) && (0 <=? m) && (58 ^ (n - 1) <=? V * 256 ^ m) && ((V + 1) * 256 ^ m <=? 58 ^ n) &&
  forallb (fun q => existsb (fun p => leqb (lit p) (repeat 49 zeros ++ map b58_char (front two q))) starts) (numbers V m n two).

Lemma front_digits two ds n : digits 58 ds -> zlen ds = n -> 2 <= n ->
  exists r, ds = front two (be_num 58 ds / 58 ^ (n - width two)) ++ r.
Proof.
  intros D L N. destruct ds as [|d [|e ds]]; [rewrite zlen_nil in L; lia|rewrite zlen_cons, zlen_nil in L; lia|].
  rewrite !zlen_cons in L. inversion D as [|? ? Dd D1]; subst. inversion D1 as [|? ? De D2]; subst.
  destruct two; unfold front, width.
  - exists ds. assert (be_num 58 (d :: e :: ds) / 58 ^ (1 + (1 + zlen ds) - 2) = d * 58 + e) as ->.
    { change (d :: e :: ds) with ([d; e] ++ ds). rewrite be_num_app. change (be_num 58 [d; e]) with (d * 58 + e).
      replace (1 + (1 + zlen ds) - 2) with (zlen ds) by lia. pose proof (be_num_range 58 ds ltac:(lia) D2).
      rewrite Z.div_add_l by lia. rewrite Z.div_small by lia. lia. }
    rewrite Z.div_add_l, (Z.div_small e 58), Z.add_0_r by lia. rewrite Z.add_comm, Z.mod_add, Z.mod_small by lia. reflexivity.
  - exists (e :: ds). cbn [app]. f_equal. change (d :: e :: ds) with ([d] ++ e :: ds). rewrite be_num_app. change (be_num 58 [d]) with d.
    pose proof (be_num_range 58 (e :: ds) ltac:(lia) D1). rewrite zlen_cons in *. replace (1 + (1 + zlen ds) - 1) with (1 + zlen ds) by lia.
    rewrite Z.div_add_l by lia. rewrite Z.div_small by lia. lia.
Qed.

Lemma leqb_true (a b : list Z) : leqb a b = true -> a = b.
Proof. apply leqb_eq. Qed.

Lemma start_sound zeros V m n two starts f rest s : start_ok zeros V m n two starts = true ->
  digits 256 f -> canon f -> f <> [] -> be_num 256 f = V -> digits 256 rest -> zlen rest = m ->
  base58_of (repeat 0 zeros ++ f ++ rest) s -> begins starts (Z.of_nat zeros + n) (Z.of_nat zeros + n) s.
Proof.
  unfold start_ok. rewrite !andb_true_iff, !Z.leb_le, forallb_forall. intros [[[[N M] Lo] Hi] F] Df Cf Nf Ev Dr Lr B.
  assert (canon (f ++ rest)) as Cc by (destruct f; [congruence|exact Cf]).
  assert (digits 256 (f ++ rest)) as Dc by (apply digits_app; auto).
  assert (digits 256 (repeat 0 zeros ++ f ++ rest)) as Db by (apply digits_app; split; [apply digits_zeros; lia|exact Dc]).
  destruct (base58_parts _ _ Db B) as (c & ds & Eb & C & _ & D & Cd & E & Es). rewrite (leading_app zeros _ Cc) in Eb, Es.
  apply app_inv_head in Eb. subst c. rewrite be_num_app, Ev, Lr in E. pose proof (be_num_range 256 rest ltac:(lia) Dr) as R. rewrite Lr in R.
  assert (V * 256 ^ m <= be_num 58 ds < (V + 1) * 256 ^ m) as X by lia.
  assert (zlen ds = n) as L by (apply canon_length; [exact D|exact Cd|lia|lia]).
  unfold begins. norm_spec. rewrite Es, zlen_app. assert (zlen (repeat 49 zeros) = Z.of_nat zeros) as -> by (unfold zlen; rewrite repeat_length; reflexivity).
  assert (zlen (map b58_char ds) = n) as -> by (unfold zlen; rewrite map_length; exact L). split; [|lia].
  destruct (front_digits two ds n D L N) as [r Ed]. set (q := be_num 58 ds / 58 ^ (n - width two)) in *.
  assert (In q (numbers V m n two)) as I.
  { unfold numbers. apply in_map_iff. set (w := 58 ^ (n - width two)). assert (0 < w) as W by (apply Z.pow_pos_nonneg; destruct two; cbn [width]; lia).
    assert (V * 256 ^ m / w <= q) as A1 by (apply Z.div_le_mono; lia). assert (q <= ((V + 1) * 256 ^ m - 1) / w) as A2 by (apply Z.div_le_mono; lia).
    exists (Z.to_nat (q - V * 256 ^ m / w)). split; [lia|]. apply in_seq. lia. }
  specialize (F q I). apply existsb_exists in F. destruct F as (p & Ip & Eq). apply leqb_true in Eq.
  exists p, (map b58_char r). split; [exact Ip|]. rewrite Ed, map_app, app_assoc, <- Eq. reflexivity.
Qed.

(* a zero byte and 24 more *)
Lemma zero_start b s : digits 256 b -> zlen b = 25 -> hd 1 b = 0 -> base58_of b s -> begins ["1"%string] 25 34 s.
Proof.
  intros D L Hd B. destruct (base58_parts _ _ D B) as (c & ds & Eb & C & Dc & Dd & Cd & E & Es).
  assert (1 <= Z.of_nat (leading 0 b)) as Z1. { destruct b as [|x b]; [discriminate Hd|]. cbn [hd] in Hd. subst x. cbn [leading]. rewrite Z.eqb_refl. lia. }
  set (z := leading 0 b) in *. assert (zlen b = Z.of_nat z + zlen c) as L' by (rewrite Eb, zlen_app; unfold zlen at 1; rewrite repeat_length; reflexivity).
  assert (zlen s = Z.of_nat z + zlen ds) as Ls by (rewrite Es, zlen_app; unfold zlen; rewrite repeat_length, map_length; reflexivity).
  split.
  - exists "1"%string, (repeat 49 (z - 1) ++ map b58_char ds). split; [left; reflexivity|]. rewrite Es. destruct z; [lia|]. cbn [repeat].
    replace (S z - 1)%nat with z by lia. reflexivity.
  - norm_spec. rewrite Ls. pose proof (zlen_nonneg c) as Nc. pose proof (zlen_nonneg ds) as Nd.
    pose proof (be_num_range 256 c ltac:(lia) Dc) as [_ Rc]. pose proof (be_num_range 58 ds ltac:(lia) Dd) as [_ Rd].
    destruct c as [|c0 c].
    + change (be_num 256 []) with 0 in E. destruct ds as [|d ds]; [rewrite zlen_nil in *; lia|].
      pose proof (be_num_pos 58 (d :: ds) ltac:(lia) Dd Cd ltac:(discriminate)) as P. rewrite E in P.
      assert (0 < 58 ^ Z.of_nat (length (d :: ds) - 1)) by (apply Z.pow_pos_nonneg; lia). lia.
    + pose proof (be_num_pos 256 (c0 :: c) ltac:(lia) Dc C ltac:(discriminate)) as Pc. set (lc := zlen (c0 :: c)) in *.
      assert (1 <= lc) as Lc by (unfold lc; rewrite zlen_cons; pose proof (zlen_nonneg c); lia).
      replace (Z.of_nat (length (c0 :: c) - 1)) with (lc - 1) in Pc by (unfold lc, zlen; cbn [length]; lia).
      assert (0 < 256 ^ (lc - 1)) by (apply Z.pow_pos_nonneg; lia).
      assert (58 ^ (lc - 1) <= 256 ^ (lc - 1)) as Q by (apply Z.pow_le_mono_l; lia).
      assert (lc - 1 < zlen ds) as LB by (apply (Z.pow_lt_mono_r_iff 58); lia).
      assert (ds <> []) as Nds by (intros ->; rewrite zlen_nil in LB; lia).
      pose proof (be_num_pos 58 ds ltac:(lia) Dd Cd Nds) as Pd. replace (Z.of_nat (length ds - 1)) with (zlen ds - 1) in Pd by (unfold zlen in *; lia).
      assert (256 ^ lc <= 58 ^ (lc + 9)) as K.
      { assert (forallb (fun i => 256 ^ Z.of_nat i <=? 58 ^ (Z.of_nat i + 9)) (seq 0 25) = true) as T by reflexivity.
        rewrite forallb_forall in T. specialize (T (Z.to_nat lc)). rewrite Z2Nat.id in T by lia. apply Z.leb_le, T, in_seq. lia. }
      assert (zlen ds - 1 < lc + 9) as UB by (apply (Z.pow_lt_mono_r_iff 58); lia). lia.
Qed.

(** * The table *)
Definition cell_ok (V : Z) (cell : list string * Z * Z) : bool :=
  let '(starts, lo, hi) := cell in
  if V =? 0 then match starts with [p] => String.eqb p "1" && (lo =? 25) && (hi =? 34) | _ => false end
  else (1 <=? V) && (V <? 65536) && (lo =? hi) && start_ok 0 V 24 lo (256 <=? V) starts.
Definition row_ok (r : string * Z * Z * witness_format) (e : string * (list string * Z * Z) * (list string * Z * Z)) : bool :=
  let '(n, p, q, _) := r in let '(n', a, b) := e in if String.eqb n n' then cell_ok p a && cell_ok q b else false.
Lemma table_ok : forallb (fun r => existsb (row_ok r) address_starts) address_table = true.
Proof. vm_compute. reflexivity. Qed.

Lemma first_four (l : list Z) : zlen l = 32 -> is_bytes l -> digits 256 (firstn 4 l) /\ zlen (firstn 4 l) = 4.
Proof.
  intros L I. apply is_bytes_digits in I. split.
  - rewrite <- (firstn_skipn 4 l) in I. apply digits_app in I. apply I.
  - unfold zlen in *. rewrite firstn_length. lia.
Qed.
Lemma checked H name payload s : hashes_ok H -> base58check_of H name payload s ->
  exists c, digits 256 payload /\ digits 256 c /\ zlen c = 4 /\ base58_of (payload ++ c) s.
Proof.
  intros OK [B E]. destruct (in_dec list_eq_dec_Z name decred_names).
  1: exists (firstn 4 (blake256d H payload)); destruct (first_four (blake256d H payload)) as [F L]; [apply OK|apply OK|].
  2: exists (firstn 4 (sha256d H payload)); destruct (first_four (sha256d H payload)) as [F L]; [apply OK|apply OK|].
  all: split; [apply is_bytes_digits, all_bytes_is_bytes, B|]; auto.
Qed.

Lemma cell_sound H name V cell h s : hashes_ok H -> cell_ok V cell = true -> zlen h = 20 -> base58check_of H name (version_bytes V ++ h) s ->
  let '(starts, lo, hi) := cell in begins starts lo hi s.
Proof.
  intros OK C L B. destruct cell as [[starts lo] hi]. destruct (checked H name _ s OK B) as (c & Dp & Dc & Lc & E). apply digits_app in Dp. destruct Dp as [Dv Dh].
  unfold cell_ok in C. destruct (Z.eqb_spec V 0) as [->|N].
  - destruct starts as [|p [|? ?]]; try discriminate. rewrite !andb_true_iff in C. destruct C as [[C1 C2] C3]. apply String.eqb_eq in C1. apply Z.eqb_eq in C2, C3. subst.
    change (version_bytes 0) with [0] in *. apply (zero_start (([0] ++ h) ++ c) s); [|rewrite !zlen_app, L, Lc; reflexivity|reflexivity|exact E].
    apply digits_app. split; [apply digits_app; auto|exact Dc].
  - rewrite !andb_true_iff in C. destruct C as [[[C1 C2] C3] C4]. apply Z.leb_le in C1. apply Z.ltb_lt in C2. apply Z.eqb_eq in C3. subst hi.
    rewrite <- app_assoc in E.
    apply (start_sound 0 V 24 lo (256 <=? V) starts (version_bytes V) (h ++ c) s C4 Dv); [| | |apply digits_app; auto|rewrite zlen_app; lia|exact E];
      unfold version_bytes in *; destruct (V <? 256) eqn:W.
    + exact N.
    + cbn [canon]. apply Z.ltb_ge in W. assert (1 <= V / 256) by (apply Z.div_le_lower_bound; lia). lia.
    + discriminate.
    + discriminate.
    + reflexivity.
    + change (be_num 256 [V / 256; V mod 256]) with (V / 256 * 256 + V mod 256). pose proof (Z.div_mod V 256). lia.
Qed.

Lemma legacy_looks H name k v h s : hashes_ok H -> is_witness_payment k = false -> legacy_version name k v -> len h = 20 ->
  base58check_of H name (v ++ h) s -> looks name k s.
Proof.
  intros OK K (n & p & q & w & I & -> & ->) L B. pose proof table_ok as T. rewrite forallb_forall in T. specialize (T _ I). apply existsb_exists in T.
  destruct T as ([[n' a] b] & I' & R). unfold row_ok in R. destruct (String.eqb_spec n n') as [<-|]; [|discriminate R]. apply andb_true_iff in R. destruct R as [R2 R3].
  unfold looks. destruct k; try discriminate K; exists n, a, b; (split; [exact I'|]); (split; [reflexivity|]).
  - exact (cell_sound H (lit n) p a h s OK R2 L B).
  - exact (cell_sound H (lit n) q b h s OK R3 L B).
Qed.

(** * The other formats *)
Lemma regroup_count h g : regroup_pad 8 5 h g -> 5 * zlen g - 5 < 8 * zlen h <= 5 * zlen g.
Proof. intros [_ (p & P & E & _)]. lia. Qed.
Lemma bech32_looks k hrp h s : is_witness_payment k = true -> len h = hash_len k -> segwit_address hrp 0 h s ->
  exists r, s = hrp ++ lit "1q" ++ r /\ len s = len hrp + match k with P2WPKH => 40 | _ => 60 end.
Proof.
  intros K L (g & G & (check & _ & Lc & _ & ->) & _). exists (map b32_char (g ++ check)). split; [reflexivity|].
  apply regroup_count in G. norm_spec. revert L. norm_spec. intros L. rewrite !zlen_app. change (zlen (lit "1")) with 1.
  assert (zlen (map b32_char ((0 :: g) ++ check)) = 1 + zlen g + 6) as -> by (unfold zlen; rewrite map_length, app_length; cbn [length]; lia).
  destruct k; try discriminate K; cbn [hash_len] in L; lia.
Qed.
Lemma base58_witness_looks H name k h s : hashes_ok H -> is_witness_payment k = true -> len h = hash_len k ->
  base58check_of H name (0 :: len h :: h) s -> match k with P2WPKH => begins ["19"%string] 35 35 s | _ => begins ["12"%string] 52 52 s end.
Proof.
  intros OK K L B. destruct (checked H name _ s OK B) as (c & Dp & Dc & Lc & E). rewrite L in *.
  assert (digits 256 h) as Dh by (inversion Dp as [|? ? _ D1]; inversion D1; assumption). revert L. norm_spec. intros L.
  destruct k; try discriminate K; cbn [hash_len] in *.
  - apply (start_sound 1 20 24 34 false ["19"%string] [20] (h ++ c) s); [vm_compute; reflexivity|constructor; [lia|constructor]|discriminate|discriminate|reflexivity|
      apply digits_app; auto|rewrite zlen_app; lia|exact E].
  - apply (start_sound 1 32 36 51 false ["12"%string] [32] (h ++ c) s); [vm_compute; reflexivity|constructor; [lia|constructor]|discriminate|discriminate|reflexivity|
      apply digits_app; auto|rewrite zlen_app; lia|exact E].
Qed.
Lemma cash_first kind h g : kind = 0 \/ kind = 8 -> digits 256 h -> zlen h = 20 \/ zlen h = 32 -> regroup_pad 8 5 (kind :: h) g ->
  exists r, g = kind / 8 :: r.
Proof.
  intros K D L [G (p & P & E & V)]. rewrite zlen_cons in E. destruct g as [|d r]; [change (zlen (@nil Z)) with 0 in E; lia|]. exists r. f_equal.
  rewrite zlen_cons in E. assert (digits 32 r) as Dr by (inversion G; assumption).
  change (2 ^ 5) with 32 in V. change (2 ^ 8) with 256 in V. rewrite !be_num_cons in V.
  pose proof (be_num_range 256 h ltac:(lia) D) as R1. pose proof (be_num_range 32 r ltac:(lia) Dr) as R2.
  destruct L as [L|L]; rewrite L in *.
  - assert (zlen r = 33) as Lr by lia. assert (p = 2) as -> by lia. rewrite Lr in *. change (2 ^ 2) with 4 in V.
    change (256 ^ 20) with (2 ^ 160) in *. change (32 ^ 33) with (32 * 2 ^ 160) in *. destruct K as [->| ->]; [change (0 / 8) with 0|change (8 / 8) with 1]; nia.
  - assert (zlen r = 52) as Lr by lia. assert (p = 1) as -> by lia. rewrite Lr in *. change (2 ^ 1) with 2 in V.
    change (256 ^ 32) with (2 ^ 256) in *. change (32 ^ 52) with (16 * 2 ^ 256) in *. destruct K as [->| ->]; [change (0 / 8) with 0|change (8 / 8) with 1]; nia.
Qed.
Lemma cash_looks_lemma p k h s : all_bytes h -> len h = hash_len k -> cashaddr_of p (cash_kind k :: h) s -> cash_looks p k s.
Proof.
  intros B L (g & check & G & Lc & _ & _ & ->). apply all_bytes_is_bytes, is_bytes_digits in B. revert L. norm_spec. intros L.
  assert (exists r, g = cash_kind k / 8 :: r) as [r ->].
  { apply (cash_first _ h); [destruct k; auto|exact B|destruct k; cbn [hash_len] in L; auto|exact G]. }
  exists (map b32_char (r ++ check)). split; [destruct k; reflexivity|]. apply regroup_count in G. norm_spec. rewrite !zlen_app.
  change (zlen (lit ":")) with 1. assert (zlen (map b32_char ((cash_kind k / 8 :: r) ++ check)) = 1 + zlen r + 8) as -> by (unfold zlen; rewrite map_length, app_length; cbn [length]; lia).
  rewrite !zlen_cons in G. destruct k; cbn [hash_len] in L; lia.
Qed.

Lemma network_looks H name k h s : hashes_ok H -> len h = hash_len k -> network_address H name k h s -> looks name k s.
Proof.
  intros OK L N. destruct k; cbn [network_address] in N.
  1: destruct N as (v & V & B); exact (legacy_looks H name P2PKH v h s OK eq_refl V L B).
  1: destruct N as (v & V & B); exact (legacy_looks H name P2SH v h s OK eq_refl V L B).
  all: destruct N as (w & W & N); cbn [looks]; exists w; (split; [exact W|]); destruct w; [exact N|..].
  - exact (bech32_looks P2WPKH _ h s eq_refl L N).
  - exact (base58_witness_looks H name P2WPKH h s OK eq_refl L N).
  - exact (bech32_looks P2WSH _ h s eq_refl L N).
  - exact (base58_witness_looks H name P2WSH h s OK eq_refl L N).
Qed.
Lemma written_looks H name net k h c s : hashes_ok H -> get_network name = Ok net -> all_bytes h -> len h = hash_len k ->
  from_output_script H net (template k h) c = Ok (Some s) ->
  (exists p, c = true /\ cash_network name p /\ cash_looks p k s) \/
  ((c = false \/ forall p, ~ cash_network name p) /\ looks name k s).
Proof.
  intros OK En B L E. apply (written_iff H name net k h c s OK En B L) in E. destruct E as [(p & C & N & A)|[C N]].
  - left. exists p. split; [exact C|]. split; [exact N|]. exact (cash_looks_lemma p k h s B L A).
  - right. split; [exact C|]. exact (network_looks H name k h s OK L N).
Qed.

(** * Texts that are read *)
Lemma lower_len s : zlen (lower s) = zlen s.
Proof. unfold lower, zlen. rewrite map_length. reflexivity. Qed.
Lemma bech32_one_byte name k v q : legacy_version name k v -> witness_addresses name (bech32_witness q) -> exists x, v = [x].
Proof.
  assert (forallb (fun r => match r with (_, p, q, bech32_witness _) => (p <? 256) && (q <? 256) | _ => true end) address_table = true) as T by (vm_compute; reflexivity).
  intros (n & p & r & w & I & E & ->) (n' & p' & r' & I' & E'). pose proof (row_fun name _ _ _ _ _ _ _ _ I I' E E') as F. injection F as <- <- <- ->.
  rewrite forallb_forall in T. specialize (T _ I). cbn beta iota in T. apply andb_true_iff in T. destruct T as [T1 T2]. unfold version_bytes.
  destruct k; rewrite ?T1, ?T2; eauto.
Qed.
Lemma late_bech32 hrp w prog s : zlen prog = 19 -> segwit_address hrp w prog (lower s) ->
  exists r, lower s = hrp ++ lit "1" ++ b32_char w :: r /\ zlen s = zlen hrp + 39.
Proof.
  intros L (g & G & (check & _ & Lc & _ & E) & _). exists (map b32_char (g ++ check)). split; [exact E|].
  rewrite <- lower_len, E. apply regroup_count in G. rewrite !zlen_app. change (zlen (lit "1")) with 1.
  assert (zlen (map b32_char ((w :: g) ++ check)) = 1 + zlen g + 6) as -> by (unfold zlen; rewrite map_length, app_length; cbn [length]; lia). lia.
Qed.
Lemma read_looks H name net s script : hashes_ok H -> get_network name = Ok net -> (forall p, ~ cash_network name p) ->
  to_output_script H net s = Ok script ->
  exists k h, script = template k h /\ all_bytes h /\ len h = hash_len k /\ reads_like name k s.
Proof.
  intros OK En NC E. destruct (c14_exact_lemma H name net s script OK En E) as (k & v & h & -> & L & B & Iv & T).
  exists k, h. split; [reflexivity|]. split; [exact B|]. split; [exact L|].
  assert (CASHADDR_PREFIX net = None) as NP.
  { pose proof (cash_known name net En) as C. unfold cash_is in C. destruct (CASHADDR_PREFIX net) as [p|]; [|reflexivity]. exfalso.
    apply existsb_exists in C. destruct C as ([n q] & I & C). apply andb_true_iff in C. destruct C as [C1 C2]. apply leqb_eq in C1, C2. cbn [fst snd] in *.
    apply (NC p). exists n, q. auto. }
  assert (versions net P2PKH = [P2PKH_PREFIX net] /\ versions net P2SH = [P2SH_PREFIX net]) as [V1 V2].
  { cbn [versions]. destruct (sh_cash _ _ (shapes name net En)) as [[-> [-> _]]|[_ [_ [[p P] _]]]]; [auto|congruence]. }
  destruct (versions_known H name net OK En) as [K1 K2].
  assert (is_witness_payment k = false -> legacy_version name k v) as Kv.
  { intros W. destruct k; try discriminate W; rewrite ?V1, ?V2 in Iv; destruct Iv as [<-|[]]; assumption. }
  destruct T as [T|hrp w prog Enc Hrp Ep WP One Seg|p suffix values P _ _ _ _].
  - destruct k; cbn [reads_like]; left.
    + exact (legacy_looks H name P2PKH v h s OK eq_refl (Kv eq_refl) L T).
    + exact (legacy_looks H name P2SH v h s OK eq_refl (Kv eq_refl) L T).
    + cbn [versions] in Iv. destruct Iv as [<-|[]]. apply (base58_witness_looks H name P2WPKH h s OK eq_refl L). rewrite L. exact T.
    + cbn [versions] in Iv. destruct Iv as [<-|[]]. apply (base58_witness_looks H name P2WSH h s OK eq_refl L). rewrite L. exact T.
  - assert (exists q, hrp = lit q /\ witness_addresses name (bech32_witness q)) as (q & -> & W).
    { destruct (row_exists name net En) as [[[[n pp] qq] w'] [I R]]. unfold row_is in R. rewrite !andb_true_iff in R. destruct R as [[[R1 _] _] R]. apply leqb_eq in R1.
      rewrite Hrp, Enc in R. destruct w'; try discriminate R. apply andb_true_iff in R. destruct R as [R _]. apply leqb_eq in R. exists hrp0. split; [exact R|]. exists n, pp, qq. auto. }
    assert (is_witness_payment k = false -> len h = 20 -> exists hrp v r, witness_addresses name (bech32_witness hrp) /\ legacy_version name k [v] /\ 1 <= v <= 16 /\ one_case s /\
      lower s = lit hrp ++ lit "1" ++ b32_char v :: r /\ len s = len (lit hrp) + 39) as Late.
    { intros Wk L20. specialize (Kv Wk). destruct (bech32_one_byte name k v q Kv W) as [x ->]. cbn [app] in Ep. unfold witness_bytes in Ep. injection Ep as -> ->.
      destruct WP as [R [_ [_ Z0]]]. revert L20 Z0. norm_spec. rewrite zlen_cons. intros L20 Z0.
      destruct (late_bech32 (lit q) w prog s ltac:(lia) Seg) as [r [E1 E2]].
      exists q, w, r. split; [exact W|]. split; [exact Kv|]. split; [lia|]. split; [exact One|]. split; [exact E1|]. norm_spec. exact E2. }
    destruct k; cbn [reads_like].
    + right. exact (Late eq_refl L).
    + right. exact (Late eq_refl L).
    + right. split; [exact One|]. cbn [versions] in Iv. destruct Iv as [<-|[]]. cbn [app] in Ep. unfold witness_bytes in Ep. injection Ep as <- _ <-.
      exists (bech32_witness q). split; [exact W|]. exact (bech32_looks P2WPKH (lit q) h _ eq_refl L Seg).
    + right. split; [exact One|]. cbn [versions] in Iv. destruct Iv as [<-|[]]. cbn [app] in Ep. unfold witness_bytes in Ep. injection Ep as <- _ <-.
      exists (bech32_witness q). split; [exact W|]. exact (bech32_looks P2WSH (lit q) h _ eq_refl L Seg).
  - congruence.
Qed.

(* CashAddr *)
Lemma leading_first values v rest : Forall gf values -> all_bytes (v :: rest) -> leading_bytes values (v :: rest) -> exists r, values = v / 8 :: r.
Proof.
  intros G B (_ & Le & V). revert Le V. norm_spec. rewrite zlen_cons. intros Le V. pose proof (zlen_nonneg rest) as N0.
  destruct values as [|d r]; [change (@zlen Z []) with 0 in Le; lia|]. exists r. f_equal.
  rewrite zlen_cons in *. pose proof (zlen_nonneg r) as N1. apply all_bytes_is_bytes, is_bytes_digits in B.
  assert (digits 256 rest) as Dr by (inversion B; assumption).
  assert (digits 32 r) as D32 by (inversion G as [|? ? _ G']; subst; revert G'; apply Forall_impl; unfold gf; lia).
  pose proof (be_num_range 256 rest ltac:(lia) Dr) as R1. pose proof (be_num_range 32 r ltac:(lia) D32) as R2.
  rewrite !be_num_cons in V.
  assert (v = (v * 256 ^ zlen rest + be_num 256 rest) / 256 ^ zlen rest) as E1 by (apply (Z.div_unique_pos _ _ _ (be_num 256 rest)); lia).
  assert (d = (d * 32 ^ zlen r + be_num 32 r) / 32 ^ zlen r) as E2 by (apply (Z.div_unique_pos _ _ _ (be_num 32 r)); lia).
  rewrite V in E1. rewrite E1, E2 at 1. change 256 with (2 ^ 8). change 32 with (2 ^ 5) in *.
  rewrite <- !Z.pow_mul_r in * by lia. change 8 with (2 ^ 3) at 3.
  rewrite !Z.div_div by (try apply Z.pow_nonzero; try apply Z.pow_pos_nonneg; lia).
  f_equal. rewrite <- !Z.pow_add_r by lia. f_equal. lia.
Qed.
Lemma cash_versions name net p : get_network name = Ok net -> cash_network name p ->
  BECH32_HRP net = None /\ versions net P2PKH = [P2PKH_PREFIX net; [0]] /\ versions net P2SH = [P2SH_PREFIX net; [8]] /\
  (exists a, P2PKH_PREFIX net = [a]) /\ (exists b, P2SH_PREFIX net = [b]).
Proof.
  intros En (n & q & I & -> & _). unfold cash_table in I. cbn [In] in I. destruct I as [I|[I|[I|[]]]]; injection I as <- <-; vm_compute in En; injection En as <-;
    (split; [reflexivity|]; split; [reflexivity|]; split; [reflexivity|]; split; eexists; reflexivity).
Qed.
Lemma cash_text_looks p suffix values s v rest : cashaddr_text (p ++ suffix) values s -> leading_bytes values (v :: rest) ->
  len (v :: rest) = Z.max 0 ((5 * len values + 7) / 8 - 6) -> exists r, s = (p ++ suffix) ++ lit ":" ++ b32_char (v / 8) :: r /\
    8 * len rest + 44 <= 5 * len r <= 8 * len rest + 51.
Proof.
  intros (G & _ & ->) B L. destruct (leading_first values v rest G (proj1 B) B) as [r ->]. exists (map b32_char r). split; [reflexivity|].
  revert L. norm_spec. rewrite !zlen_cons. assert (zlen (map b32_char r) = zlen r) as -> by (unfold zlen; rewrite map_length; reflexivity).
  intros L. pose proof (zlen_nonneg rest). pose proof (zlen_nonneg r).
  pose proof (Z.div_mod (5 * (1 + zlen r) + 7) 8 ltac:(lia)) as D. pose proof (Z.mod_pos_bound (5 * (1 + zlen r) + 7) 8 ltac:(lia)). lia.
Qed.
Lemma cash_read_looks H name net p s script : hashes_ok H -> get_network name = Ok net -> cash_network name p ->
  to_output_script H net s = Ok script ->
  exists k h, script = template k h /\ all_bytes h /\ len h = hash_len k /\ cash_reads_like name p k s.
Proof.
  intros OK En C E. destruct (c14_exact_lemma H name net s script OK En E) as (k & v & h & -> & L & B & Iv & T).
  exists k, h. split; [reflexivity|]. split; [exact B|]. split; [exact L|].
  destruct (cash_versions name net p En C) as (NB & V1 & V2 & (a & A) & (b & Bb)).
  destruct (versions_known H name net OK En) as [K1 K2].
  pose proof (cash_some H name net OK En p C) as PC.
  destruct T as [T|hrp w prog _ Hrp _ _ _ _|p' suffix values P' Ns Tx Lb Ln]; [| |assert (p' = p) as -> by congruence].
  - left. destruct k; rewrite ?V1, ?V2 in Iv.
    + destruct Iv as [<-|[<-|[]]]; [left; exact (legacy_looks H name P2PKH _ h s OK eq_refl K1 L T)|right].
      exact (cell_sound H name 0 (["1"%string], 25, 34) h s OK eq_refl L T).
    + destruct Iv as [<-|[<-|[]]]; [left; exact (legacy_looks H name P2SH _ h s OK eq_refl K2 L T)|right].
      apply (cell_sound H name 8 (["4"%string], 34, 34) h s OK); [vm_compute; reflexivity|exact L|exact T].
    + cbn [versions] in Iv. destruct Iv as [<-|[]]. apply (base58_witness_looks H name P2WPKH h s OK eq_refl L). rewrite L. exact T.
    + cbn [versions] in Iv. destruct Iv as [<-|[]]. apply (base58_witness_looks H name P2WSH h s OK eq_refl L). rewrite L. exact T.
  - congruence.
  - right. exists suffix.
    assert (exists v0 rest, v ++ h = v0 :: rest /\ match k with
      | P2PKH | P2SH => (v0 = cash_kind k \/ legacy_version name k [v0]) /\ len rest = 20
      | P2WPKH => v0 = 0 /\ len rest = 21 | P2WSH => v0 = 0 /\ len rest = 33 end) as (v0 & rest & Ev & K).
    { destruct k; rewrite ?V1, ?V2 in Iv; cbn [hash_len] in L.
      - destruct Iv as [<-|[<-|[]]]; [rewrite A in *; exists a, h|exists 0, h]; (split; [reflexivity|]); (split; [|exact L]); auto.
      - destruct Iv as [<-|[<-|[]]]; [rewrite Bb in *; exists b, h|exists 8, h]; (split; [reflexivity|]); (split; [|exact L]); auto.
      - cbn [versions] in Iv. destruct Iv as [<-|[]]. exists 0, (20 :: h). split; [reflexivity|]. split; [reflexivity|]. revert L. norm_spec. rewrite zlen_cons. lia.
      - cbn [versions] in Iv. destruct Iv as [<-|[]]. exists 0, (32 :: h). split; [reflexivity|]. split; [reflexivity|]. revert L. norm_spec. rewrite zlen_cons. lia. }
    rewrite Ev in Lb, Ln. destruct (cash_text_looks p suffix values s v0 rest Tx Lb Ln) as (r & Es & Lr).
    exists v0, r. split; [exact Ns|]. split; [exact Es|]. destruct k; destruct K as [K Lk]; (split; [exact K|lia]).
Qed.
