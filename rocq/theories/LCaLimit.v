(* What the cashaddr checksum cannot notice *)
From Coq Require Import ZifyBool ZifyNat String.
From Verif Require Import Py LBase MNet MUtils MBech32 MCashaddr SNum SNet SBase58 SBits SBch SBech32 SCashaddr
  LNet LUtils LBase58 LBits LBch LBchErr LBech32 LCashaddr LBurst.
Open Scope list_scope.
Open Scope Z_scope.

Lemma accept_codeword name net p x v : get_network name = Ok net -> CASHADDR_PREFIX net = Some p -> ~ In 58 x ->
  gfs v -> codeword cashaddr_g (cashaddr_prefix_values (p ++ x) ++ v) ->
  exists b, cashaddr_decode net ((p ++ x) ++ lit ":" ++ map b32_char v) = Ok b.
Proof.
  intros En Ep Nx G V.
  destruct (ca_decode_cases name net p ((p ++ x) ++ lit ":" ++ map b32_char v) En Ep) as [[? [? [b [E _]]]]|[_ N]].
  - exists b. exact E.
  - exfalso. apply (N x v Nx). split; [exact G|]. split; [exact V|reflexivity].
Qed.

Lemma poly_add_cancel a b : length a = length b -> poly_add a (poly_add a b) = b.
Proof.
  intros L. rewrite poly_add_assoc, poly_add_self, poly_add_comm, L. apply poly_add_zero_r.
Qed.

Lemma weight_app a b : weight (a ++ b) = (weight a + weight b)%nat.
Proof. unfold weight. rewrite filter_app, app_length. reflexivity. Qed.
Lemma weight_zeros k : weight (repeat 0 k) = 0%nat.
Proof. induction k as [|k IH]; [reflexivity|]. exact IH. Qed.

(* a word of residue zero can be added to the end of every accepted text *)
Lemma blind_word name net P t b e : get_network name = Ok net -> ~ In 58 P ->
  gfs e -> fold_left (poly_push cashaddr_g) e (zeros 7) = zeros 7 -> (length e <= length t)%nat ->
  cashaddr_decode net (P ++ lit ":" ++ t) = Ok b ->
  exists t' b', length t' = length t /\ hamming t t' = weight e /\ cashaddr_decode net (P ++ lit ":" ++ t') = Ok b'.
Proof.
  intros En NP Ge Z L D.
  destruct (CASHADDR_PREFIX net) as [p|] eqn:Ep; [|unfold cashaddr_decode in D; rewrite Ep in D; discriminate].
  destruct (ca_text_under net name p P t b En Ep NP D) as [x [v [-> [Nx [-> [G [V _]]]]]]].
  rewrite map_length in L. set (k := (length v - length e)%nat). set (w := repeat 0 k ++ e).
  assert (length w = length v) as Lw by (unfold w; rewrite app_length, repeat_length; lia).
  assert (gfs w) as Gw by (apply Forall_app; split; [apply gfs_repeat0|exact Ge]).
  set (v' := poly_add v w).
  assert (gfs v') as G' by (apply poly_add_gfs; assumption).
  assert (length v' = length v) as L' by (unfold v'; rewrite poly_add_length; congruence).
  destruct (accept_codeword name net p x v' En Ep Nx G') as [b' D'].
  { unfold codeword, poly_residue in *. set (u := cashaddr_prefix_values (p ++ x)) in *.
    pose proof (fold_push_add cashaddr_g 7 eq_refl (mul_closed_of _ cashaddr_g_gfs) cashaddr_g_inv
      (u ++ v) (repeat 0 (length u) ++ w) (poly_one cashaddr_g) (zeros 7) eq_refl eq_refl
      ltac:(rewrite !app_length, repeat_length; lia)) as F.
    rewrite V in F. unfold w in F at 2. rewrite !(fold_left_app _ (repeat 0 _)) in F.
    rewrite !(fold_zero_state cashaddr_g 7 eq_refl (mul_closed_of _ cashaddr_g_gfs) cashaddr_g_inv), Z in F.
    rewrite poly_add_app, poly_add_zero_r in F by (rewrite repeat_length; reflexivity). exact F. }
  exists (map b32_char v'), b'. split; [rewrite !map_length; exact L'|]. split; [|exact D'].
  rewrite hamming_b32 by (try assumption; congruence). rewrite <- hamming_weight by congruence.
  unfold v'. rewrite poly_add_cancel by congruence. unfold w. rewrite weight_app, weight_zeros. reflexivity.
Qed.

(* the word with the values at the places, places counted from the end *)
Definition word (n : nat) (ts : list (nat * Z)) : list Z :=
  map (fun i => match List.find (fun t => Nat.eqb (fst t) (n - 1 - i)) ts with Some t => snd t | None => 0 end) (seq 0 n).

Definition six : list Z := word 36 [(0%nat, 1); (1%nat, 18); (5%nat, 4); (16%nat, 24); (30%nat, 9); (35%nat, 22)].
Definition five : list Z := word 224 [(0%nat, 1); (1%nat, 18); (104%nat, 28); (182%nat, 22); (223%nat, 23)].
Definition two : list Z := word 1026 [(0%nat, 1); (1025%nat, 1)].

Definition blind (e : list Z) : bool :=
  forallb (fun c => (0 <=? c) && (c <? 32)) e && leqb (fold_left (poly_push cashaddr_g) e (zeros 7)) (zeros 7).
Lemma blind_spec e : blind e = true -> gfs e /\ fold_left (poly_push cashaddr_g) e (zeros 7) = zeros 7.
Proof.
  intros B. apply andb_prop in B. destruct B as [B1 B2]. apply leqb_eq in B2. split; [|exact B2].
  apply Forall_forall. intros c I. rewrite forallb_forall in B1. specialize (B1 c I). unfold gf. lia.
Qed.

Lemma blind_words : blind six && blind five && blind two = true /\
  weight six = 6%nat /\ weight five = 5%nat /\ weight two = 2%nat.
Proof. vm_compute. auto. Qed.

Lemma unnoticed_lemma name net P t b k : get_network name = Ok net -> ~ In 58 P ->
  (k = 6 /\ 36 <= length t \/ k = 5 /\ 224 <= length t \/ k = 2 /\ 1026 <= length t)%nat ->
  cashaddr_decode net (P ++ lit ":" ++ t) = Ok b ->
  exists t' b', length t' = length t /\ hamming t t' = k /\ cashaddr_decode net (P ++ lit ":" ++ t') = Ok b'.
Proof.
  intros En NP K D. destruct blind_words as [B [W6 [W5 W2]]].
  apply andb_prop in B. destruct B as [B B2]. apply andb_prop in B. destruct B as [B6 B5].
  apply blind_spec in B2, B5, B6.
  destruct K as [[-> K]|[[-> K]|[-> K]]]; [rewrite <- W6|rewrite <- W5|rewrite <- W2].
  - apply (blind_word name net P t b six En NP (proj1 B6) (proj2 B6)); [|exact D]. exact K.
  - apply (blind_word name net P t b five En NP (proj1 B5) (proj2 B5)); [|exact D]. exact K.
  - apply (blind_word name net P t b two En NP (proj1 B2) (proj2 B2)); [|exact D].
    unfold two, word. rewrite map_length, seq_length. exact K.
Qed.
