(* Addresses that are read and written back *)
From Coq Require Import ZifyBool ZifyNat String.
From Verif Require Import Py LBase MNet MUtils MBech32 MCashaddr MAddr SNum SHash SNet SBase58 SBits SBch SBech32 SCashaddr SAddr SParams SBack
  LNet LUtils LBase58 LBits LBch LBech32 LCashaddr LAddr LParams LBurst LPaid.
Open Scope list_scope.
Open Scope Z_scope.
Ltac Zify.zify_post_hook ::= idtac.

Lemma hrp_printable name net hrp : get_network name = Ok net -> witness_addresses name (bech32_witness hrp) -> printable (lit hrp).
Proof.
  intros En [n [p [q [I _]]]].
  assert (forallb (fun r => match snd r with bech32_witness h => forallb (fun c => (33 <=? c) && (c <=? 126)) (lit h) | _ => true end) address_table = true) as B
    by (vm_compute; reflexivity).
  rewrite forallb_forall in B. specialize (B _ I). cbn [snd] in B. apply Forall_forall. intros c J. rewrite forallb_forall in B. specialize (B c J). lia.
Qed.

Lemma network_address_fun H name net k h s t : get_network name = Ok net ->
  network_address H name k h s -> network_address H name k h t -> s = t.
Proof.
  intros En A B. destruct (c58_unique_lemma name net En) as [_ [Vu Wu]].
  destruct k; cbn [network_address] in A, B.
  1, 2: destruct A as [v [V [_ A]]], B as [w [W [_ B]]]; rewrite (Vu _ _ _ V W) in A; exact (base58_of_unique _ _ _ A B).
  1, 2: destruct A as [v [V A]], B as [w [W B]]; rewrite (Wu _ _ V W) in A; destruct w as [|hrp|]; [destruct A| |];
    [exact (segwit_address_unique _ _ _ _ _ (hrp_printable _ _ _ En W) A B)|destruct A as [_ A], B as [_ B]; exact (base58_of_unique _ _ _ A B)].
Qed.

Lemma cash_fun name p q : cash_network name p -> cash_network name q -> p = q.
Proof.
  intros [n [x [I [-> ->]]]] [m [y [J [E ->]]]].
  assert (forallb (fun a => forallb (fun b => negb (leqb (lit (fst a)) (lit (fst b))) || leqb (lit (snd a)) (lit (snd b))) cash_table) cash_table = true) as B
    by (vm_compute; reflexivity).
  rewrite forallb_forall in B. specialize (B _ I). cbn beta in B. rewrite forallb_forall in B. specialize (B _ J). cbn [fst snd] in B.
  rewrite E, leqb_refl in B. cbn [negb orb] in B. apply leqb_eq, B.
Qed.

Lemma own_text_fun H name net c k h s t : get_network name = Ok net -> own_text H name c k h s -> own_text H name c k h t -> s = t.
Proof.
  intros En [[p [Ec [P A]]]|[N A]] [[q [Ec' [Q B]]]|[N' B]].
  - rewrite (cash_fun _ _ _ P Q) in A. exact (cashaddr_of_unique _ _ _ _ A B).
  - exfalso. destruct N' as [N'|N']; [congruence|exact (N' _ P)].
  - exfalso. destruct N as [N|N]; [congruence|exact (N _ Q)].
  - exact (network_address_fun H name net k h s t En A B).
Qed.

Lemma written_lemma H name net k h c : hashes_ok H -> get_network name = Ok net -> all_bytes h -> len h = hash_len k ->
  (exists s, forall s', (from_output_script H net (template k h) c = Ok (Some s') <-> s' = s) /\ (own_text H name c k h s' <-> s' = s)) \/
  (from_output_script H net (template k h) c = Err ValueError /\ (forall s', ~ own_text H name c k h s') /\
   is_witness_payment k = true /\ witness_addresses name no_witness /\ (c = false \/ forall p, ~ cash_network name p)).
Proof.
  intros K En B L. destruct (c58_script_lemma H name net k h c K En B L) as [[p [s [Ec [P [E A]]]]]|[N [[s [E A]]|[Wk [W E]]]]].
  - left. exists s. intros s'. assert (own_text H name c k h s) as O by (left; eauto). rewrite E. split; split.
    + intros Q. injection Q as ->. reflexivity.
    + intros ->. reflexivity.
    + intros O'. exact (own_text_fun _ _ _ _ _ _ _ _ En O' O).
    + intros ->. exact O.
  - left. exists s. intros s'. assert (own_text H name c k h s) as O by (right; auto). rewrite E. split; split.
    + intros Q. injection Q as ->. reflexivity.
    + intros ->. reflexivity.
    + intros O'. exact (own_text_fun _ _ _ _ _ _ _ _ En O' O).
    + intros ->. exact O.
  - right. split; [exact E|]. split; [|auto]. intros s' [[p [Ec [P _]]]|[_ A]].
    + destruct N as [N|N]; [congruence|exact (N _ P)].
    + destruct k; try discriminate Wk; destruct A as [w [V A]]; destruct (c58_unique_lemma name net En) as [_ [_ Wu]];
      rewrite (Wu _ _ V W) in A; exact A.
Qed.

Lemma written_iff H name net k h c s : hashes_ok H -> get_network name = Ok net -> all_bytes h -> len h = hash_len k ->
  from_output_script H net (template k h) c = Ok (Some s) <-> own_text H name c k h s.
Proof.
  intros K En B L. destruct (written_lemma H name net k h c K En B L) as [[t X]|[E [N _]]].
  - destruct (X s) as [-> ->]. tauto.
  - rewrite E. split; [discriminate|]. intros O. destruct (N _ O).
Qed.

Lemma written_back_lemma H name net s script c : hashes_ok H -> get_network name = Ok net ->
  to_output_script H net s = Ok script ->
  exists k h, script = template k h /\ all_bytes h /\ len h = hash_len k /\
    (forall s', from_output_script H net script c = Ok (Some s') <-> own_text H name c k h s') /\
    (from_output_script H net script c = Err ValueError <->
     is_witness_payment k = true /\ witness_addresses name no_witness /\ (c = false \/ forall p, ~ cash_network name p)).
Proof.
  intros K En T. destruct (c14_exact_lemma H name net s script K En T) as [k [v [h [-> [L [B _]]]]]].
  exists k, h. repeat split; try assumption.
  - apply (written_iff H name net k h c s' K En B L).
  - apply (written_iff H name net k h c s' K En B L).
  - destruct (written_lemma H name net k h c K En B L) as [[t X]|[_ [_ [Wk _]]]]; [|exact Wk].
    destruct (X t) as [Y _]. rewrite (proj2 Y eq_refl) in *. discriminate.
  - destruct (written_lemma H name net k h c K En B L) as [[t X]|[_ [_ [_ [W _]]]]]; [|exact W].
    destruct (X t) as [Y _]. rewrite (proj2 Y eq_refl) in *. discriminate.
  - destruct (written_lemma H name net k h c K En B L) as [[t X]|[_ [_ [_ [_ N]]]]]; [|exact N].
    destruct (X t) as [Y _]. rewrite (proj2 Y eq_refl) in *. discriminate.
  - intros [Wk [W N]]. destruct (written_lemma H name net k h c K En B L) as [[t X]|[E _]]; [|exact E]. exfalso.
    destruct (X t) as [_ [_ O]]. specialize (O eq_refl). destruct O as [[p [Ec [P _]]]|[_ A]].
    + destruct N as [N|N]; [congruence|exact (N _ P)].
    + destruct k; try discriminate Wk; destruct A as [w [V A]]; destruct (c58_unique_lemma name net En) as [_ [_ Wu]];
      rewrite (Wu _ _ V W) in A; exact A.
Qed.

Lemma settles_lemma H name net c script s script' : hashes_ok H -> get_network name = Ok net -> all_bytes script ->
  from_output_script H net script c = Ok (Some s) -> to_output_script H net s = Ok script' ->
  from_output_script H net script' c = Ok (Some s).
Proof.
  intros K En B F T. destruct (c15_cases_lemma H name net script c K En B) as [[k [h [Bh [Lh [_ E]]]]]|[E _]]; [|congruence].
  rewrite E in F. clear E B script.
  destruct (in_dec list_eq_dec_Z name segwit_names) as [I|N].
  { destruct (c15_partial_lemma H name net k h s c K En Bh Lh (fun _ => I) F) as [_ U]. rewrite (U _ T). exact F. }
  destruct (is_witness_payment k) eqn:Wk.
  - destruct (c15_unsupported_lemma H name net k h c K En Bh Lh Wk N) as [E|[-> [p [t [Ep [A E]]]]]]; [congruence|].
    rewrite E in F. injection F as ->.
    destruct k; try discriminate Wk.
    + assert (from_output_script H net (template P2PKH h) true = Ok (Some s)) as F.
      { apply (written_iff H name net P2PKH h true s K En Bh Lh). apply (written_iff H name net P2WPKH h true s K En Bh Lh) in E.
        destruct E as [[q [_ [Q E]]]|[[X|X] Y]]; [left; eauto|discriminate X|exfalso].
        pose proof (cash_none H name net K En X). congruence. }
      destruct (c15_partial_lemma H name net P2PKH h s true K En Bh Lh ltac:(discriminate) F) as [_ U]. rewrite (U _ T). exact F.
    + exfalso. destruct A as [d [ck [R [Lc [G [_ ->]]]]]]. destruct (good_prefixes _ _ _ En Ep) as [N58 _].
      destruct (paid_lengths_lemma H name net p _ script' K En N58 T) as [k' [h' [_ [_ M]]]].
      destruct R as [_ [x [X [Y _]]]]. revert M X Y Lh. norm_spec. cbn [hash_len]. rewrite zlen_map, zlen_app, zlen_cons.
      unfold zlen. rewrite Lc. destruct k'; lia.
  - destruct (c15_partial_lemma H name net k h s c K En Bh Lh ltac:(congruence) F) as [_ U]. rewrite (U _ T). exact F.
Qed.

Lemma legacy_back_lemma H name net k v h s c : hashes_ok H -> get_network name = Ok net ->
  is_witness_payment k = false -> legacy_version name k v -> len h = 20 -> base58check_of H name (v ++ h) s ->
  to_output_script H net s = Ok (template k h) /\
  (from_output_script H net (template k h) c = Ok (Some s) <-> c = false \/ forall p, ~ cash_network name p).
Proof.
  intros K En Wk V L A. assert (all_bytes h) as B by (destruct A as [A _]; apply Forall_app in A; apply A).
  assert (len h = hash_len k) as L' by (destruct k; try discriminate Wk; exact L).
  destruct (c58_unique_lemma name net En) as [_ [Vu _]]. destruct (versions_known H name net K En) as [P Q]. split.
  - apply (base58_pays H name net s k v h K En); [|exact L'|exact A].
    destruct k; try discriminate Wk; cbn [versions]; left; [apply (Vu P2PKH)|apply (Vu P2SH)]; assumption.
  - rewrite (written_iff H name net k h c s K En B L'). split.
    + intros [[p [_ [_ [d [ck [_ [_ [_ [_ E]]]]]]]]]|[N _]]; [exfalso|exact N].
      apply (no_colon_base58 H name net K En _ _ A). rewrite E. apply in_or_app. right. left. reflexivity.
    + intros N. right. split; [exact N|]. destruct k; try discriminate Wk; exists v; auto.
Qed.

Lemma bech32_back_lemma H name net k hrp h s c script : hashes_ok H -> get_network name = Ok net ->
  is_witness_payment k = true -> witness_addresses name (bech32_witness hrp) -> all_bytes h -> len h = hash_len k ->
  segwit_address (lit hrp) 0 h (lower s) -> to_output_script H net s = Ok script ->
  script = template k h /\ from_output_script H net script c = Ok (Some (lower s)).
Proof.
  intros K En Wk W B L A T. destruct (witness_known H name net K En _ W) as [_ [Ee Eh]].
  destruct (c14_exact_lemma H name net s script K En T) as [k' [v' [h' [-> [L' [B' [I' T']]]]]]].
  assert (~ In 58 s) as NC.
  { apply (bech32_no_colon (lit hrp) 0 h s); [|exact A].
    pose proof (hrp_clean name net En) as C. rewrite Eh in C. intros Q. apply zmem_In in Q. congruence. }
  assert (witness_program 0 h) as Wp.
  { split; [lia|]. split; [exact B|]. destruct k; try discriminate Wk; cbn [hash_len] in L; lia. }
  assert (template k' h' = template k h) as E.
  { apply (pays_fun name net (v' ++ h') _ _ (shapes name net En)).
    - exists k', v', h'. auto.
    - destruct T' as [T'|hrp' w prog Ee' Eh' Eq W' C' A'|p x vals _ _ [_ [_ E]] _ _].
      + exfalso. refine (base58_bech32 H name name net net K En En k' v' h' (witness_bytes 0 h) s (lit hrp) 0 h I' L' T' Eh A eq_refl _).
        unfold witness_bytes. rewrite !zlen_cons. change (zlen h) with (len h). rewrite L. destruct k; try discriminate Wk; cbn; auto.
      + destruct (bech32_payload _ _ _ _ _ _ _ Wp W' A A') as [<- <-]. rewrite Eq.
        exists k, [0; hash_len k], h. unfold witness_bytes. rewrite L. destruct k; try discriminate Wk; cbn; auto.
      + exfalso. apply NC. rewrite E. apply in_or_app. right. left. reflexivity. }
  split; [exact E|]. rewrite E. apply (written_iff H name net k h c (lower s) K En B L). right. split.
  - right. intros p [n [q [I [En' _]]]]. destruct W as [m [x [y [J Em]]]].
    assert (forallb (fun a => forallb (fun r => negb (leqb (lit (fst a)) (lit (fst (fst (fst r))))) ||
      match snd r with bech32_witness _ => false | _ => true end) address_table) cash_table = true) as F by (vm_compute; reflexivity).
    rewrite forallb_forall in F. specialize (F _ I). cbv beta in F. rewrite forallb_forall in F. specialize (F _ J). cbn [fst snd] in F.
    rewrite <- En', <- Em, leqb_refl in F. discriminate F.
  - destruct k; try discriminate Wk; exists (bech32_witness hrp); auto.
Qed.
