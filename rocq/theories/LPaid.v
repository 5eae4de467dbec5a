(* The lengths of the cashaddr texts that are paid to *)
From Coq Require Import ZifyBool ZifyNat String.
From Verif Require Import Py LBase MNet MUtils MBech32 MCashaddr MAddr SNum SHash SNet SBase58 SBits SBch SBech32 SCashaddr SAddr
  LNet LUtils LBase58 LBits LBch LBech32 LCashaddr LAddr LParams LBurst.
Open Scope list_scope.
Open Scope Z_scope.
Ltac Zify.zify_post_hook ::= idtac.

Lemma cash_versions name net p k v : get_network name = Ok net -> CASHADDR_PREFIX net = Some p -> In v (versions net k) ->
  zlen v = match k with P2WPKH | P2WSH => 2 | _ => 1 end.
Proof.
  intros En Ep I.
  assert (match CASHADDR_PREFIX net with
    | Some _ => forallb (fun k => forallb (fun v => zlen v =? match k with P2WPKH | P2WSH => 2 | _ => 1 end) (versions net k))
                  [P2PKH; P2SH; P2WPKH; P2WSH]
    | None => true end = true) as B.
  { revert En. apply (supported_forall (fun _ net => match CASHADDR_PREFIX net with
    | Some _ => forallb (fun k => forallb (fun v => zlen v =? match k with P2WPKH | P2WSH => 2 | _ => 1 end) (versions net k))
                  [P2PKH; P2SH; P2WPKH; P2WSH]
    | None => true end)). vm_compute. reflexivity. }
  rewrite Ep in B. rewrite forallb_forall in B. assert (In k [P2PKH; P2SH; P2WPKH; P2WSH]) as Ik by (destruct k; cbn [In]; tauto).
  specialize (B k Ik). rewrite forallb_forall in B. apply B in I. apply Z.eqb_eq, I.
Qed.

Lemma paid_lengths_lemma H name net P t script : hashes_ok H -> get_network name = Ok net -> ~ In 58 P ->
  to_output_script H net (P ++ lit ":" ++ t) = Ok script ->
  exists k h, script = template k h /\ len h = hash_len k /\
    match k with P2WPKH => len t = 44 | P2WSH => len t = 63 \/ len t = 64 | _ => len t = 42 \/ len t = 43 end.
Proof.
  intros HH En NP D. destruct (c14_exact_lemma H name net _ script HH En D) as [k [v [h [-> [Lh [_ [Iv A]]]]]]].
  exists k, h. split; [reflexivity|]. split; [exact Lh|].
  assert (In 58 (P ++ lit ":" ++ t)) as C by (rewrite in_app_iff; right; left; reflexivity).
  destruct A as [A|hrp w prog _ Eh _ _ _ A|p x vals Ep Nx A _ L].
  - exfalso. exact (no_colon_base58 H name net HH En _ _ A C).
  - exfalso. apply (bech32_no_colon hrp w prog _) in A; [exact (A C)|].
    pose proof (hrp_clean name net En) as Q. rewrite Eh in Q. intros J. apply zmem_In in J. congruence.
  - destruct A as [G [_ E]]. destruct (good_prefixes _ _ _ En Ep) as [N58 _].
    assert (zlen vals = zlen t) as Lv.
    { assert (split_char 58 (P ++ lit ":" ++ t) = [p ++ x; map b32_char vals]) as S1
        by (apply split_char_two; split; [exact E|]; split; [rewrite in_app_iff; tauto|apply not_in_b32, G]).
      change (lit ":" ++ t) with (58 :: t) in S1. rewrite split_char_app in S1 by exact NP. injection S1 as -> S1.
      change (lit ":" ++ t) with (58 :: t) in E. apply app_inv_head in E. injection E as ->. apply eq_sym, zlen_map. }
    pose proof (cash_versions _ _ _ _ _ En Ep Iv) as Vl.
    revert L Lh. norm_spec. rewrite zlen_app, Lv. intros L Lh.
    pose proof (Z.div_mod (5 * zlen t + 7) 8). pose proof (Z.mod_pos_bound (5 * zlen t + 7) 8).
    destruct k; cbn [hash_len] in Lh; lia.
Qed.
