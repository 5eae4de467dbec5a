(* Lemmas about MAddr.v *)
From Coq Require Import String.
From Verif Require Import Py LBase MNet MUtils MScript MBase58 MBech32 MCashaddr MAddr SNum SHash SNet SBase58
  SBits SBch SBech32 SCashaddr SAddr LNet LUtils LBits LBase58 LBech32 LCashaddr.
Open Scope list_scope.
Open Scope Z_scope.
Ltac Zify.zify_post_hook ::= idtac.

(* what the networks table looks like *)
Definition is_bech32 (e : encoder) : bool := match e with Enc_bech32 => true | Enc_base58 => false end.
Definition shapeb (name : str) (net : network) : bool :=
  leqb (P2WPKH_PREFIX net) [0; 20] && leqb (P2WSH_PREFIX net) [0; 32] &&
  is_bytesb (P2PKH_PREFIX net) && is_bytesb (P2SH_PREFIX net) &&
  negb (leqb (P2PKH_PREFIX net) (P2SH_PREFIX net)) &&
  match P2PKH_PREFIX net, P2SH_PREFIX net with
  | [a], [b] => negb (b =? 0)
  | [a; a'], [b; b'] => negb (a =? 0) && negb (b =? 0)
  | _, _ => false
  end &&
  match CASHADDR_P2SH net, CASHADDR_P2PKH net, CASHADDR_PREFIX net with
  | None, None, None => true
  | Some p, Some q, Some _ =>
      leqb p [8] && leqb q [0] && negb (leqb (P2PKH_PREFIX net) [8]) && negb (leqb (P2SH_PREFIX net) [8]) &&
      (zlen (P2PKH_PREFIX net) =? 1) && negb (SEGWIT net)
  | _, _, _ => false
  end &&
  match BECH32_HRP net with
  | None => Bool.eqb (SEGWIT net) (negb (is_bech32 (SEGWIT_ENCODER net)))
  | Some hrp => SEGWIT net && (2 <=? zlen hrp) && (zlen hrp <=? 5) && negb (hd 0 hrp =? 49)
  end &&
  Bool.eqb (SEGWIT net) (str_mem name segwit_names).

Record shape (name : str) (net : network) : Prop := {
  sh_wpkh : P2WPKH_PREFIX net = [0; 20];
  sh_wsh : P2WSH_PREFIX net = [0; 32];
  sh_pkh_bytes : is_bytes (P2PKH_PREFIX net);
  sh_sh_bytes : is_bytes (P2SH_PREFIX net);
  sh_legacy : (exists a b, P2PKH_PREFIX net = [a] /\ P2SH_PREFIX net = [b] /\ a <> b /\ b <> 0) \/
    (CASHADDR_P2SH net = None /\
     exists a a' b b', P2PKH_PREFIX net = [a; a'] /\ P2SH_PREFIX net = [b; b'] /\ [a; a'] <> [b; b'] /\ a <> 0 /\ b <> 0);
  sh_cash : (CASHADDR_P2SH net = None /\ CASHADDR_P2PKH net = None /\ CASHADDR_PREFIX net = None) \/
    (CASHADDR_P2SH net = Some [8] /\ CASHADDR_P2PKH net = Some [0] /\ (exists p, CASHADDR_PREFIX net = Some p) /\
     P2PKH_PREFIX net <> [8] /\ P2SH_PREFIX net <> [8] /\ SEGWIT net = false);
  sh_hrp : (BECH32_HRP net = None /\ SEGWIT net = negb (is_bech32 (SEGWIT_ENCODER net))) \/
    (exists hrp, BECH32_HRP net = Some hrp /\ SEGWIT net = true /\ 2 <= zlen hrp <= 5 /\ hd 0 hrp <> 49);
  sh_segwit : SEGWIT net = true <-> In name segwit_names
}.

Lemma shapes name net : get_network name = Ok net -> shape name net.
Proof.
  intros E.
  assert (shapeb name net = true) as B.
  { revert name net E. apply (supported_forall shapeb). vm_compute. reflexivity. }
  unfold shapeb in B. rewrite !andb_true_iff in B.
  destruct B as [[[[[[[[B1 B2] B3] B4] B5] B6] B7] B8] B9].
  apply leqb_eq in B1, B2. apply is_bytesb_ok in B3, B4. apply negb_true_iff in B5. apply Bool.eqb_prop in B9.
  assert (P2PKH_PREFIX net <> P2SH_PREFIX net) as N by (intros Q; rewrite Q, leqb_refl in B5; discriminate).
  split; try assumption.
  - destruct (P2PKH_PREFIX net) as [|a [|a' [|]]], (P2SH_PREFIX net) as [|b [|b' [|]]]; try discriminate B6.
    + left. exists a, b. repeat split; try congruence. lia.
    + right. apply andb_true_iff in B6. destruct B6 as [X Y]. split; [|exists a, a', b, b'; repeat split; try assumption; lia].
      destruct (CASHADDR_P2SH net), (CASHADDR_P2PKH net), (CASHADDR_PREFIX net); try discriminate B7; try reflexivity.
      rewrite !andb_true_iff in B7. destruct B7 as [[_ B7] _]. discriminate B7.
  - destruct (CASHADDR_P2SH net), (CASHADDR_P2PKH net), (CASHADDR_PREFIX net); try discriminate B7; [right|left; auto].
    rewrite !andb_true_iff in B7. destruct B7 as [[[[[X1 X2] X3] X4] X5] X6].
    apply leqb_eq in X1, X2. subst. repeat split; eauto.
    + intros Q. rewrite Q in X3. discriminate X3.
    + intros Q. rewrite Q in X4. discriminate X4.
    + destruct (SEGWIT net); [discriminate|reflexivity].
  - destruct (BECH32_HRP net) as [hrp|]; [right|left].
    + rewrite !andb_true_iff in B8. destruct B8 as [[[X1 X2] X3] X4]. exists hrp. repeat split; try assumption; lia.
    + split; [reflexivity|]. apply Bool.eqb_prop, B8.
  - rewrite B9. apply str_mem_In.
Qed.

Lemma starts_spec x p : starts x p = true <-> exists r, x = p ++ r.
Proof. unfold starts. rewrite find_0. apply is_prefix_spec. Qed.

Lemma starts_len x p n : starts x p && (zlen x =? n) = true <-> exists h, x = p ++ h /\ zlen h = n - zlen p.
Proof.
  rewrite andb_true_iff, starts_spec. split.
  - intros [[r ->] L]. exists r. rewrite zlen_app in L. split; [reflexivity|lia].
  - intros [h [-> L]]. split; [eauto|]. rewrite zlen_app. lia.
Qed.

Lemma starts_len_false x p n : starts x p && (zlen x =? n) = false <-> ~ exists h, x = p ++ h /\ zlen h = n - zlen p.
Proof. rewrite <- starts_len. destruct (_ && _); intuition congruence. Qed.

(* the part of to_output_script after parsing *)
Definition script_of (net : network) (parsed : bytes) : res bytes :=
    if starts parsed (P2WPKH_PREFIX net) && (zlen parsed =? 22) then Ok parsed
    else if starts parsed (P2WSH_PREFIX net) && (zlen parsed =? 34) then Ok parsed
    else
      let st := ([], [], []) in
      let st :=
        match CASHADDR_P2SH net with
        | Some p =>
            if starts parsed p && (zlen parsed =? zlen p + 20)
            then ([0xa9; 0x14], slice_from parsed (zlen (P2SH_PREFIX net)), [0x87])
            else st
        | None => st
        end in
      let st :=
        match CASHADDR_P2PKH net with
        | Some p =>
            if starts parsed p && (zlen parsed =? zlen p + 20)
            then ([0x76; 0xa9; 0x14], slice_from parsed (zlen (P2PKH_PREFIX net)),
                  [0x88; 0xac])
            else st
        | None => st
        end in
      let st :=
        if starts parsed (P2PKH_PREFIX net)
           && (zlen parsed =? zlen (P2PKH_PREFIX net) + 20)
        then ([0x76; 0xa9; 0x14], slice_from parsed (zlen (P2PKH_PREFIX net)), [0x88; 0xac])
        else st in
      let st :=
        if starts parsed (P2SH_PREFIX net)
           && (zlen parsed =? zlen (P2SH_PREFIX net) + 20)
        then ([0xa9; 0x14], slice_from parsed (zlen (P2SH_PREFIX net)), [0x87])
        else st in
      let '(prefix, parsed_hash, suffix) := st in
      raise_if leqb parsed_hash [] as ValueError ;;
      Ok (prefix ++ parsed_hash ++ suffix).

Lemma to_output_script_unfold H net s :
  to_output_script H net s = (parsed <- parse H net s ;; script_of net parsed).
Proof. reflexivity. Qed.

Definition pays (net : network) (payload script : bytes) : Prop :=
  exists k v h, In v (versions net k) /\ payload = v ++ h /\ len h = hash_len k /\ script = template k h.

Lemma slice_from_pre (p h : bytes) : slice_from (p ++ h) (zlen p) = h.
Proof. apply slice_from_app. reflexivity. Qed.

Ltac case_starts :=
  match goal with
  | |- context [starts ?x ?p && (zlen ?x =? ?n)] =>
      let E := fresh "E" in let h := fresh "h" in let L := fresh "L" in
      destruct (starts x p && (zlen x =? n)) eqn:E;
      [apply starts_len in E; destruct E as [h [E L]] | apply starts_len_false in E]
  end.

Lemma nonempty_hash (h : bytes) : zlen h = 20 -> leqb h [] = false.
Proof. intros L. destruct h; [discriminate L|reflexivity]. Qed.

(* the script that a payload stands for, or a ValueError *)
Lemma script_of_cases name net p : shape name net ->
  (exists script, script_of net p = Ok script /\ pays net p script) \/
  (script_of net p = Err ValueError /\ forall script, ~ pays net p script).
Proof.
  intros S. unfold script_of. rewrite (sh_wpkh _ _ S), (sh_wsh _ _ S).
  case_starts.
  { left. exists p. split; [reflexivity|]. exists P2WPKH, [0; 20], h. split; [left; reflexivity|].
    split; [exact E|split; [unfold len; change (zlen h = 20); change (zlen [0; 20]) with 2 in L; lia|exact E]]. }
  case_starts.
  { left. exists p. split; [reflexivity|]. exists P2WSH, [0; 32], h. split; [left; reflexivity|].
    split; [exact E0|split; [change (zlen h = 32); change (zlen [0; 32]) with 2 in L; lia|exact E0]]. }
  assert (forall (pre suf h : bytes), zlen h = 20 ->
    (raise_if leqb h [] as ValueError ;; Ok (pre ++ h ++ suf)) = Ok (pre ++ h ++ suf)) as OK.
  { intros pre suf h Lh. rewrite nonempty_hash by exact Lh. reflexivity. }
  assert (forall v h, In v (versions net P2PKH) -> p = v ++ h -> zlen h = 20 ->
     pays net p ([118; 169; 20] ++ h ++ [136; 172])) as PK.
  { intros v h Iv Ep Lh. exists P2PKH, v, h. repeat split; assumption. }
  assert (forall v h, In v (versions net P2SH) -> p = v ++ h -> zlen h = 20 ->
     pays net p ([169; 20] ++ h ++ [135])) as PS.
  { intros v h Iv Ep Lh. exists P2SH, v, h. repeat split; assumption. }
  destruct (sh_cash _ _ S) as [[C1 [C2 C3]]|[C1 [C2 [[cp C3] [C4 [C5 C6]]]]]].
  - rewrite C1, C2. cbv zeta. case_starts; [|case_starts].
    + left. subst p. rewrite slice_from_pre. assert (zlen h = 20) as Lh by lia. rewrite OK by exact Lh.
      eexists. split; [reflexivity|]. apply (PS (P2SH_PREFIX net)); [left; reflexivity|reflexivity|exact Lh].
    + left. subst p. rewrite slice_from_pre. assert (zlen h = 20) as Lh by lia. rewrite OK by exact Lh.
      eexists. split; [reflexivity|]. apply (PK (P2PKH_PREFIX net)); [left; reflexivity|reflexivity|exact Lh].
    + right. split; [reflexivity|]. intros script [k [v [h [Iv [Ep [Lh _]]]]]].
      destruct k; cbn [versions hash_len] in *; rewrite ?C1, ?C2 in Iv; destruct Iv as [<-|[]]; change (len h) with (zlen h) in Lh.
      * apply E2. exists h. split; [exact Ep|lia].
      * apply E1. exists h. split; [exact Ep|lia].
      * apply E. exists h. split; [exact Ep|]. change (zlen [0; 20]) with 2. lia.
      * apply E0. exists h. split; [exact Ep|]. change (zlen [0; 32]) with 2. lia.
  - destruct (sh_legacy _ _ S) as [[a [b [A [B [D NB]]]]]|[Cx _]]; [|congruence].
    rewrite C1, C2, A, B. cbv zeta. change (zlen [8]) with 1. change (zlen [0]) with 1.
    change (zlen [a]) with 1. change (zlen [b]) with 1.
    assert (a <> 8) as N1 by congruence. assert (b <> 8) as N2 by congruence.
    destruct p as [|x h].
    { right. split; [reflexivity|]. intros script [k [v [h [Iv [Ep [Lh _]]]]]].
      destruct v; [|discriminate Ep]. destruct h; [|discriminate Ep]. destruct k; discriminate Lh. }
    assert (forall y, starts (x :: h) [y] && (zlen (x :: h) =? 1 + 20) = (x =? y) && (zlen h =? 20)) as SE.
    { intros y. unfold starts. rewrite find_0, zlen_cons. cbn [is_prefix].
      rewrite andb_true_r, (Z.eqb_sym x y). f_equal.
      destruct (Z.eqb_spec (1 + zlen h) (1 + 20)), (Z.eqb_spec (zlen h) 20); try reflexivity; lia. }
    rewrite !SE. assert (slice_from (x :: h) 1 = h) as SF by (apply (slice_from_app [x] h); reflexivity). rewrite SF.
    destruct (Z.eqb_spec (zlen h) 20) as [Lh|Lh]; rewrite ?andb_true_r, ?andb_false_r.
    + destruct (Z.eqb_spec x b) as [->|Xb].
      { left. rewrite OK by exact Lh. eexists. split; [reflexivity|].
        apply (PS [b]); [left; exact B|reflexivity|exact Lh]. }
      destruct (Z.eqb_spec x a) as [->|Xa].
      { left. rewrite OK by exact Lh. eexists. split; [reflexivity|].
        apply (PK [a]); [left; exact A|reflexivity|exact Lh]. }
      destruct (Z.eqb_spec x 0) as [->|X0].
      { left. rewrite OK by exact Lh. eexists. split; [reflexivity|].
        apply (PK [0]); [right; rewrite C2; left; reflexivity|reflexivity|exact Lh]. }
      destruct (Z.eqb_spec x 8) as [->|X8].
      { left. rewrite OK by exact Lh. eexists. split; [reflexivity|].
        apply (PS [8]); [right; rewrite C1; left; reflexivity|reflexivity|exact Lh]. }
      right. split; [reflexivity|]. intros script [k [v [h' [Iv [Ep [Lh' _]]]]]].
      destruct k; cbn [versions hash_len] in *; rewrite ?C1, ?C2, ?A, ?B in Iv; change (len h') with (zlen h') in Lh'.
      * destruct Iv as [<-|[<-|[]]]; cbn [app] in Ep; congruence.
      * destruct Iv as [<-|[<-|[]]]; cbn [app] in Ep; congruence.
      * destruct Iv as [<-|[]]; cbn [app] in Ep; congruence.
      * destruct Iv as [<-|[]]; cbn [app] in Ep; congruence.
    + right. split; [reflexivity|]. intros script [k [v [h' [Iv [Ep [Lh' _]]]]]].
      destruct k; cbn [versions hash_len] in *; rewrite ?C1, ?C2, ?A, ?B in Iv; change (len h') with (zlen h') in Lh'.
      * destruct Iv as [<-|[<-|[]]]; cbn [app] in Ep; congruence.
      * destruct Iv as [<-|[<-|[]]]; cbn [app] in Ep; congruence.
      * destruct Iv as [<-|[]]. apply E. exists h'. split; [exact Ep|]. change (zlen [0; 20]) with 2. lia.
      * destruct Iv as [<-|[]]. apply E0. exists h'. split; [exact Ep|]. change (zlen [0; 32]) with 2. lia.
Qed.

Lemma pays_fun name net p s s' : shape name net -> pays net p s -> pays net p s' -> s = s'.
Proof.
  intros S [k [v [h [Iv [Ep [Lh ->]]]]]] [k' [v' [h' [Iv' [Ep' [Lh' ->]]]]]].
  rewrite Ep in Ep'. clear Ep. change (len h) with (zlen h) in Lh. change (len h') with (zlen h') in Lh'.
  assert (zlen (v ++ h) = zlen (v' ++ h')) as LL by (rewrite Ep'; reflexivity). rewrite !zlen_app in LL.
  destruct (sh_cash _ _ S) as [[C1 [C2 C3]]|[C1 [C2 [[cp C3] [C4 [C5 C6]]]]]];
  destruct (sh_legacy _ _ S) as [[a [b [A [B [D NB]]]]]|[Cx [a [a' [b [b' [A [B [D [NA NB]]]]]]]]]]; try congruence;
  destruct k, k'; cbn [versions hash_len] in *; rewrite ?C1, ?C2, ?A, ?B in *; cbn [In] in Iv, Iv';
  repeat match goal with
  | I : _ \/ _ |- _ => destruct I as [<-|I]
  | I : False |- _ => destruct I
  end; cbn [app] in Ep'; try congruence; exfalso; repeat rewrite ?zlen_cons, ?zlen_nil in LL; lia.
Qed.

Section Net.
  Context (H : hashes) (name : str) (net : network).
  Context (K : hashes_ok H) (En : get_network name = Ok net).
  Let S : shape name net := shapes name net En.

  Lemma base58_text b s : base58_decode H net s true = Ok b <-> base58check_of H name b s.
  Proof using All.
    change (base58_decode H net s true) with (decode_with_checksum H net s).
    rewrite decode_checksum_spec by exact K. unfold base58check_of. split.
    - intros [B E]. split; [exact B|]. apply (base58check_text_lemma H name net b s K En B), E.
    - intros [B E]. split; [exact B|]. apply (base58check_text_lemma H name net b s K En B), E.
  Qed.

  Lemma base58_total s : (exists b, base58_decode H net s true = Ok b) \/ base58_decode H net s true = Err ValueError.
  Proof using All. apply (decode_checksum_total H net s). Qed.

  Lemma base58_text_fun b b' s : base58check_of H name b s -> base58check_of H name b' s -> b = b'.
  Proof using All. intros X Y. apply base58_text in X, Y. congruence. Qed.

  Lemma base58_char_in b s c : base58_of b s -> In c s -> In c b58_digits.
  Proof using All.
    intros [ds [D [-> _]]] I. apply in_map_iff in I. destruct I as [d [<- Id]]. rewrite Forall_forall in D.
    specialize (D d Id). unfold b58_char. apply nth_In. change (length b58_digits) with 58%nat. lia.
  Qed.

  Lemma no_colon_base58 b s : base58check_of H name b s -> ~ In 58 s.
  Proof using All.
    intros [_ X] I. apply (base58_char_in _ _ _ X) in I. revert I. vm_compute. intuition discriminate.
  Qed.

  Lemma segwit_decode_text s b : BECH32_HRP net <> None -> SEGWIT_ENCODER net = Enc_bech32 ->
    segwit_encoder_decode H net s = Ok b <->
    exists hrp v prog, BECH32_HRP net = Some hrp /\ b = witness_bytes v prog /\ witness_program v prog /\
      one_case s /\ segwit_address hrp v prog (lower s).
  Proof using All.
    intros N Ee. unfold segwit_encoder_decode. rewrite Ee.
    destruct (BECH32_HRP net) as [hrp|] eqn:Eh; [|congruence].
    rewrite (net_decode_spec name net hrp s b En Eh). split.
    - intros [v [prog X]]. exists hrp, v, prog. tauto.
    - intros [hrp' [v [prog [X Y]]]]. injection X as <-. eauto.
  Qed.

  Lemma parse_inv s b : parse H net s = Ok b -> address_text H name net s b.
  Proof using All.
    unfold parse. destruct (base58_total s) as [[p E]|E]; rewrite E.
    - intros Q. apply Ok_inj in Q. subst p. apply text_base58, base58_text, E.
    - destruct (segwit_encoder_decode H net s) as [p|e] eqn:Es.
      + intros Q. apply Ok_inj in Q. subst p.
        destruct (SEGWIT_ENCODER net) eqn:Ee.
        * destruct (BECH32_HRP net) as [hrp|] eqn:Eh.
          -- apply segwit_decode_text in Es; [|congruence|exact Ee].
             destruct Es as [hrp' [v [prog [X [Y [Z [U V]]]]]]].
             rewrite X in Eh. injection Eh as ->. eapply text_bech32; eassumption.
          -- unfold segwit_encoder_decode in Es. rewrite Ee in Es.
             destruct (no_hrp_lemma net [] s Eh) as [_ Q]. congruence.
        * unfold segwit_encoder_decode in Es. rewrite Ee in Es. congruence.
      + destruct (cashaddr_decode net s) as [p|e'] eqn:Ec; [|discriminate].
        intros Q. apply Ok_inj in Q. subst p.
        destruct (CASHADDR_PREFIX net) as [cp|] eqn:Ep.
        * apply (ca_decode_spec name net cp s b En Ep) in Ec. destruct Ec as [x [v [X [Y [Z U]]]]].
          eapply text_cashaddr; eassumption.
        * destruct (no_prefix_lemma net [] s Ep) as [_ Q]. congruence.
  Qed.

  Lemma parse_err s : (exists b, parse H net s = Ok b) \/ parse H net s = Err ValueError.
  Proof using All.
    unfold parse. destruct (base58_total s) as [[p E]|E]; rewrite E; [eauto|].
    destruct (segwit_encoder_decode H net s); [eauto|]. destruct (cashaddr_decode net s); eauto.
  Qed.

  (* a text of the network is read as such, unless it is bech32 and happens to be
     Base58Check as well *)
  Lemma parse_of_text s b : address_text H name net s b ->
    parse H net s = Ok b \/
    exists hrp v prog p, BECH32_HRP net = Some hrp /\ b = witness_bytes v prog /\ witness_program v prog /\
      segwit_address hrp v prog (lower s) /\ base58check_of H name p s /\ parse H net s = Ok p.
  Proof using All.
    intros T. unfold parse. destruct T as [T|hrp v prog Ee Eh Eb W C A|cp x vals Ep Nx T L Lb].
    - apply base58_text in T. rewrite T. left. reflexivity.
    - destruct (base58_total s) as [[p E]|E]; rewrite E.
      + right. exists hrp, v, prog, p. split; [exact Eh|]. split; [exact Eb|]. split; [exact W|].
        split; [exact A|]. split; [apply base58_text, E|reflexivity].
      + left. assert (segwit_encoder_decode H net s = Ok b) as ->; [|reflexivity].
        apply segwit_decode_text; [congruence|exact Ee|]. exists hrp, v, prog. auto.
    - left. destruct (base58_total s) as [[p E]|E].
      + exfalso. apply base58_text in E. apply no_colon_base58 in E. apply E.
        destruct T as [_ [_ ->]]. apply in_or_app. right. left. reflexivity.
      + rewrite E.
        assert (exists e, segwit_encoder_decode H net s = Err e) as [e ->].
        { destruct (sh_cash _ _ S) as [[_ [_ X]]|[_ [_ [_ [_ [_ X]]]]]]; [congruence|].
          destruct (sh_hrp _ _ S) as [[Y Z]|[h [_ [Y _]]]]; [|congruence].
          rewrite X in Z. unfold segwit_encoder_decode. destruct (SEGWIT_ENCODER net); [|discriminate].
          exists ValueError. apply (no_hrp_lemma net [] s Y). }
        assert (cashaddr_decode net s = Ok b) as ->; [|reflexivity].
        apply (ca_decode_spec name net cp s b En Ep). exists x, vals. auto.
  Qed.

  Lemma digest_ok (m : bytes) : zlen (if in_dec list_eq_dec_Z name decred_names then blake256d H m else sha256d H m) = 32 /\
    is_bytes (if in_dec list_eq_dec_Z name decred_names then blake256d H m else sha256d H m).
  Proof using All.
    unfold blake256d, sha256d. destruct K as [K1 [_ [K3 _]]]. destruct in_dec; [apply K3|apply K1].
  Qed.

  (* lengths of a Base58Check text that does not start with '1' *)
  Lemma base58_lengths p s : base58check_of H name p s -> s <> [] -> hd 0 s <> 49 ->
    58 ^ (zlen s - 1) < 256 ^ (zlen p + 4) /\ 256 ^ (zlen p + 3) < 58 ^ zlen s.
  Proof using All.
    intros [B [ds [D [Es [V L]]]]] Ne Hd.
    set (q := p ++ firstn 4 (if in_dec list_eq_dec_Z name decred_names then blake256d H p else sha256d H p)) in *.
    assert (zlen q = zlen p + 4) as Lq.
    { unfold q. rewrite zlen_app. destruct (digest_ok p) as [W _]. unfold zlen in *. rewrite firstn_length. lia. }
    assert (is_bytes q) as Bq.
    { unfold q. apply is_bytes_app. split; [exact B|]. apply is_bytes_firstn, digest_ok. }
    assert (zlen s = zlen ds) as Ls by (subst s; unfold zlen; rewrite map_length; reflexivity).
    destruct ds as [|d ds]; [cbn in Es; congruence|].
    assert (canon (d :: ds)) as Cd.
    { cbn. intros ->. apply Hd. rewrite Es. reflexivity. }
    assert (canon q) as Cq.
    { cbn [leading] in L. cbn in Cd. destruct (Z.eqb_spec d 0); [contradiction|].
      destruct q as [|x q']; [exact I|]. cbn [leading] in L. cbn. destruct (Z.eqb_spec x 0); [discriminate|assumption]. }
    assert (q <> []) as Nq by (intros Q; rewrite Q in Lq; cbn in Lq; pose proof (zlen_nonneg p); lia).
    pose proof (be_num_pos 58 _ ltac:(lia) D Cd ltac:(discriminate)) as P1.
    pose proof (be_num_range 58 _ ltac:(lia) D) as R1.
    pose proof (be_num_pos 256 q ltac:(lia) Bq Cq Nq) as P2.
    pose proof (be_num_range 256 q ltac:(lia) Bq) as R2.
    rewrite Ls. rewrite V in *. rewrite Lq in R2.
    replace (Z.of_nat (length (d :: ds) - 1)) with (zlen (d :: ds) - 1) in P1 by (unfold zlen; cbn [length]; lia).
    replace (Z.of_nat (length q - 1)) with (zlen p + 3) in P2 by (unfold zlen in *; destruct q; [congruence|cbn [length] in *; lia]).
    lia.
  Qed.

  Lemma hd_lower s : hd 0 s = 49 -> hd 0 (lower s) = 49.
  Proof using All. destruct s as [|x s]; cbn [hd lower map]; [lia|]. intros ->. reflexivity. Qed.

  Lemma segwit_lengths hrp v prog s : segwit_address hrp v prog s ->
    exists p, 0 <= p < 5 /\ 5 * (zlen s - zlen hrp - 8) = 8 * zlen prog + p.
  Proof using All.
    intros [g5 [[_ [p [Rp [Lp _]]]] [[c [_ [Lc [_ ->]]]] _]]]. exists p. split; [exact Rp|].
    rewrite !zlen_app, zlen_map, zlen_app, zlen_cons. change (zlen (lit "1")) with 1.
    replace (zlen c) with 6 by (unfold zlen; lia). lia.
  Qed.

  (* the accident never has the length of a payment *)
  Lemma accident_len hrp v prog p s : 2 <= zlen hrp <= 5 -> hd 0 hrp <> 49 -> segwit_address hrp v prog (lower s) ->
    base58check_of H name p s -> 19 <= zlen prog <= 20 \/ 32 <= zlen prog -> zlen p = 21 \/ zlen p = 22 \/ zlen p = 34 -> False.
  Proof using All.
    intros Y Z A B Lp L.
    destruct (segwit_lengths _ _ _ _ A) as [q [Rq Lq]]. rewrite zlen_lower in Lq.
    assert (hd 0 s <> 49) as Hd.
    { intros Q. apply hd_lower in Q. destruct A as [g5 [_ [[c [_ [_ [_ Es]]]] _]]]. rewrite Es in Q.
      destruct hrp as [|x hrp]; [rewrite zlen_nil in Y; lia|]. cbn in Q. cbn in Z. congruence. }
    assert (s <> []) as Ne by (intros ->; rewrite zlen_nil in Lq; pose proof (zlen_nonneg hrp); lia).
    destruct (base58_lengths p s B Ne Hd) as [B1 B2].
    assert (41 <= zlen s <= 45 \/ 62 <= zlen s) as Ls by lia.
    assert (forall n, 0 <= n -> 58 ^ n > 0) as P58 by (intros; apply Z.lt_gt, Z.pow_pos_nonneg; lia).
    destruct Ls as [Ls|Ls].
    - assert (58 ^ 40 <= 58 ^ (zlen s - 1)) by (apply Z.pow_le_mono_r; lia).
      assert (58 ^ zlen s <= 58 ^ 45) by (apply Z.pow_le_mono_r; lia).
      assert (256 ^ 26 < 58 ^ 40) by (vm_compute; reflexivity).
      assert (58 ^ 45 < 256 ^ 37) by (vm_compute; reflexivity).
      destruct L as [L|[L|L]]; rewrite L in B1, B2.
      + change (21 + 4) with 25 in B1. assert (256 ^ 25 <= 256 ^ 26) by (apply Z.pow_le_mono_r; lia). lia.
      + change (22 + 4) with 26 in B1. lia.
      + change (34 + 3) with 37 in B2. lia.
    - assert (58 ^ 61 <= 58 ^ (zlen s - 1)) by (apply Z.pow_le_mono_r; lia).
      assert (256 ^ 38 < 58 ^ 61) by (vm_compute; reflexivity).
      assert (256 ^ (zlen p + 4) <= 256 ^ 38) by (apply Z.pow_le_mono_r; lia). lia.
  Qed.

  Lemma payment_lengths k w h : In w (versions net k) -> zlen h = hash_len k ->
    zlen (w ++ h) = 21 \/ zlen (w ++ h) = 22 \/ zlen (w ++ h) = 34.
  Proof using All.
    intros Iw Lh. rewrite zlen_app, Lh.
    destruct (sh_legacy _ _ S) as [[a [b [P1 [P2 _]]]]|[_ [a [a' [b [b' [P1 [P2 _]]]]]]]];
    destruct (sh_cash _ _ S) as [[C1 [C2 C3]]|[C1 [C2 _]]];
    destruct k; cbn [versions hash_len] in *; rewrite ?C1, ?C2, ?P1, ?P2 in Iw; cbn [In] in Iw;
    repeat match goal with
    | I : _ \/ _ |- _ => destruct I as [<-|I]
    | I : False |- _ => destruct I
    end; repeat rewrite ?zlen_cons, ?zlen_nil; lia.
  Qed.

  Lemma accident hrp v prog p s script : BECH32_HRP net = Some hrp -> segwit_address hrp v prog (lower s) ->
    base58check_of H name p s -> 19 <= zlen prog <= 20 \/ 32 <= zlen prog -> ~ pays net p script.
  Proof using All.
    intros Eh A B Lp [k [w [h [Iw [Ep [Lh _]]]]]].
    destruct (sh_hrp _ _ S) as [[X _]|[hrp' [X [_ [Y Z]]]]]; [congruence|].
    rewrite Eh in X. injection X as <-.
    apply (accident_len hrp v prog p s Y Z A B Lp). rewrite Ep. apply (payment_lengths k w h Iw Lh).
  Qed.

  (* C14 *)
  Lemma to_output_script_inv s script : to_output_script H net s = Ok script ->
    exists k v h, script = template k h /\ len h = hash_len k /\ all_bytes h /\
      In v (versions net k) /\ address_text H name net s (v ++ h).
  Proof using All.
    rewrite to_output_script_unfold. intros E. destruct (parse H net s) as [p|e] eqn:Ep0; [|discriminate]. cbn [bind] in E.
    rename E into Q0. pose proof Ep0 as E. apply parse_inv in E.
    destruct (script_of_cases name net p S) as [[script' [Q P]]|[Q _]]; [|congruence].
    assert (script' = script) as -> by congruence. destruct P as [k [v [h [Iv [Ep [Lh Es]]]]]].
    exists k, v, h. repeat split; try assumption; [|rewrite <- Ep; exact E].
    assert (all_bytes p) as Bp.
    { destruct E as [[X _]|hrp v' prog _ _ -> W _ _|cp x vals _ _ _ L _].
      - exact X.
      - destruct W as [W1 [W2 [W3 _]]]. unfold witness_bytes. constructor; [lia|]. constructor; [lia|exact W2].
      - apply L. }
    rewrite Ep in Bp. unfold all_bytes in Bp. apply Forall_app in Bp. apply Bp.
  Qed.

  Lemma to_output_script_err s :
    (exists script, to_output_script H net s = Ok script) \/ to_output_script H net s = Err ValueError.
  Proof using All.
    rewrite to_output_script_unfold. destruct (parse_err s) as [[b E]|E]; rewrite E; cbn [bind]; [|auto].
    destruct (script_of_cases name net b S) as [[script [Q _]]|[Q _]]; rewrite Q; eauto.
  Qed.

  (* the converse: every text that carries the payload of a payment pays to it *)
  Lemma to_output_script_pays s k v h : In v (versions net k) -> len h = hash_len k ->
    address_text H name net s (v ++ h) ->
    to_output_script H net s = Ok (template k h) \/
    (to_output_script H net s = Err ValueError /\
     exists hrp w prog p, BECH32_HRP net = Some hrp /\ v ++ h = witness_bytes w prog /\
       segwit_address hrp w prog (lower s) /\ base58check_of H name p s).
  Proof using All.
    intros Iv Lh T. rewrite to_output_script_unfold.
    assert (pays net (v ++ h) (template k h)) as P by (exists k, v, h; repeat split; assumption).
    destruct (parse_of_text s (v ++ h) T) as [E|[hrp [w [prog [p [Eh [Ew [W [A [B E]]]]]]]]]]; rewrite E; cbn [bind].
    - left. destruct (script_of_cases name net (v ++ h) S) as [[script [Q P']]|[_ N]]; [|destruct (N _ P)].
      rewrite Q. f_equal. eapply pays_fun; eassumption.
    - right. change (len h) with (zlen h) in Lh.
      assert (zlen (v ++ h) = zlen prog + 2) as L by (rewrite Ew; unfold witness_bytes; rewrite !zlen_cons; lia).
      assert (zlen v = 1 \/ zlen v = 2) as Lv.
      { destruct (sh_legacy _ _ S) as [[a [b [P1 [P2 _]]]]|[_ [a [a' [b [b' [P1 [P2 _]]]]]]]];
        destruct (sh_cash _ _ S) as [[C1 [C2 C3]]|[C1 [C2 _]]];
        destruct k; cbn [versions hash_len] in *; rewrite ?C1, ?C2, ?P1, ?P2 in Iv; cbn [In] in Iv;
        repeat match goal with
        | I : _ \/ _ |- _ => destruct I as [<-|I]
        | I : False |- _ => destruct I
        end; repeat rewrite ?zlen_cons, ?zlen_nil; lia. }
      rewrite zlen_app in L.
      assert (19 <= zlen prog <= 20 \/ 32 <= zlen prog) as Lp.
      { destruct k; cbn [hash_len] in Lh; try lia. right. cbn [versions] in Iv. destruct Iv as [<-|[]].
        change (zlen [0; 32]) with 2 in L. lia. }
      split.
      + destruct (script_of_cases name net p S) as [[script [Q P']]|[Q _]]; [|exact Q].
        exfalso. eapply accident; eassumption.
      + exists hrp, w, prog, p. auto.
  Qed.

  Lemma cash_text p q h s : CASHADDR_PREFIX net = Some p -> all_bytes q -> all_bytes h ->
    len (q ++ h) mod 5 <> 0 -> cashaddr_of p (q ++ h) s ->
    address_text H name net s (q ++ h) /\ cashaddr_encode net (q ++ h) = Ok s.
  Proof using All.
    intros Ep Bq Bh L C.
    assert (all_bytes (q ++ h)) as B by (apply Forall_app; auto).
    destruct (ca_roundtrip_partial name net p (q ++ h) En Ep B (or_introl L)) as [s' [E D]].
    destruct (ca_encode_spec net p (q ++ h) Ep B) as [s'' [E' C']]. assert (s'' = s') as -> by congruence.
    assert (s = s') as -> by (eapply cashaddr_of_unique; eassumption). split; [|exact E].
    apply (ca_decode_spec name net p s' _ En Ep) in D. destruct D as [x [v [X [Y [Z U]]]]].
    eapply text_cashaddr; eassumption.
  Qed.

  Lemma segwit_iff : In name segwit_names -> SEGWIT net = true.
  Proof using All. apply (sh_segwit _ _ S). Qed.

  Lemma address_for_text k h s : all_bytes h -> len h = hash_len k -> address_for H name net k h s ->
    exists v, In v (versions net k) /\ address_text H name net s (v ++ h).
  Proof using All.
    intros B L. unfold address_for. destruct k; cbv zeta.
    - intros [X|[p [q [Ep [Eq C]]]]]; [exists (P2PKH_PREFIX net); split; [left; reflexivity|apply text_base58, X]|].
      destruct (sh_cash _ _ S) as [[_ [X _]]|[_ [X _]]]; rewrite X in Eq; [discriminate|]. injection Eq as <-.
      exists [0]. split; [cbn [versions]; rewrite X; right; left; reflexivity|].
      apply (cash_text p); try assumption; [repeat constructor; lia|]. unfold len in *. rewrite app_length. cbn [length hash_len] in *.
      replace (Z.of_nat (1 + length h)) with 21 by lia. discriminate.
    - intros [X|[p [q [Ep [Eq C]]]]]; [exists (P2SH_PREFIX net); split; [left; reflexivity|apply text_base58, X]|].
      destruct (sh_cash _ _ S) as [[X _]|[X _]]; rewrite X in Eq; [discriminate|]. injection Eq as <-.
      exists [8]. split; [cbn [versions]; rewrite X; right; left; reflexivity|].
      apply (cash_text p); try assumption; [repeat constructor; lia|]. unfold len in *. rewrite app_length. cbn [length hash_len] in *.
      replace (Z.of_nat (1 + length h)) with 21 by lia. discriminate.
    - intros [_ X]. exists [0; 20]. split; [left; reflexivity|]. destruct (SEGWIT_ENCODER net) eqn:Ee.
      + destruct X as [hrp [Eh A]]. pose proof (good_hrps _ _ _ En Eh) as [_ [Gl _]].
        pose proof (segwit_address_lower hrp 0 h s Gl A) as Lo.
        apply (text_bech32 H name net s _ hrp 0 h); try assumption; [| |left; exact Lo|rewrite Lo; exact A].
        * unfold witness_bytes. cbn [app]. rewrite L. reflexivity.
        * split; [lia|split; [exact B|split; [rewrite L; cbn; lia|left; exact L]]].
      + apply text_base58. exact X.
    - intros [_ X]. exists [0; 32]. split; [left; reflexivity|]. destruct (SEGWIT_ENCODER net) eqn:Ee.
      + destruct X as [hrp [Eh A]]. pose proof (good_hrps _ _ _ En Eh) as [_ [Gl _]].
        pose proof (segwit_address_lower hrp 0 h s Gl A) as Lo.
        apply (text_bech32 H name net s _ hrp 0 h); try assumption; [| |left; exact Lo|rewrite Lo; exact A].
        * unfold witness_bytes. cbn [app]. rewrite L. reflexivity.
        * split; [lia|split; [exact B|split; [rewrite L; cbn; lia|right; exact L]]].
      + apply text_base58. exact X.
  Qed.

  Lemma legacy_encode_text p h : is_bytes p -> all_bytes h ->
    exists s, legacy_encode H net (p ++ h) = Ok (Some s) /\ base58check_of H name (p ++ h) s.
  Proof using All.
    intros Bp Bh. assert (is_bytes (p ++ h)) as B by (apply is_bytes_app; auto).
    destruct (decode_encode_check H net (p ++ h) K B) as [s [E D]]. exists s. split.
    - unfold legacy_encode. unfold encode_with_checksum in E. rewrite E. reflexivity.
    - apply base58_text, D.
  Qed.

  Lemma cash_encode_text p q h : CASHADDR_PREFIX net = Some p -> all_bytes q -> all_bytes h ->
    exists s, cashaddr_encoder_encode net (q ++ h) = Ok (Some s) /\ cashaddr_of p (q ++ h) s.
  Proof using All.
    intros Ep Bq Bh. assert (all_bytes (q ++ h)) as B by (apply Forall_app; auto).
    destruct (ca_encode_spec net p (q ++ h) Ep B) as [s [E C]]. exists s. split; [|exact C].
    unfold cashaddr_encoder_encode. rewrite E. reflexivity.
  Qed.

  Lemma segwit_encode_text k h : is_witness_payment k = true -> all_bytes h -> len h = hash_len k ->
    (In name segwit_names -> exists s, segwit_encoder_encode H net (template k h) = Ok (Some s) /\ address_for H name net k h s) /\
    (~ In name segwit_names -> segwit_encoder_encode H net (template k h) = Err ValueError).
  Proof using All.
    intros Wk B L.
    assert (template k h = witness_bytes 0 h) as T.
    { unfold witness_bytes. rewrite L. destruct k; try discriminate Wk; reflexivity. }
    assert (witness_program 0 h) as W.
    { split; [lia|split; [exact B|]]. rewrite L. destruct k; try discriminate Wk; cbn; lia. }
    unfold segwit_encoder_encode. rewrite T. split.
    - intros I. destruct (SEGWIT_ENCODER net) eqn:Ee.
      + destruct (sh_hrp _ _ S) as [[_ X]|[hrp [Eh _]]].
        { rewrite (segwit_iff I), Ee in X. discriminate X. }
        destruct (encode_decode_lemma name net hrp 0 h En Eh W) as [s [E [A D]]].
        exists s. split; [exact E|].
        assert (one_case s /\ lower s = s) as [C Lo].
        { pose proof (good_hrps _ _ _ En Eh) as [_ [Gl _]]. pose proof (segwit_address_lower hrp 0 h s Gl A) as Q.
          split; [left; exact Q|exact Q]. }
        unfold address_for. rewrite Ee. destruct k; try discriminate Wk; (split; [exact I|]);
          exists hrp; auto.
      + destruct (legacy_encode_text [0; hash_len k] h) as [s [E C]]; [|exact B|].
        { destruct k; repeat constructor; cbn; lia. }
        exists s. split; [unfold witness_bytes; rewrite L; exact E|].
        unfold address_for. rewrite Ee. destruct k; try discriminate Wk; split; assumption.
    - intros NI. destruct (sh_hrp _ _ S) as [[Eh X]|[hrp [_ [X _]]]].
      + assert (SEGWIT net = false) as Sf.
        { destruct (SEGWIT net) eqn:Q; [|reflexivity]. contradiction NI. apply (sh_segwit _ _ S), Q. }
        rewrite Sf in X. destruct (SEGWIT_ENCODER net); [|discriminate X].
        apply (no_hrp_lemma net _ [] Eh).
      + contradiction NI. apply (sh_segwit _ _ S), X.
  Qed.

  Lemma no_cash_segwit : In name segwit_names -> CASHADDR_P2SH net = None /\ CASHADDR_P2PKH net = None.
  Proof using All.
    intros I. apply segwit_iff in I. destruct (sh_cash _ _ S) as [[X [Y _]]|[_ [_ [_ [_ [_ X]]]]]]; [auto|congruence].
  Qed.

  (* the address of each kind of payment, and what goes wrong when a network has
     no such payments *)
  Lemma sh_address h (w ca : bool) : all_bytes h -> len h = hash_len (if w then P2WSH else P2SH) ->
    (exists s, hash_to_sh_address H net h w ca = Ok (Some s) /\
       (address_for H name net (if w then P2WSH else P2SH) h s \/
        (w = true /\ ca = true /\ exists p, CASHADDR_PREFIX net = Some p /\ cashaddr_of p (8 :: h) s))) \/
    (hash_to_sh_address H net h w ca = Err ValueError /\ w = true /\ ~ In name segwit_names).
  Proof using All.
    intros B L. unfold hash_to_sh_address.
    assert (forall b, (b = true -> exists p, CASHADDR_PREFIX net = Some p /\ CASHADDR_P2SH net = Some [8]) ->
      (if b then ca = true else True) ->
      (exists s, (if b then cashaddr_encoder_encode net ([8] ++ h) else
         if w then segwit_encoder_encode H net (P2WSH_PREFIX net ++ h)
         else legacy_encode H net (P2SH_PREFIX net ++ h)) = Ok (Some s) /\
       (address_for H name net (if w then P2WSH else P2SH) h s \/
        (w = true /\ ca = true /\ exists p, CASHADDR_PREFIX net = Some p /\ cashaddr_of p (8 :: h) s))) \/
      ((if b then cashaddr_encoder_encode net ([8] ++ h) else
         if w then segwit_encoder_encode H net (P2WSH_PREFIX net ++ h)
         else legacy_encode H net (P2SH_PREFIX net ++ h)) = Err ValueError /\ w = true /\ ~ In name segwit_names)) as G.
    { intros b Hb Hca. destruct b.
      - left. destruct (Hb eq_refl) as [p [Ep E8]].
        destruct (cash_encode_text p [8] h Ep ltac:(repeat constructor; lia) B) as [s [E C]].
        exists s. split; [exact E|]. destruct w.
        + right. split; [reflexivity|split; [exact Hca|]]. exists p. auto.
        + left. unfold address_for. right. exists p, [8]. auto.
      - destruct w.
        + rewrite (sh_wsh _ _ S). change ([0; 32] ++ h) with (template P2WSH h).
          destruct (segwit_encode_text P2WSH h eq_refl B L) as [Y N].
          destruct (in_dec list_eq_dec_Z name segwit_names) as [I|NI].
          * left. destruct (Y I) as [s [E A]]. exists s. split; [exact E|left; exact A].
          * right. split; [apply N, NI|auto].
        + left. destruct (legacy_encode_text (P2SH_PREFIX net) h (sh_sh_bytes _ _ S) B) as [s [E C]].
          exists s. split; [exact E|left; left; exact C]. }
    destruct (sh_cash _ _ S) as [[X [Y _]]|[X [Y [[p Z] _]]]]; rewrite X.
    - apply (G false); [discriminate|exact I].
    - destruct ca; [apply (G true); [intros _; eauto|reflexivity]|apply (G false); [discriminate|exact I]].
  Qed.

  Lemma pkh_address h (w ca : bool) : all_bytes h -> len h = 20 ->
    (exists s, make_pkh_address_of_hash H net h w ca = Ok (Some s) /\
       (address_for H name net (if w then P2WPKH else P2PKH) h s \/
        (w = true /\ ca = true /\ exists p, CASHADDR_PREFIX net = Some p /\ cashaddr_of p (0 :: h) s))) \/
    (make_pkh_address_of_hash H net h w ca = Err ValueError /\ w = true /\ ~ In name segwit_names).
  Proof using All.
    intros B L. unfold make_pkh_address_of_hash.
    assert (forall b, (b = true -> exists p, CASHADDR_PREFIX net = Some p /\ CASHADDR_P2PKH net = Some [0]) ->
      (if b then ca = true else True) ->
      (exists s, (if b then cashaddr_encoder_encode net ([0] ++ h) else
         if w then segwit_encoder_encode H net (P2WPKH_PREFIX net ++ h)
         else legacy_encode H net (P2PKH_PREFIX net ++ h)) = Ok (Some s) /\
       (address_for H name net (if w then P2WPKH else P2PKH) h s \/
        (w = true /\ ca = true /\ exists p, CASHADDR_PREFIX net = Some p /\ cashaddr_of p (0 :: h) s))) \/
      ((if b then cashaddr_encoder_encode net ([0] ++ h) else
         if w then segwit_encoder_encode H net (P2WPKH_PREFIX net ++ h)
         else legacy_encode H net (P2PKH_PREFIX net ++ h)) = Err ValueError /\ w = true /\ ~ In name segwit_names)) as G.
    { intros b Hb Hca. destruct b.
      - left. destruct (Hb eq_refl) as [p [Ep E8]].
        destruct (cash_encode_text p [0] h Ep ltac:(repeat constructor; lia) B) as [s [E C]].
        exists s. split; [exact E|]. destruct w.
        + right. split; [reflexivity|split; [exact Hca|]]. exists p. auto.
        + left. unfold address_for. right. exists p, [0]. auto.
      - destruct w.
        + rewrite (sh_wpkh _ _ S). change ([0; 20] ++ h) with (template P2WPKH h).
          destruct (segwit_encode_text P2WPKH h eq_refl B L) as [Y N].
          destruct (in_dec list_eq_dec_Z name segwit_names) as [I|NI].
          * left. destruct (Y I) as [s [E A]]. exists s. split; [exact E|left; exact A].
          * right. split; [apply N, NI|auto].
        + left. destruct (legacy_encode_text (P2PKH_PREFIX net) h (sh_pkh_bytes _ _ S) B) as [s [E C]].
          exists s. split; [exact E|left; left; exact C]. }
    destruct (sh_cash _ _ S) as [[X [Y _]]|[X [Y [[p Z] _]]]]; rewrite Y.
    - apply (G false); [discriminate|exact I].
    - destruct ca; [apply (G true); [intros _; eauto|reflexivity]|apply (G false); [discriminate|exact I]].
  Qed.

  Definition payment_address (k : payment) (h : bytes) (ca : bool) : res (option str) :=
    match k with
    | P2PKH => make_pkh_address_of_hash H net h false ca
    | P2SH => hash_to_sh_address H net h false ca
    | P2WPKH => make_pkh_address_of_hash H net h true ca
    | P2WSH => hash_to_sh_address H net h true ca
    end.
  Definition cash_version (k : payment) : Z := match k with P2PKH | P2WPKH => 0 | _ => 8 end.

  Lemma payment_address_cases k h ca : all_bytes h -> len h = hash_len k ->
    (exists s, payment_address k h ca = Ok (Some s) /\
       (address_for H name net k h s \/
        (is_witness_payment k = true /\ ca = true /\
         exists p, CASHADDR_PREFIX net = Some p /\ cashaddr_of p (cash_version k :: h) s))) \/
    (payment_address k h ca = Err ValueError /\ is_witness_payment k = true /\ ~ In name segwit_names).
  Proof using All.
    intros B L. destruct k; cbn [payment_address is_witness_payment cash_version].
    - destruct (pkh_address h false ca B L) as [[s [E [A|[X _]]]]|[_ [X _]]]; try discriminate X. left; eauto.
    - destruct (sh_address h false ca B L) as [[s [E [A|[X _]]]]|[_ [X _]]]; try discriminate X. left; eauto.
    - exact (pkh_address h true ca B L).
    - exact (sh_address h true ca B L).
  Qed.

  Lemma app3_inj (a h b a' h' b' : bytes) : zlen a = zlen a' -> zlen h = zlen h' ->
    a ++ h ++ b = a' ++ h' ++ b' -> a = a' /\ h = h' /\ b = b'.
  Proof using All.
    intros La Lh E. apply app_inj_zlen in E; [|exact La]. destruct E as [-> E].
    apply app_inj_zlen in E; [|exact Lh]. destruct E as [-> ->]. auto.
  Qed.

  Lemma looks_like_len k h script : looks_like k h script -> zlen h = hash_len k ->
    zlen script = match k with P2PKH => 25 | P2SH => 23 | P2WPKH => 22 | P2WSH => 34 end.
  Proof using All.
    destruct k; cbn [looks_like hash_len template]; intros L Lh.
    - destruct L as [a [b ->]]. rewrite !zlen_app, Lh. reflexivity.
    - destruct L as [a ->]. rewrite !zlen_app, Lh. reflexivity.
    - rewrite L, zlen_app, Lh. reflexivity.
    - rewrite L, zlen_app, Lh. reflexivity.
  Qed.

  Lemma from_output_script_looks k h script ca : all_bytes h -> len h = hash_len k -> looks_like k h script ->
    from_output_script H net script ca = payment_address k h ca.
  Proof using All.
    intros B L LL. change (len h) with (zlen h) in L. pose proof (looks_like_len k h script LL L) as Ls.
    pose proof (payment_address_cases k h ca B L) as C.
    unfold from_output_script. rewrite (sh_wpkh _ _ S), (sh_wsh _ _ S), Ls.
    change (zlen [0; 32] + 32) with 34. change (zlen [0; 20] + 20) with 22.
    destruct k; cbn [looks_like payment_address hash_len template] in *.
    - destruct LL as [a [b ->]]. cbn [Z.eqb Pos.eqb andb].
      assert (starts ([118; 169; 20] ++ h ++ [a; b]) [118; 169; 20] = true) as -> by (apply starts_spec; eauto).
      rewrite slice_app; [reflexivity|reflexivity|lia].
    - destruct LL as [a ->]. cbn [Z.eqb Pos.eqb andb].
      assert (starts ([169; 20] ++ h ++ [a]) [169; 20] = true) as -> by (apply starts_spec; eauto).
      rewrite slice_app; [reflexivity|reflexivity|lia].
    - subst script. cbn [Z.eqb Pos.eqb andb].
      assert (starts ([0; 20] ++ h) [0; 20] = true) as -> by (apply starts_spec; eauto).
      rewrite slice_from_neg_app by lia.
      destruct C as [[s [E _]]|[E _]]; rewrite E; reflexivity.
    - subst script. cbn [Z.eqb Pos.eqb andb].
      assert (starts ([0; 32] ++ h) [0; 32] = true) as -> by (apply starts_spec; eauto).
      rewrite slice_from_neg_app by lia.
      destruct C as [[s [E _]]|[E _]]; rewrite E; reflexivity.
  Qed.

  Lemma split_tail (l : bytes) n : 0 <= n <= zlen l -> exists a b, l = a ++ b /\ zlen a = n /\ zlen b = zlen l - n.
  Proof using All.
    intros Hn. exists (firstn (Z.to_nat n) l), (skipn (Z.to_nat n) l). rewrite firstn_skipn. split; [reflexivity|].
    unfold zlen in *. rewrite firstn_length, skipn_length. lia.
  Qed.

  Lemma from_output_script_cases script ca : all_bytes script ->
    (exists k h, all_bytes h /\ len h = hash_len k /\ looks_like k h script /\
       from_output_script H net script ca = payment_address k h ca) \/
    (from_output_script H net script ca = Err ValueError /\
     forall k h, len h = hash_len k -> ~ looks_like k h script).
  Proof using All.
    intros B.
    assert (forall k h, all_bytes h -> len h = hash_len k -> looks_like k h script ->
      exists k h, all_bytes h /\ len h = hash_len k /\ looks_like k h script /\
       from_output_script H net script ca = payment_address k h ca) as G.
    { intros k h Bh Lh LL. exists k, h. repeat split; try assumption. apply from_output_script_looks; assumption. }
    destruct (starts script [0; 32] && (zlen script =? 34)) eqn:E1.
    { left. apply starts_len in E1. destruct E1 as [h [E Lh]]. change (34 - zlen [0; 32]) with 32 in Lh.
      apply (G P2WSH h); [|exact Lh|exact E]. rewrite E in B. apply Forall_app in B. apply B. }
    destruct (starts script [0; 20] && (zlen script =? 22)) eqn:E2.
    { left. apply starts_len in E2. destruct E2 as [h [E Lh]]. change (22 - zlen [0; 20]) with 20 in Lh.
      apply (G P2WPKH h); [|exact Lh|exact E]. rewrite E in B. apply Forall_app in B. apply B. }
    destruct (starts script [118; 169; 20] && (zlen script =? 25)) eqn:E3.
    { left. apply starts_len in E3. destruct E3 as [r [E Lr]]. change (25 - zlen [118; 169; 20]) with 22 in Lr.
      destruct (split_tail r 20 ltac:(lia)) as [h [t [Er [Lh Lt]]]].
      destruct t as [|a [|b [|]]]; rewrite ?zlen_cons, ?zlen_nil in Lt; try (pose proof (zlen_nonneg t); lia); try lia;
        try (rewrite Lr in Lt; discriminate Lt).
      - apply (G P2PKH h); [|exact Lh|exists a, b; rewrite E, Er; reflexivity].
        rewrite E, Er in B. apply Forall_app in B. destruct B as [_ B]. apply Forall_app in B. apply B.
      - pose proof (zlen_nonneg l). lia. }
    destruct (starts script [169; 20] && (zlen script =? 23)) eqn:E4.
    { left. apply starts_len in E4. destruct E4 as [r [E Lr]]. change (23 - zlen [169; 20]) with 21 in Lr.
      destruct (split_tail r 20 ltac:(lia)) as [h [t [Er [Lh Lt]]]].
      destruct t as [|a [|]]; rewrite ?zlen_cons, ?zlen_nil in Lt; try lia.
      - apply (G P2SH h); [|exact Lh|exists a; rewrite E, Er; reflexivity].
        rewrite E, Er in B. apply Forall_app in B. destruct B as [_ B]. apply Forall_app in B. apply B.
      - pose proof (zlen_nonneg l). lia. }
    right. split.
    - unfold from_output_script. rewrite (sh_wpkh _ _ S), (sh_wsh _ _ S).
      change (zlen [0; 32] + 32) with 34. change (zlen [0; 20] + 20) with 22.
      rewrite andb_comm in E1, E2, E3, E4. rewrite E1, E2, E3, E4. reflexivity.
    - intros k h Lh LL. change (len h) with (zlen h) in Lh. pose proof (looks_like_len k h script LL Lh) as Ls.
      rewrite Ls in E1, E2, E3, E4. destruct k; cbn [looks_like template hash_len] in *.
      + destruct LL as [a [b ->]]. assert (starts ([118; 169; 20] ++ h ++ [a; b]) [118; 169; 20] = true) as X by (apply starts_spec; eauto).
        rewrite X in E3. discriminate E3.
      + destruct LL as [a ->]. assert (starts ([169; 20] ++ h ++ [a]) [169; 20] = true) as X by (apply starts_spec; eauto).
        rewrite X in E4. discriminate E4.
      + subst script. assert (starts ([0; 20] ++ h) [0; 20] = true) as X by (apply starts_spec; eauto).
        rewrite X in E2. discriminate E2.
      + subst script. assert (starts ([0; 32] ++ h) [0; 32] = true) as X by (apply starts_spec; eauto).
        rewrite X in E1. discriminate E1.
  Qed.

  Lemma looks_like_template k h : looks_like k h (template k h).
  Proof using All. destruct k; cbn [looks_like template]; eauto. Qed.

  Definition supported (k : payment) : Prop := is_witness_payment k = true -> In name segwit_names.

  (* C13 *)
  Lemma supported_address k h ca : all_bytes h -> len h = hash_len k -> supported k ->
    exists s, payment_address k h ca = Ok (Some s) /\ address_for H name net k h s.
  Proof using All.
    intros B L Sk. destruct (payment_address_cases k h ca B L) as [[s [E [A|[X [_ [p [Ep _]]]]]]]|[_ [X N]]].
    - eauto.
    - apply Sk, segwit_iff in X. destruct (sh_cash _ _ S) as [[_ [_ Y]]|[_ [_ [_ [_ [_ Y]]]]]]; congruence.
    - contradiction N. apply Sk, X.
  Qed.

  Lemma address_for_pays k h s : all_bytes h -> len h = hash_len k -> address_for H name net k h s ->
    to_output_script H net s = Ok (template k h) \/
    (to_output_script H net s = Err ValueError /\ is_witness_payment k = true /\
     exists hrp p, BECH32_HRP net = Some hrp /\ segwit_address hrp 0 h s /\ base58check_of H name p s).
  Proof using All.
    intros B L A. destruct (address_for_text k h s B L A) as [v [Iv T]].
    destruct (to_output_script_pays s k v h Iv L T) as [X|[X [hrp [w [prog [p [Eh [Ew [Ad C]]]]]]]]]; [left; exact X|].
    (* the accident *)
    assert (CASHADDR_PREFIX net = None) as NC.
    { destruct (sh_hrp _ _ S) as [[Q _]|[hrp' [_ [SG _]]]]; [congruence|].
      destruct (sh_cash _ _ S) as [[_ [_ Y]]|[_ [_ [_ [_ [_ Y]]]]]]; congruence. }
    assert (pays net (v ++ h) (template k h)) as P by (exists k, v, h; repeat split; assumption).
    assert (base58check_of H name (v ++ h) s -> False) as NB.
    { intros Q. assert (p = v ++ h) as -> by (eapply base58_text_fun; eassumption).
      apply base58_text in Q. rewrite to_output_script_unfold in X. unfold parse in X. rewrite Q in X. cbn [bind] in X.
      destruct (script_of_cases name net (v ++ h) S) as [[sc [Y _]]|[_ Y]]; [congruence|]. apply (Y _ P). }
    assert (forall prefix, base58check_of H name (prefix ++ h) s -> In prefix (versions net k) -> False) as NB'.
    { intros prefix Q Ip. assert (p = prefix ++ h) as -> by (eapply base58_text_fun; eassumption).
      apply base58_text in Q. rewrite to_output_script_unfold in X. unfold parse in X. rewrite Q in X. cbn [bind] in X.
      assert (pays net (prefix ++ h) (template k h)) as P' by (exists k, prefix, h; repeat split; assumption).
      destruct (script_of_cases name net (prefix ++ h) S) as [[sc [Y _]]|[_ Y]]; [congruence|]. apply (Y _ P'). }
    unfold address_for in A. destruct k; cbv zeta in A.
    - exfalso. destruct A as [Q|[q [? [Q _]]]]; [|congruence]. eapply NB'; [exact Q|left; reflexivity].
    - exfalso. destruct A as [Q|[q [? [Q _]]]]; [|congruence]. eapply NB'; [exact Q|left; reflexivity].
    - right. split; [exact X|split; [reflexivity|]]. destruct A as [_ A]. destruct (SEGWIT_ENCODER net).
      + destruct A as [hrp' [Eh' A]]. exists hrp', p. auto.
      + exfalso. apply (NB' [0; 20]); [exact A|left; reflexivity].
    - right. split; [exact X|split; [reflexivity|]]. destruct A as [_ A]. destruct (SEGWIT_ENCODER net).
      + destruct A as [hrp' [Eh' A]]. exists hrp', p. auto.
      + exfalso. apply (NB' [0; 32]); [exact A|left; reflexivity].
  Qed.

  Lemma roundtrip k h ca : all_bytes h -> len h = hash_len k -> supported k ->
    exists s, from_output_script H net (template k h) ca = Ok (Some s) /\ address_for H name net k h s /\
    (to_output_script H net s = Ok (template k h) \/
     (to_output_script H net s = Err ValueError /\ is_witness_payment k = true /\
      exists hrp p, BECH32_HRP net = Some hrp /\ segwit_address hrp 0 h s /\ base58check_of H name p s)).
  Proof using All.
    intros B L Sk. destruct (supported_address k h ca B L Sk) as [s [E A]]. exists s.
    rewrite (from_output_script_looks k h _ ca B L (looks_like_template k h)).
    split; [exact E|split; [exact A|]]. apply address_for_pays; assumption.
  Qed.

  Lemma template_len k h : len h = hash_len k ->
    zlen (template k h) = match k with P2PKH => 25 | P2SH => 23 | P2WPKH => 22 | P2WSH => 34 end.
  Proof using All. intros L. apply (looks_like_len k h); [apply looks_like_template|exact L]. Qed.

  Lemma no_shared_address k h k' h' ca ca' s : all_bytes h -> len h = hash_len k -> supported k ->
    all_bytes h' -> len h' = hash_len k' -> supported k' ->
    from_output_script H net (template k h) ca = Ok (Some s) ->
    from_output_script H net (template k' h') ca' = Ok (Some s) -> template k h = template k' h'.
  Proof using All.
    intros B L Sk B' L' Sk' E E'.
    destruct (roundtrip k h ca B L Sk) as [t [F [A T]]]. assert (t = s) as -> by congruence.
    destruct (roundtrip k' h' ca' B' L' Sk') as [t [F' [A' T']]]. assert (t = s) as -> by congruence.
    destruct T as [T|[T [Wk [hrp [p [Eh [Ad Bc]]]]]]], T' as [T'|[T' [Wk' [hrp' [p' [Eh' [Ad' Bc']]]]]]]; try congruence.
    assert (hrp' = hrp) as -> by congruence.
    assert (forall k h, len h = hash_len k -> all_bytes h -> is_witness_payment k = true -> witness_program 0 h) as W.
    { intros k0 h0 L0 B0 W0. split; [lia|split; [exact B0|]]. rewrite L0. destruct k0; try discriminate W0; cbn; lia. }
    destruct (segwit_address_program hrp 0 h 0 h' s (W k h L B Wk) (W k' h' L' B' Wk') Ad Ad') as [_ <-].
    rewrite L in L'. destruct k, k'; try discriminate; reflexivity.
  Qed.

  Definition legacy_hash (raw : bytes) :=
    if starts raw (P2SH_PREFIX net) then Ok (slice_from raw (zlen (P2SH_PREFIX net)))
    else if starts raw (P2PKH_PREFIX net) then Ok (slice_from raw (zlen (P2PKH_PREFIX net)))
    else Err ValueError.

  Lemma starts_pre (p h : bytes) : starts (p ++ h) p = true.
  Proof using All. apply starts_spec. eauto. Qed.

  Lemma legacy_hash_sh h : legacy_hash (P2SH_PREFIX net ++ h) = Ok h.
  Proof using All. unfold legacy_hash. rewrite starts_pre, slice_from_pre. reflexivity. Qed.

  Lemma legacy_hash_pkh h : legacy_hash (P2PKH_PREFIX net ++ h) = Ok h.
  Proof using All.
    unfold legacy_hash. rewrite starts_pre, slice_from_pre.
    destruct (starts _ (P2SH_PREFIX net)) eqn:E; [|reflexivity]. exfalso.
    apply starts_spec in E. destruct E as [r E].
    destruct (sh_legacy _ _ S) as [[a [b [A [B [D _]]]]]|[_ [a [a' [b [b' [A [B [D _]]]]]]]]];
      rewrite A, B in E; cbn [app] in E; congruence.
  Qed.

  Lemma base58_hd_zero p s : base58check_of H name (0 :: p) s -> hd 0 s = 49.
  Proof using All.
    intros [_ [ds [D [-> [V L]]]]]. cbn [app leading] in L.
    destruct ds as [|d ds]; [discriminate L|]. cbn [leading] in L.
    destruct (Z.eqb_spec d 0) as [->|]; [reflexivity|discriminate L].
  Qed.

  (* the segwit part of parse_hash does not disturb a base58 address *)
  Lemma segwit_part raw s (r : res bytes) : base58check_of H name raw s ->
    match BECH32_HRP net with
    | Some hrp =>
        if starts s hrp
        then if starts raw (P2WSH_PREFIX net)
             then Ok (slice_from raw (zlen (P2WSH_PREFIX net)))
             else if starts raw (P2WPKH_PREFIX net)
             then Ok (slice_from raw (zlen (P2WPKH_PREFIX net)))
             else r
        else r
    | None => r
    end = r.
  Proof using All.
    intros T. destruct (BECH32_HRP net) as [hrp|] eqn:Eh; [|reflexivity].
    destruct (starts s hrp) eqn:E; [|reflexivity]. apply starts_spec in E. destruct E as [t ->].
    destruct (sh_hrp _ _ S) as [[X _]|[hrp' [X [_ [Y Z]]]]]; [congruence|].
    rewrite Eh in X. injection X as <-.
    rewrite (sh_wpkh _ _ S), (sh_wsh _ _ S).
    assert (forall q x, raw = 0 :: x -> q = 0 -> False) as N.
    { intros q x -> _. apply base58_hd_zero in T. destruct hrp; [rewrite zlen_nil in Y; lia|]. exact (Z T). }
    destruct (starts raw [0; 32]) eqn:E1.
    { exfalso. apply starts_spec in E1. destruct E1 as [x E1]. exact (N 0 _ E1 eq_refl). }
    destruct (starts raw [0; 20]) eqn:E2; [|reflexivity].
    exfalso. apply starts_spec in E2. destruct E2 as [x E2]. exact (N 0 _ E2 eq_refl).
  Qed.

  Lemma parse_base58 s raw : base58check_of H name raw s -> parse H net s = Ok raw.
  Proof using All. intros T. apply base58_text in T. unfold parse. rewrite T. reflexivity. Qed.

  Lemma parse_hash_legacy s raw h : base58check_of H name raw s -> legacy_hash raw = Ok h ->
    (CASHADDR_P2SH net <> None -> (forall x, raw <> 8 :: x) /\ (forall x, raw = 0 :: x -> P2PKH_PREFIX net = [0])) ->
    parse_hash H net s = Ok h.
  Proof using All.
    intros T Eh NN. unfold parse_hash. rewrite (parse_base58 s raw T). cbn [bind]. cbv zeta.
    unfold legacy_hash in Eh. rewrite segwit_part by exact T. rewrite Eh.
    destruct (sh_cash _ _ S) as [[X [Y Z]]|[X [Y [[p Z] _]]]]; rewrite Z; [reflexivity|]. rewrite X, Y.
    rewrite X in NN. destruct (NN ltac:(discriminate)) as [N8 N0].
    destruct (starts s p); [|reflexivity].
    destruct (starts raw [8]) eqn:E8.
    { exfalso. apply starts_spec in E8. destruct E8 as [x E8]. exact (N8 _ E8). }
    destruct (starts raw [0]) eqn:E0; [|reflexivity].
    apply starts_spec in E0. destruct E0 as [x E0]. specialize (N0 _ E0).
    rewrite E0, slice_from_pre. fold (legacy_hash raw) in Eh. rewrite E0, <- N0, legacy_hash_pkh in Eh. congruence.
  Qed.

  Lemma parse_hash_cash s raw h v p : CASHADDR_PREFIX net = Some p -> address_text H name net s raw ->
    cashaddr_of p raw s -> raw = v :: h -> v = 0 \/ v = 8 -> parse_hash H net s = Ok h.
  Proof using All.
    intros Ep T C -> Hv.
    assert (parse H net s = Ok (v :: h)) as Pa.
    { destruct (parse_of_text s _ T) as [E|[hrp [w [prog [q [Eh _]]]]]]; [exact E|].
      destruct (sh_hrp _ _ S) as [[Q _]|[hrp' [_ [SG _]]]]; [congruence|].
      destruct (sh_cash _ _ S) as [[_ [_ Y]]|[_ [_ [_ [_ [_ Y]]]]]]; congruence. }
    unfold parse_hash. rewrite Pa. cbn [bind]. rewrite Ep.
    destruct C as [data [check [_ [_ [_ [_ Es]]]]]].
    assert (starts s p = true) as -> by (rewrite Es; apply starts_pre).
    destruct (sh_cash _ _ S) as [[X [Y Z]]|[X [Y [[p' Z] _]]]]; [congruence|]. rewrite X, Y.
    destruct Hv as [->| ->].
    - assert (starts (0 :: h) [8] = false) as -> by (unfold starts; rewrite find_0; reflexivity). assert (starts (0 :: h) [0] = true) as -> by apply (starts_pre [0] h).
      f_equal. apply (slice_from_pre [0] h).
    - assert (starts (8 :: h) [8] = true) as -> by apply (starts_pre [8] h).
      f_equal. apply (slice_from_pre [8] h).
  Qed.

  Lemma parse_hash_bech32 s hrp k h : is_witness_payment k = true -> SEGWIT_ENCODER net = Enc_bech32 ->
    BECH32_HRP net = Some hrp -> all_bytes h -> len h = hash_len k -> segwit_address hrp 0 h s ->
    parse_hash H net s = Ok h \/ exists p, base58check_of H name p s.
  Proof using All.
    intros Wk Ee Eh B L A.
    pose proof (good_hrps _ _ _ En Eh) as [_ [Gl _]]. pose proof (segwit_address_lower hrp 0 h s Gl A) as Lo.
    assert (witness_program 0 h) as W.
    { split; [lia|split; [exact B|]]. rewrite L. destruct k; try discriminate Wk; cbn; lia. }
    assert (address_text H name net s (witness_bytes 0 h)) as T.
    { apply (text_bech32 H name net s _ hrp 0 h); try assumption; [reflexivity|left; exact Lo|rewrite Lo; exact A]. }
    destruct (parse_of_text s _ T) as [E|[hrp' [w [prog [q [_ [_ [_ [_ [Q _]]]]]]]]]]; [|right; eauto]. left.
    unfold parse_hash. rewrite E. cbn [bind].
    destruct (sh_hrp _ _ S) as [[Q _]|[hrp' [_ [SG _]]]]; [congruence|].
    destruct (sh_cash _ _ S) as [[_ [_ Y]]|[_ [_ [_ [_ [_ Y]]]]]]; [|congruence].
    rewrite Y, Eh, (sh_wsh _ _ S), (sh_wpkh _ _ S).
    assert (starts s hrp = true) as ->.
    { destruct A as [g5 [_ [[c [_ [_ [_ ->]]]] _]]]. apply starts_pre. }
    unfold witness_bytes. rewrite L. destruct k; try discriminate Wk; cbn [hash_len].
    - assert (starts (0 :: 20 :: h) [0; 32] = false) as ->.
      { unfold starts. rewrite find_0. reflexivity. }
      assert (starts (0 :: 20 :: h) [0; 20] = true) as -> by apply (starts_pre [0; 20] h).
      f_equal. apply (slice_from_pre [0; 20] h).
    - assert (starts (0 :: 32 :: h) [0; 32] = true) as -> by apply (starts_pre [0; 32] h).
      f_equal. apply (slice_from_pre [0; 32] h).
  Qed.

  (* C16: the hash of a made address *)
  Lemma parse_hash_payment k h ca s : all_bytes h -> len h = hash_len k ->
    payment_address k h ca = Ok (Some s) ->
    (is_witness_payment k = true -> ~ (In name segwit_names /\ SEGWIT_ENCODER net = Enc_base58)) ->
    parse_hash H net s = Ok h \/
    (is_witness_payment k = true /\ SEGWIT_ENCODER net = Enc_bech32 /\ exists p, base58check_of H name p s).
  Proof using All.
    intros B L E NB.
    assert (forall p q x, CASHADDR_PREFIX net = Some p -> (q = 0 \/ q = 8) -> (zlen h = 20 \/ zlen h = 32) ->
       cashaddr_of p (q :: h) x -> parse_hash H net x = Ok h) as GC.
    { intros p q x Ep Hq Lh C.
      destruct (cash_text p [q] h x Ep) as [T _]; [repeat constructor; lia|exact B| |exact C|].
      - unfold len, zlen in *. cbn [app length].
        destruct Lh as [Lh|Lh]; [replace (Z.of_nat (Datatypes.S (length h))) with 21 by lia|
          replace (Z.of_nat (Datatypes.S (length h))) with 33 by lia]; discriminate.
      - eapply parse_hash_cash; try eassumption. reflexivity. }
    assert (zlen h = 20 \/ zlen h = 32) as L' by (change (len h) with (zlen h) in L; destruct k; cbn in L; lia).
    destruct (payment_address_cases k h ca B L) as [[s' [E' A]]|[E' _]]; [|congruence].
    assert (s' = s) as -> by congruence. clear E'.
    destruct A as [A|[_ [_ [p [Ep C]]]]].
    2: { left. eapply GC; try eassumption. destruct k; cbn; auto. }
    assert (CASHADDR_P2SH net <> None -> exists a b, P2PKH_PREFIX net = [a] /\ P2SH_PREFIX net = [b] /\ a <> 8 /\ b <> 8 /\ b <> 0) as GL.
    { intros NC. destruct (sh_cash _ _ S) as [[C1 _]|[C1 [C2 [_ [C4 [C5 _]]]]]]; [congruence|].
      destruct (sh_legacy _ _ S) as [[a [b [A' [B' [_ N0]]]]]|[C' _]]; [|congruence].
      exists a, b. rewrite A' in C4. rewrite B' in C5. repeat split; congruence. }
    unfold address_for in A. destruct k; cbv zeta in A.
    - left. destruct A as [T|[p [q [Ep [Eq C]]]]].
      + eapply parse_hash_legacy; [exact T|apply legacy_hash_pkh|].
        intros NC. destruct (GL NC) as [a [b [Ea [Eb [N1 [N2 N3]]]]]]. rewrite Ea. cbn [app].
        split; intros x Q; congruence.
      + destruct (sh_cash _ _ S) as [[_ [X _]]|[_ [X _]]]; rewrite X in Eq; [discriminate|]. injection Eq as <-.
        eapply (GC p 0); auto.
    - left. destruct A as [T|[p [q [Ep [Eq C]]]]].
      + eapply parse_hash_legacy; [exact T|apply legacy_hash_sh|].
        intros NC. destruct (GL NC) as [a [b [Ea [Eb [N1 [N2 N3]]]]]]. rewrite Eb. cbn [app].
        split; intros x Q; congruence.
      + destruct (sh_cash _ _ S) as [[X _]|[X _]]; rewrite X in Eq; [discriminate|]. injection Eq as <-.
        eapply (GC p 8); auto.
    - destruct A as [I A]. destruct (SEGWIT_ENCODER net) eqn:Ee; [|destruct (NB eq_refl); auto].
      destruct A as [hrp [Eh A]].
      destruct (parse_hash_bech32 s hrp P2WPKH h eq_refl Ee Eh B L A) as [X|X]; [left; exact X|right; auto].
    - destruct A as [I A]. destruct (SEGWIT_ENCODER net) eqn:Ee; [|destruct (NB eq_refl); auto].
      destruct A as [hrp [Eh A]].
      destruct (parse_hash_bech32 s hrp P2WSH h eq_refl Ee Eh B L A) as [X|X]; [left; exact X|right; auto].
  Qed.

  (* C16: a base58 witness address loses its hash *)
  Lemma parse_hash_base58_witness k h ca s : is_witness_payment k = true -> all_bytes h -> len h = hash_len k ->
    In name segwit_names -> SEGWIT_ENCODER net = Enc_base58 -> payment_address k h ca = Ok (Some s) ->
    parse_hash H net s = (if leqb (P2PKH_PREFIX net) [0] then Ok (hash_len k :: h) else Err ValueError).
  Proof using All.
    intros Wk B L I Ee E.
    destruct (supported_address k h ca B L (fun _ => I)) as [s' [E' A]]. assert (s' = s) as -> by congruence.
    assert (base58check_of H name (0 :: hash_len k :: h) s) as T.
    { unfold address_for in A. destruct k; try discriminate Wk; cbv zeta in A; rewrite Ee in A; apply A. }
    unfold parse_hash. rewrite (parse_base58 s _ T). cbn [bind]. cbv zeta.
    rewrite segwit_part by exact T.
    destruct (no_cash_segwit I) as [C1 C2].
    destruct (sh_cash _ _ S) as [[_ [_ Z]]|[C1' _]]; [|congruence]. rewrite Z.
    destruct (sh_legacy _ _ S) as [[a [b [P1 [P2 [D N0]]]]]|[_ [a [a' [b [b' [P1 [P2 [D [NA NB']]]]]]]]]]; rewrite P1, P2.
    - unfold starts. rewrite !find_0. cbn [is_prefix leqb].
      destruct (Z.eqb_spec b 0) as [->|_]; [contradiction|]. cbn [andb].
      destruct (Z.eqb_spec a 0) as [->|N]; cbn [andb]; [|reflexivity]. f_equal. apply (slice_from_pre [0]).
    - unfold starts. rewrite !find_0. cbn [is_prefix leqb].
      destruct (Z.eqb_spec b 0) as [->|_]; [contradiction|]. cbn [andb].
      destruct (Z.eqb_spec a 0) as [->|N]; [contradiction|reflexivity].
  Qed.
End Net.

(* statements in the form of PAddr.v *)
Lemma c13_lemma H name net k h cashaddr :
  hashes_ok H -> get_network name = Ok net -> all_bytes h -> len h = hash_len k ->
  (is_witness_payment k = true -> In name segwit_names) ->
  exists s, from_output_script H net (template k h) cashaddr = Ok (Some s) /\
    address_for H name net k h s /\
    (to_output_script H net s = Ok (template k h) \/
     (to_output_script H net s = Err ValueError /\ is_witness_payment k = true /\
      exists hrp p, BECH32_HRP net = Some hrp /\ segwit_address hrp 0 h s /\ base58check_of H name p s)).
Proof. intros K En B L Sk. exact (roundtrip H name net K En k h cashaddr B L Sk). Qed.

Lemma c14_exact_lemma H name net s script :
  hashes_ok H -> get_network name = Ok net -> to_output_script H net s = Ok script ->
  exists k v h, script = template k h /\ len h = hash_len k /\ all_bytes h /\
    In v (versions net k) /\ address_text H name net s (v ++ h).
Proof. intros K En. exact (to_output_script_inv H name net K En s script). Qed.

Lemma c14_err_lemma H name net s : hashes_ok H -> get_network name = Ok net ->
  (exists script, to_output_script H net s = Ok script) \/ to_output_script H net s = Err ValueError.
Proof. intros K En. exact (to_output_script_err H name net K En s). Qed.

Lemma c14_complete_lemma H name net s k v h :
  hashes_ok H -> get_network name = Ok net -> In v (versions net k) -> len h = hash_len k ->
  address_text H name net s (v ++ h) ->
  to_output_script H net s = Ok (template k h) \/
  (to_output_script H net s = Err ValueError /\
   exists hrp w prog p, BECH32_HRP net = Some hrp /\ v ++ h = witness_bytes w prog /\
     segwit_address hrp w prog (lower s) /\ base58check_of H name p s).
Proof. intros K En. exact (to_output_script_pays H name net K En s k v h). Qed.

Lemma c15_cases_lemma H name net script cashaddr : hashes_ok H -> get_network name = Ok net -> all_bytes script ->
  (exists k h, all_bytes h /\ len h = hash_len k /\ looks_like k h script /\
     from_output_script H net script cashaddr = from_output_script H net (template k h) cashaddr) \/
  (from_output_script H net script cashaddr = Err ValueError /\
   forall k h, len h = hash_len k -> ~ looks_like k h script).
Proof.
  intros K En B. destruct (from_output_script_cases H name net K En script cashaddr B) as [[k [h [Bh [Lh [LL E]]]]]|X]; [left|right; exact X].
  exists k, h. repeat split; try assumption. rewrite E. symmetry.
  apply (from_output_script_looks H name net K En); [assumption..|apply looks_like_template with (H := H) (name := name) (net := net); assumption].
Qed.

Lemma c15_partial_lemma H name net k h s cashaddr :
  hashes_ok H -> get_network name = Ok net -> all_bytes h -> len h = hash_len k ->
  (is_witness_payment k = true -> In name segwit_names) ->
  from_output_script H net (template k h) cashaddr = Ok (Some s) ->
  address_for H name net k h s /\
  (forall script, to_output_script H net s = Ok script -> script = template k h).
Proof.
  intros K En B L Sk E. destruct (roundtrip H name net K En k h cashaddr B L Sk) as [t [E' [A T]]].
  assert (t = s) as -> by congruence. split; [exact A|]. intros script Es. destruct T as [T|[T _]]; congruence.
Qed.

Lemma c15_distinct_lemma H name net k h k' h' cashaddr cashaddr' s :
  hashes_ok H -> get_network name = Ok net ->
  all_bytes h -> len h = hash_len k -> (is_witness_payment k = true -> In name segwit_names) ->
  all_bytes h' -> len h' = hash_len k' -> (is_witness_payment k' = true -> In name segwit_names) ->
  from_output_script H net (template k h) cashaddr = Ok (Some s) ->
  from_output_script H net (template k' h') cashaddr' = Ok (Some s) ->
  template k h = template k' h'.
Proof. intros K En. exact (no_shared_address H name net K En k h k' h' cashaddr cashaddr' s). Qed.

Lemma c15_unsupported_lemma H name net k h cashaddr :
  hashes_ok H -> get_network name = Ok net -> all_bytes h -> len h = hash_len k ->
  is_witness_payment k = true -> ~ In name segwit_names ->
  from_output_script H net (template k h) cashaddr = Err ValueError \/
  (cashaddr = true /\ exists p s, CASHADDR_PREFIX net = Some p /\
   cashaddr_of p ((match k with P2WPKH => 0 | _ => 8 end) :: h) s /\
   from_output_script H net (template k h) cashaddr = Ok (Some s)).
Proof.
  intros K En B L Wk N.
  rewrite (from_output_script_looks H name net K En k h _ cashaddr B L (looks_like_template H name net K En k h)).
  destruct (payment_address_cases H name net K En k h cashaddr B L) as [[s [E [A|[_ [Ca [p [Ep C]]]]]]]|[E _]].
  - exfalso. unfold address_for in A. destruct k; try discriminate Wk; apply N, A.
  - right. split; [exact Ca|]. exists p, s. split; [exact Ep|split; [|exact E]]. destruct k; try discriminate Wk; exact C.
  - left. exact E.
Qed.

Lemma hash160_key_hash H name net m : get_network name = Ok net -> hash160 H net m = key_hash H name m.
Proof.
  intros En. unfold key_hash. destruct (hash160_by_name H name net m En) as [A B].
  destruct in_dec as [I|N]; [apply A, I|apply B, N].
Qed.

Lemma key_hash_ok H name m : hashes_ok H -> all_bytes (key_hash H name m) /\ len (key_hash H name m) = 20.
Proof. intros [_ [K _]]. unfold key_hash. split; apply K. Qed.

Lemma script_hash_ok H m : hashes_ok H -> all_bytes (h_sha256 H m) /\ len (h_sha256 H m) = 32.
Proof. intros [K _]. split; apply K. Qed.

Lemma made_lemma H name net k h ca : hashes_ok H -> get_network name = Ok net -> all_bytes h -> len h = hash_len k ->
  (is_witness_payment k = true -> In name segwit_names) ->
  (is_witness_payment k = true -> SEGWIT_ENCODER net = Enc_bech32) ->
  exists s, payment_address H net k h ca = Ok (Some s) /\ address_for H name net k h s /\
    ((exists p, is_witness_payment k = true /\ base58check_of H name p s) \/
     (parse_hash H net s = Ok h /\ to_output_script H net s = Ok (template k h))).
Proof.
  intros K En B L Sk Sb. destruct (supported_address H name net K En k h ca B L Sk) as [s [E A]].
  exists s. split; [exact E|split; [exact A|]].
  destruct (parse_hash_payment H name net K En k h ca s B L E) as [P|[Wk [_ [p P]]]];
    [intros Wk [_ X]; rewrite (Sb Wk) in X; discriminate| |left; eauto].
  destruct (address_for_pays H name net K En k h s B L A) as [T|[_ [Wk [_ [p [_ [_ T]]]]]]]; [right; auto|left; eauto].
Qed.

Lemma c16_key_lemma H name net pubkey cashaddr : hashes_ok H -> get_network name = Ok net ->
  exists s, make_pkh_address H net pubkey false cashaddr = Ok (Some s) /\
    address_for H name net P2PKH (key_hash H name pubkey) s /\
    parse_hash H net s = Ok (key_hash H name pubkey) /\
    to_output_script H net s = Ok (template P2PKH (key_hash H name pubkey)).
Proof.
  intros K En. destruct (key_hash_ok H name pubkey K) as [B L].
  destruct (made_lemma H name net P2PKH _ cashaddr K En B L ltac:(discriminate) ltac:(discriminate)) as [s [E [A [[p [X _]]|X]]]];
    [discriminate X|].
  exists s. unfold make_pkh_address. rewrite (hash160_key_hash H name net _ En). auto.
Qed.

Lemma c16_script_lemma H name net script b cashaddr : hashes_ok H -> get_network name = Ok net ->
  serialize net script = Ok b ->
  exists s, make_sh_address H net script false cashaddr = Ok (Some s) /\
    address_for H name net P2SH (key_hash H name b) s /\
    parse_hash H net s = Ok (key_hash H name b) /\
    to_output_script H net s = Ok (template P2SH (key_hash H name b)).
Proof.
  intros K En Eb. destruct (key_hash_ok H name b K) as [B L].
  destruct (made_lemma H name net P2SH _ cashaddr K En B L ltac:(discriminate) ltac:(discriminate)) as [s [E [A [[p [X _]]|X]]]];
    [discriminate X|].
  exists s. unfold make_sh_address. rewrite Eb. cbn [bind]. unfold ser_script_to_sh_address.
  rewrite (hash160_key_hash H name net _ En). auto.
Qed.

Lemma c16_wkey_lemma H name net pubkey cashaddr : hashes_ok H -> get_network name = Ok net ->
  In name segwit_names -> SEGWIT_ENCODER net = Enc_bech32 ->
  exists s, make_pkh_address H net pubkey true cashaddr = Ok (Some s) /\
    address_for H name net P2WPKH (key_hash H name pubkey) s /\
    ((exists p, base58check_of H name p s) \/
     (parse_hash H net s = Ok (key_hash H name pubkey) /\
      to_output_script H net s = Ok (template P2WPKH (key_hash H name pubkey)))).
Proof.
  intros K En I Ee. destruct (key_hash_ok H name pubkey K) as [B L].
  destruct (made_lemma H name net P2WPKH _ cashaddr K En B L (fun _ => I) (fun _ => Ee)) as [s [E [A [[p [_ X]]|X]]]];
  exists s; unfold make_pkh_address; rewrite (hash160_key_hash H name net _ En); split; try exact E; split; eauto.
Qed.

Lemma c16_wscript_lemma H name net script b cashaddr : hashes_ok H -> get_network name = Ok net ->
  In name segwit_names -> SEGWIT_ENCODER net = Enc_bech32 -> serialize net script = Ok b ->
  exists s, make_sh_address H net script true cashaddr = Ok (Some s) /\
    address_for H name net P2WSH (h_sha256 H b) s /\
    ((exists p, base58check_of H name p s) \/
     (parse_hash H net s = Ok (h_sha256 H b) /\
      to_output_script H net s = Ok (template P2WSH (h_sha256 H b)))).
Proof.
  intros K En I Ee Eb. destruct (script_hash_ok H b K) as [B L].
  destruct (made_lemma H name net P2WSH _ cashaddr K En B L (fun _ => I) (fun _ => Ee)) as [s [E [A [[p [_ X]]|X]]]];
  exists s; unfold make_sh_address; rewrite Eb; cbn [bind]; unfold ser_script_to_sh_address, sha256; split; try exact E; split; eauto.
Qed.

Lemma c16_bad_script_lemma H net script w cashaddr e :
  serialize net script = Err e -> make_sh_address H net script w cashaddr = Err e.
Proof. intros E. unfold make_sh_address. rewrite E. reflexivity. Qed.

(* the networks whose witness addresses are Base58 *)
Lemma c16_base58_lemma H name net pubkey cashaddr : hashes_ok H -> get_network name = Ok net ->
  In name segwit_names -> SEGWIT_ENCODER net = Enc_base58 ->
  exists s, make_pkh_address H net pubkey true cashaddr = Ok (Some s) /\
    to_output_script H net s = Ok (template P2WPKH (key_hash H name pubkey)) /\
    parse_hash H net s = (if leqb (P2PKH_PREFIX net) [0] then Ok (20 :: key_hash H name pubkey) else Err ValueError).
Proof.
  intros K En I Ee. destruct (key_hash_ok H name pubkey K) as [B L]. set (h := key_hash H name pubkey) in *.
  destruct (supported_address H name net K En P2WPKH h cashaddr B L (fun _ => I)) as [s [E A]].
  exists s. unfold make_pkh_address. rewrite (hash160_key_hash H name net _ En). split; [exact E|].
  split; [|exact (parse_hash_base58_witness H name net K En P2WPKH h cashaddr s eq_refl B L I Ee E)].
  rewrite to_output_script_unfold.
  unfold address_for in A. cbv zeta in A. rewrite Ee in A. destruct A as [_ A].
  rewrite (parse_base58 H name net K En s _ A). cbn [bind].
  assert (pays net (0 :: hash_len P2WPKH :: h) (template P2WPKH h)) as P.
  { exists P2WPKH, [0; 20], h. repeat split; [left; reflexivity|exact L]. }
  destruct (script_of_cases name net (0 :: hash_len P2WPKH :: h) (shapes _ _ En)) as [[sc [Q P']]|[_ N]]; [|destruct (N _ P)].
  rewrite Q. f_equal. eapply pays_fun; [exact (shapes _ _ En)|exact P'|exact P].
Qed.
