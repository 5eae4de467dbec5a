(* Lemmas for PParseHash.v *)
From Coq Require Import String.
From Verif Require Import Py MNet MUtils MScript MBase58 MAddr SNum SHash SNet SBase58 SBits SBch SBech32 SCashaddr SAddr SParseHash
  LBase LNet LBase58 LBits LBech32 LCashaddr LAddr.
Open Scope list_scope.
Open Scope Z_scope.

Lemma strip_starts p l : strip p l = if starts l p then Some (slice_from l (zlen p)) else None.
Proof.
  unfold starts. rewrite find_0. destruct (is_prefix p l) eqn:E.
  - apply is_prefix_spec in E. destruct E as [r ->]. rewrite slice_from_pre.
    induction p as [|x p IH]; cbn [strip app]; [reflexivity|]. rewrite Z.eqb_refl. exact IH.
  - revert l E. induction p as [|x p IH]; intros l E; [discriminate|].
    destruct l as [|y l]; [reflexivity|]. cbn [is_prefix strip] in *. destruct (x =? y); [apply IH, E|reflexivity].
Qed.

Lemma template_inj k h k' h' : len h = hash_len k -> len h' = hash_len k' -> template k h = template k' h' -> k = k' /\ h = h'.
Proof.
  intros L L' E. change (len h) with (zlen h) in L. change (len h') with (zlen h') in L'.
  assert (zlen (template k h) = zlen (template k' h')) as Z by (rewrite E; reflexivity).
  destruct k, k'; cbn [template hash_len] in *; rewrite !zlen_app in Z; rewrite L, L' in Z; try discriminate Z;
    (split; [reflexivity|]); cbn [app] in E;
    repeat match goal with E : _ :: _ = _ :: _ |- _ => injection E as E end; try assumption;
    apply app_inj_zlen in E; try lia; apply E.
Qed.

Section Net.
  Context (H : hashes) (name : str) (net : network).
  Context (K : hashes_ok H) (En : get_network name = Ok net).
  Let S : shape name net := shapes name net En.

  Lemma behind_legacy_hash raw : behind_legacy net raw =
    if starts raw (P2SH_PREFIX net) then Ok (slice_from raw (zlen (P2SH_PREFIX net)))
    else if starts raw (P2PKH_PREFIX net) then Ok (slice_from raw (zlen (P2PKH_PREFIX net)))
    else Err ValueError.
  Proof using All.
    unfold behind_legacy. rewrite !strip_starts. destruct (starts raw (P2SH_PREFIX net)); [reflexivity|].
    destruct (starts raw (P2PKH_PREFIX net)); reflexivity.
  Qed.

  Lemma behind_cash_hash raw : behind_cash net raw =
    if starts raw [8] then Ok (slice_from raw (zlen [8])) else
    if starts raw [0] then Ok (slice_from raw (zlen [0])) else behind_legacy net raw.
  Proof using All.
    destruct raw as [|x raw]; [reflexivity|]. unfold starts. rewrite !find_0. cbn [is_prefix]. rewrite !andb_true_r.
    destruct (Z.eqb_spec 8 x) as [<-|N8]; [change (8 :: raw) with ([8] ++ raw); rewrite slice_from_pre; reflexivity|].
    destruct (Z.eqb_spec 0 x) as [<-|N0]; [change (0 :: raw) with ([0] ++ raw); rewrite slice_from_pre; reflexivity|].
    unfold behind_cash. destruct x as [|[p|p|]|p]; try reflexivity; try congruence.
    destruct p as [p|p|]; try reflexivity. destruct p as [p|p|]; try reflexivity. destruct p; try reflexivity. congruence.
  Qed.

  (* parse_hash after parse *)
  Lemma parse_hash_of s raw : parse H net s = Ok raw -> parse_hash H net s =
    (let segwit := match BECH32_HRP net with
       | Some hrp => if starts s hrp
         then if starts raw [0; 32] then Ok (slice_from raw 2)
              else if starts raw [0; 20] then Ok (slice_from raw 2) else behind_legacy net raw
         else behind_legacy net raw
       | None => behind_legacy net raw end in
     match CASHADDR_PREFIX net with
     | Some cp => if starts s cp then behind_cash net raw else behind_legacy net raw
     | None => segwit
     end).
  Proof using All.
    intros E. unfold parse_hash. rewrite E. cbn [bind]. cbv zeta. rewrite <- !behind_legacy_hash.
    rewrite (sh_wsh _ _ S), (sh_wpkh _ _ S). change (zlen [0; 32]) with 2. change (zlen [0; 20]) with 2.
    destruct (sh_cash _ _ S) as [[X [Y Z]]|[X [Y [[p Z] [_ [_ SG]]]]]]; rewrite Z; [reflexivity|]. rewrite X, Y.
    assert (BECH32_HRP net = None) as ->.
    { destruct (sh_hrp _ _ S) as [[Q _]|[hrp [_ [Q _]]]]; [exact Q|congruence]. }
    rewrite behind_cash_hash. reflexivity.
  Qed.

  Lemma behind_cash_other raw : (forall h, raw <> 8 :: h) -> (forall h, raw = 0 :: h -> P2PKH_PREFIX net = [0]) ->
    behind_cash net raw = behind_legacy net raw.
  Proof using All.
    intros N8 N0. rewrite behind_cash_hash.
    destruct (starts raw [8]) eqn:E8. { apply starts_spec in E8. destruct E8 as [r E8]. contradiction (N8 r). }
    destruct (starts raw [0]) eqn:E0; [|reflexivity]. apply starts_spec in E0. destruct E0 as [r ->].
    rewrite slice_from_pre. specialize (N0 r eq_refl).
    unfold behind_legacy. rewrite N0.
    destruct (sh_legacy _ _ S) as [[a [b [A [B [D N]]]]]|[_ [a [a' [b [b' [A [B [D _]]]]]]]]]; [|congruence].
    rewrite B. cbn [strip app]. destruct (Z.eqb_spec b 0); [contradiction|]. reflexivity.
  Qed.

  Lemma cash_b p : CASHADDR_PREFIX net = Some p -> exists t, p = 98 :: t.
  Proof using All.
    intros E. assert (match CASHADDR_PREFIX net with Some p => hd 0 p =? 98 | None => true end = true) as B.
    { apply (supported_forall (fun _ n => match CASHADDR_PREFIX n with Some p => hd 0 p =? 98 | None => true end)) with (name := name);
      [vm_compute; reflexivity|exact En]. }
    rewrite E in B. destruct p as [|x p]; [discriminate|]. cbn [hd] in B. exists p. f_equal. lia.
  Qed.

  (* a Base58Check text that opens with 'b' is not a 21-byte payload of version 8 *)
  Lemma no_b8 h t : base58check_of H name (8 :: h) (98 :: t) -> len h = 20 -> False.
  Proof using All.
    intros [B T] Lh.
    set (sum := firstn 4 (if in_dec list_eq_dec_Z name decred_names then blake256d H (8 :: h) else sha256d H (8 :: h))) in *.
    assert (zlen sum = 4 /\ is_bytes sum) as [Ls Bs].
    { destruct (digest_ok H name net K En (8 :: h)) as [W V]. split; [|apply is_bytes_firstn, V].
      unfold sum, zlen in *. rewrite firstn_length. lia. }
    destruct T as [ds [D [Es [V _]]]].
    destruct ds as [|d ds]; [discriminate|]. cbn [map] in Es. injection Es as Ed Et.
    inversion D as [|? ? Hd Hds]; subst.
    assert (d = 34) as ->.
    { revert Ed Hd. clear. intros Ed Hd.
      assert (forallb (fun i => negb (b58_char (Z.of_nat i) =? 98) || (Nat.eqb i 34)) (seq 0 58) = true) as F by (vm_compute; reflexivity).
      rewrite forallb_forall in F. specialize (F (Z.to_nat d)). rewrite in_seq, Z2Nat.id in F by lia. specialize (F ltac:(lia)).
      rewrite <- Ed, Z.eqb_refl in F. cbn [negb orb] in F. apply Nat.eqb_eq in F. lia. }
    change (zlen h = 20) in Lh.
    assert (8 * 58 ^ 33 <= 1) as X; [|revert X; vm_compute; congruence].
    pose proof (be_num_range 58 ds ltac:(lia) Hds) as R1.
    assert (is_bytes (h ++ sum)) as Bh by (apply is_bytes_app; split; [inversion B; assumption|exact Bs]).
    pose proof (be_num_range 256 (h ++ sum) ltac:(lia) Bh) as R2.
    cbn [app] in V. rewrite !be_num_cons in V. rewrite zlen_app, Lh, Ls in *.
    pose proof (zlen_nonneg ds) as N.
    exfalso. destruct (Z_le_gt_dec 33 (zlen ds)) as [G|G].
    - assert (58 ^ 33 <= 58 ^ zlen ds) by (apply Z.pow_le_mono_r; lia).
      assert (9 * 256 ^ 24 < 34 * 58 ^ 33) by (vm_compute; reflexivity). change (20 + 4) with 24 in *. lia.
    - assert (58 ^ (zlen ds + 1) <= 58 ^ 33) as Q by (apply Z.pow_le_mono_r; lia). rewrite Z.pow_add_r in Q by lia.
      assert (58 ^ 33 < 8 * 256 ^ 24) by (vm_compute; reflexivity). change (20 + 4) with 24 in *. lia.
  Qed.

  Lemma parse_hash_base58_lemma s raw : base58check_of H name raw s ->
    (forall p t, CASHADDR_PREFIX net = Some p -> s <> p ++ t) \/ len raw = 21 ->
    parse_hash H net s = behind_legacy net raw.
  Proof using All.
    intros T C. rewrite (parse_hash_of s raw (parse_base58 H name net K En s raw T)). cbv zeta.
    destruct (CASHADDR_PREFIX net) as [p|] eqn:Ep.
    - destruct (starts s p) eqn:E; [|reflexivity]. apply starts_spec in E. destruct E as [t E].
      destruct C as [C|L]; [contradiction (C p t eq_refl E)|].
      destruct (cash_b p Ep) as [p' ->]. apply behind_cash_other.
      + intros h ->. rewrite E in T. cbn [app] in T. apply (no_b8 h (p' ++ t) T).
        revert L. unfold len. cbn [length]. lia.
      + intros h ->. rewrite E in T. apply (base58_hd_zero H name net K En) in T. discriminate T.
    - pose proof (segwit_part H name net K En raw s (behind_legacy net raw) T) as P.
      rewrite (sh_wsh _ _ S), (sh_wpkh _ _ S) in P. exact P.
  Qed.

  Lemma parse_hash_base58_cash_lemma s raw p t : base58check_of H name raw s -> CASHADDR_PREFIX net = Some p -> s = p ++ t ->
    parse_hash H net s = behind_cash net raw.
  Proof using All.
    intros T Ep ->. rewrite (parse_hash_of _ raw (parse_base58 H name net K En _ raw T)). cbv zeta. rewrite Ep.
    rewrite (starts_pre H name net K En). reflexivity.
  Qed.

  Lemma no_bech32_cash hrp : BECH32_HRP net = Some hrp -> CASHADDR_PREFIX net = None.
  Proof using All.
    intros Eh. destruct (sh_hrp _ _ S) as [[Q _]|[hrp' [_ [SG _]]]]; [congruence|].
    destruct (sh_cash _ _ S) as [[_ [_ Y]]|[_ [_ [_ [_ [_ Y]]]]]]; [exact Y|congruence].
  Qed.

  Lemma parse_hash_cashaddr_lemma s p suffix values raw : CASHADDR_PREFIX net = Some p -> ~ In 58 suffix ->
    cashaddr_text (p ++ suffix) values s -> leading_bytes values raw ->
    len raw = Z.max 0 ((5 * len values + 7) / 8 - 6) -> parse_hash H net s = behind_cash net raw.
  Proof using All.
    intros Ep Nx T L Lb.
    pose proof (text_cashaddr H name net s raw p suffix values Ep Nx T L Lb) as A.
    assert (parse H net s = Ok raw) as Pa.
    { destruct (parse_of_text H name net K En s _ A) as [E|[hrp [w [prog [q [Eh _]]]]]]; [exact E|].
      apply no_bech32_cash in Eh. congruence. }
    rewrite (parse_hash_of _ raw Pa). cbv zeta. rewrite Ep.
    destruct T as [_ [_ ->]]. rewrite <- app_assoc, (starts_pre H name net K En). reflexivity.
  Qed.

  Lemma upper_app a b : upper (a ++ b) = upper a ++ upper b.
  Proof using All. apply map_app. Qed.

  (* an upper case text does not open with the human readable part *)
  Lemma starts_hrp hrp v prog s : BECH32_HRP net = Some hrp -> one_case s -> segwit_address hrp v prog (lower s) ->
    starts s hrp = leqb (lower s) s.
  Proof using All.
    intros Eh C A. pose proof (good_hrps _ _ _ En Eh) as [_ [Gl [_ [_ [c [Ic Rc]]]]]].
    destruct (leqb (lower s) s) eqn:El.
    - apply leqb_eq in El. rewrite El in A. destruct A as [g5 [_ [[k [_ [_ [_ ->]]]] _]]]. apply (starts_pre H name net K En).
    - destruct (starts s hrp) eqn:E; [|reflexivity]. exfalso. apply starts_spec in E. destruct E as [t ->].
      destruct C as [C|C]; [apply leqb_eq in C; congruence|].
      rewrite upper_app in C. apply app_inj_zlen in C; [|unfold upper; apply zlen_map]. destruct C as [C _].
      assert (forall l, upper l = l -> In c l -> upper1 c = c) as G.
      { clear. induction l as [|x l IH]; [contradiction|]. cbn [upper map]. intros E [->|I]; injection E as E1 E2; [exact E1|apply IH; assumption]. }
      specialize (G _ C Ic). unfold upper1 in G.
      destruct (Z.leb_spec 97 c), (Z.leb_spec c 122); cbn [andb] in G; lia.
  Qed.

  Lemma parse_bech32 s hrp v prog : SEGWIT_ENCODER net = Enc_bech32 -> BECH32_HRP net = Some hrp ->
    witness_program v prog -> one_case s -> segwit_address hrp v prog (lower s) ->
    (forall p, ~ base58check_of H name p s) -> parse H net s = Ok (witness_bytes v prog).
  Proof using All.
    intros Ee Eh W C A NB.
    pose proof (text_bech32 H name net s _ hrp v prog Ee Eh eq_refl W C A) as T.
    destruct (parse_of_text H name net K En s _ T) as [E|[hrp' [w [pr [q [_ [_ [_ [_ [Q _]]]]]]]]]]; [exact E|].
    contradiction (NB q).
  Qed.

  Lemma parse_hash_bech32_lemma s hrp v prog : SEGWIT_ENCODER net = Enc_bech32 -> BECH32_HRP net = Some hrp ->
    witness_program v prog -> one_case s -> segwit_address hrp v prog (lower s) ->
    (forall p, ~ base58check_of H name p s) ->
    parse_hash H net s = if (v =? 0) && leqb (lower s) s then Ok prog else behind_legacy net (witness_bytes v prog).
  Proof using All.
    intros Ee Eh W C A NB. rewrite (parse_hash_of _ _ (parse_bech32 s hrp v prog Ee Eh W C A NB)). cbv zeta.
    rewrite (no_bech32_cash hrp Eh), Eh, (starts_hrp hrp v prog s Eh C A).
    destruct (leqb (lower s) s); [|rewrite andb_false_r; reflexivity]. rewrite andb_true_r.
    unfold starts. rewrite !find_0. unfold witness_bytes. cbn [is_prefix]. rewrite !andb_true_r, (Z.eqb_sym 0 v).
    destruct (Z.eqb_spec v 0) as [->|N]; cbn [andb]; [|reflexivity].
    assert (slice_from (0 :: len prog :: prog) 2 = prog) as -> by apply (slice_from_pre [0; len prog] prog).
    destruct W as [_ [_ [_ W]]]. destruct (W eq_refl) as [-> | ->]; reflexivity.
  Qed.

  Lemma payment_raw s k h : to_output_script H net s = Ok (template k h) -> len h = hash_len k ->
    exists v, In v (versions net k) /\ parse H net s = Ok (v ++ h).
  Proof using All.
    rewrite to_output_script_unfold. intros E L. destruct (parse H net s) as [p|e] eqn:Ep0; [|discriminate]. cbn [bind] in E.
    destruct (script_of_cases name net p S) as [[script' [Q P]]|[Q _]]; [|congruence].
    assert (script' = template k h) as -> by congruence. destruct P as [k' [v [h' [Iv [-> [Lh Es]]]]]].
    destruct (template_inj _ _ _ _ L Lh Es) as [<- <-]. eauto.
  Qed.

  Lemma behind_legacy_sh h : behind_legacy net (P2SH_PREFIX net ++ h) = Ok h.
  Proof using All. rewrite behind_legacy_hash. apply (legacy_hash_sh H name net K En). Qed.
  Lemma behind_legacy_pkh h : behind_legacy net (P2PKH_PREFIX net ++ h) = Ok h.
  Proof using All. rewrite behind_legacy_hash. apply (legacy_hash_pkh H name net K En). Qed.

  Lemma behind_legacy_other v h : (forall a b, P2PKH_PREFIX net = [a] -> P2SH_PREFIX net = [b] -> v <> a /\ v <> b) ->
    (exists a, P2PKH_PREFIX net = [a]) -> behind_legacy net (v :: h) = Err ValueError.
  Proof using All.
    intros N [a0 Ea]. destruct (sh_legacy _ _ S) as [[a [b [A [B [D _]]]]]|[_ [a [a' [b [b' [A [B [D _]]]]]]]]]; [|congruence].
    destruct (N a b A B) as [N1 N2]. unfold behind_legacy. rewrite A, B. cbn [strip].
    destruct (Z.eqb_spec b v); [congruence|]. destruct (Z.eqb_spec a v); [congruence|]. reflexivity.
  Qed.

  Lemma behind_legacy_zero h : behind_legacy net (0 :: h) = if leqb (P2PKH_PREFIX net) [0] then Ok h else Err ValueError.
  Proof using All.
    unfold behind_legacy.
    destruct (sh_legacy _ _ S) as [[a [b [A [B [D N]]]]]|[_ [a [a' [b [b' [A [B [D [N1 N2]]]]]]]]]]; rewrite A, B; cbn [strip leqb].
    - destruct (Z.eqb_spec b 0); [contradiction|]. destruct (Z.eqb_spec a 0) as [->|]; reflexivity.
    - destruct (Z.eqb_spec b 0); [contradiction|]. destruct (Z.eqb_spec a 0); [contradiction|]. reflexivity.
  Qed.

  (* the hash of a witness payment *)
  Lemma payment_hash_witness_lemma s k h : to_output_script H net s = Ok (template k h) -> len h = hash_len k ->
    is_witness_payment k = true ->
    (parse_hash H net s = Ok h /\
     SEGWIT_ENCODER net = Enc_bech32 /\ exists hrp, BECH32_HRP net = Some hrp /\ segwit_address hrp 0 h s) \/
    (parse_hash H net s = (if leqb (P2PKH_PREFIX net) [0] || (if in_dec Z.eq_dec 58 s then true else false)
                           then Ok (hash_len k :: h) else Err ValueError) /\
     forall hrp, SEGWIT_ENCODER net = Enc_bech32 -> BECH32_HRP net = Some hrp -> ~ segwit_address hrp 0 h s).
  Proof using All.
    intros E L Wk. pose proof E as E0. apply payment_raw in E; [|exact L]. destruct E as [v [Iv Ep]].
    assert (v ++ h = 0 :: hash_len k :: h) as Ev.
    { destruct k; try discriminate Wk; destruct Iv as [<-|[]]; reflexivity. }
    rewrite Ev in Ep. pose proof (parse_inv H name net K En _ _ Ep) as T.
    assert (forall b, base58check_of H name b s -> b = 0 :: hash_len k :: h) as FB.
    { intros b Q. apply (parse_base58 H name net K En) in Q. congruence. }
    destruct T as [T|hrp w prog Ee Eh Eb W C A|cp x vals Ec Nx T Lv Lb].
    - right. split.
      + rewrite (parse_hash_base58_lemma s _ T).
        2:{ left. intros p t Q ->. destruct (cash_b p Q) as [p' ->]. apply (base58_hd_zero H name net K En) in T. discriminate T. }
        rewrite behind_legacy_zero.
        destruct (in_dec Z.eq_dec 58 s) as [I|_]; [contradiction (no_colon_base58 H name net K En _ _ T I)|].
        rewrite orb_false_r. reflexivity.
      + intros hrp Ee Eh A. destruct (sh_hrp _ _ S) as [[X _]|[hrp' [X [_ [Y Z]]]]]; [congruence|].
        rewrite Eh in X. injection X as <-. apply (base58_hd_zero H name net K En) in T.
        destruct A as [g5 [_ [[c [_ [_ [_ Es]]]] _]]]. rewrite Es in T.
        destruct hrp as [|c0 hrp]; [rewrite zlen_nil in Y; lia|]. exact (Z T).
    - assert (w = 0 /\ prog = h) as [-> ->].
      { unfold witness_bytes in Eb. injection Eb as E1 E2 E3. auto. }
      assert (forall p, ~ base58check_of H name p s) as NB.
      { intros p Q. assert (p = 0 :: hash_len k :: h) as Eq by (apply FB, Q). rewrite Eq in Q.
        apply (base58_hd_zero H name net K En) in Q. apply (hd_lower H name net K En) in Q.
        destruct (sh_hrp _ _ S) as [[X _]|[hrp' [X [_ [Y Z]]]]]; [congruence|]. rewrite Eh in X. injection X as <-.
        destruct A as [g5 [_ [[c [_ [_ [_ Es]]]] _]]]. rewrite Es in Q.
        destruct hrp as [|c0 hrp]; [rewrite zlen_nil in Y; lia|]. exact (Z Q). }
      rewrite (parse_hash_bech32_lemma s hrp 0 h Ee Eh W C A NB). cbn [Z.eqb andb].
      destruct (leqb (lower s) s) eqn:El.
      + left. split; [reflexivity|split; [exact Ee|]]. exists hrp. split; [exact Eh|]. apply leqb_eq in El. rewrite El in A. exact A.
      + right. split.
        * unfold witness_bytes. rewrite behind_legacy_zero, L.
          destruct (in_dec Z.eq_dec 58 s) as [I|_]; [|rewrite orb_false_r; reflexivity].
          exfalso. assert (In 58 (lower s)) as I' by (apply in_map_iff; exists 58; split; [reflexivity|exact I]).
          destruct A as [g5 [_ [[c [G [_ [_ Es]]]] _]]]. rewrite Es in I'.
          apply in_app_or in I'. destruct I' as [I'|I'].
          -- assert (match BECH32_HRP net with Some x => forallb (fun c => negb (c =? 58)) x | None => true end = true) as B58.
             { apply (supported_forall (fun _ n => match BECH32_HRP n with Some x => forallb (fun c => negb (c =? 58)) x | None => true end)) with (name := name);
               [vm_compute; reflexivity|exact En]. }
             rewrite Eh, forallb_forall in B58. specialize (B58 _ I'). discriminate B58.
          -- apply in_app_or in I'. destruct I' as [[I'|[]]|I']; [discriminate I'|].
             apply in_map_iff in I'. destruct I' as [d [Ed Id]]. rewrite Forall_forall in G. specialize (G d Id). unfold gf in G.
             assert (In (b32_char d) b32_alphabet) as I2.
             { unfold b32_char. apply nth_In. change (length b32_alphabet) with 32%nat. lia. }
             rewrite Ed in I2. revert I2. vm_compute. intuition discriminate.
        * intros hrp' _ Eh' A'. assert (hrp' = hrp) as -> by congruence.
          pose proof (good_hrps _ _ _ En Eh) as [_ [Gl _]].
          pose proof (segwit_address_lower hrp 0 h s Gl A') as Lo. apply leqb_eq in Lo. congruence.
    - right. split.
      + rewrite (parse_hash_cashaddr_lemma s cp x vals _ Ec Nx T Lv Lb).
        destruct (in_dec Z.eq_dec 58 s) as [_|N]; [rewrite orb_true_r; reflexivity|].
        exfalso. apply N. destruct T as [_ [_ ->]]. apply in_or_app. right. apply in_or_app. left. left. reflexivity.
      + intros hrp _ Eh _. apply no_bech32_cash in Eh. congruence.
  Qed.

  (* the hash of a legacy payment *)
  Lemma payment_hash_legacy_lemma s k h : to_output_script H net s = Ok (template k h) -> len h = hash_len k ->
    is_witness_payment k = false ->
    (parse_hash H net s = Ok h /\
     forall q, cash_only net k = Some q -> q <> legacy_version net k -> ~ base58check_of H name (q ++ h) s) \/
    (parse_hash H net s = Err ValueError /\
     exists q, cash_only net k = Some q /\ q <> legacy_version net k /\ base58check_of H name (q ++ h) s).
  Proof using All.
    intros E L Wk. apply payment_raw in E; [|exact L]. destruct E as [v [Iv Ep]].
    pose proof (parse_inv H name net K En _ _ Ep) as T.
    assert (forall b, base58check_of H name b s -> b = v ++ h) as FB.
    { intros b Q. apply (parse_base58 H name net K En) in Q. congruence. }
    assert (len h = 20) as L20 by (rewrite L; destruct k; try discriminate Wk; reflexivity).
    assert (v = legacy_version net k \/ cash_only net k = Some v) as Hv.
    { destruct k; try discriminate Wk; cbn [versions cash_only legacy_version In] in *.
      - destruct Iv as [Iv|Iv]; [left; congruence|]. destruct (CASHADDR_P2PKH net); cbn [In] in Iv; [|contradiction].
        right. f_equal. destruct Iv; [congruence|contradiction].
      - destruct Iv as [Iv|Iv]; [left; congruence|]. destruct (CASHADDR_P2SH net); cbn [In] in Iv; [|contradiction].
        right. f_equal. destruct Iv; [congruence|contradiction]. }
    assert (behind_legacy net (legacy_version net k ++ h) = Ok h) as Lg.
    { destruct k; try discriminate Wk; [apply behind_legacy_pkh|apply behind_legacy_sh]. }
    assert (forall q, cash_only net k = Some q -> CASHADDR_P2SH net = Some [8] /\ CASHADDR_P2PKH net = Some [0] /\
     (q = [8] \/ q = [0]) /\ behind_cash net (q ++ h) = Ok h) as CO.
    { intros q Q. destruct (sh_cash _ _ S) as [[X [Y _]]|[X [Y _]]].
      - destruct k; cbn [cash_only] in Q; congruence.
      - split; [exact X|split; [exact Y|]]. destruct k; try discriminate Wk; cbn [cash_only] in Q; rewrite Q in *.
        + injection Y as ->. auto.
        + injection X as ->. auto. }
    assert (forall q, cash_only net k = Some q -> q <> legacy_version net k -> behind_legacy net (q ++ h) = Err ValueError) as CL.
    { intros q Q N. destruct (CO q Q) as [C1 [C2 [Hq _]]].
      destruct (sh_cash _ _ S) as [[X _]|[_ [_ [_ [N1 [N2 _]]]]]]; [congruence|].
      destruct (sh_legacy _ _ S) as [[a [b [A [B [D Nb]]]]]|[X _]]; [|congruence].
      unfold behind_legacy. rewrite A, B in *.
      assert (q = [8] /\ k = P2SH \/ q = [0] /\ k = P2PKH) as [[-> Ek]|[-> Ek]].
      { destruct k; try discriminate Wk; cbn [cash_only] in Q; [right|left]; split; congruence. }
      - cbn [app strip]. destruct (Z.eqb_spec b 8); [congruence|]. destruct (Z.eqb_spec a 8); [congruence|]. reflexivity.
      - subst k. cbn [legacy_version] in N. rewrite A in N. cbn [app strip].
        destruct (Z.eqb_spec b 0); [congruence|]. destruct (Z.eqb_spec a 0); [congruence|]. reflexivity. }
    assert (forall w, w ++ h = v ++ h -> w = v) as Inj by (intros w Q; apply app_inv_tail in Q; exact Q).
    destruct T as [T|hrp w prog Ee Eh Eb W C A|cp x vals Ec Nx T Lv Lb].
    - assert (len (v ++ h) = 21 \/ CASHADDR_PREFIX net = None) as L21.
      { destruct (sh_cash _ _ S) as [[_ [_ Y]]|[X [Y _]]]; [right; exact Y|left].
        destruct (sh_legacy _ _ S) as [[a [b [A' [B' _]]]]|[Q _]]; [|congruence].
        unfold len in *. rewrite app_length.
        assert (length v = 1%nat); [|lia].
        destruct Hv as [->|Hv]; [destruct k; try discriminate Wk; cbn [legacy_version]; rewrite ?A', ?B'; reflexivity|].
        destruct (CO v Hv) as [_ [_ [[-> | ->] _]]]; reflexivity. }
      assert (parse_hash H net s = behind_legacy net (v ++ h)) as ->.
      { apply parse_hash_base58_lemma; [exact T|]. destruct L21 as [L21|L21]; [right; exact L21|left]. intros; congruence. }
      destruct (list_eq_dec Z.eq_dec v (legacy_version net k)) as [->|Nv].
      + left. split; [exact Lg|]. intros q Q N B. apply FB, Inj in B. congruence.
      + destruct Hv as [Hv|Hv]; [contradiction|]. right. split; [apply CL; assumption|]. exists v. auto.
    - left.
      assert (CASHADDR_PREFIX net = None) as NC by (eapply no_bech32_cash; exact Eh).
      assert (cash_only net k = None) as CN.
      { destruct (sh_cash _ _ S) as [[X [Y _]]|[_ [_ [[p Q] _]]]]; [|congruence]. destruct k; cbn [cash_only]; auto. }
      rewrite CN in *. destruct Hv as [->|Hv]; [|discriminate]. split; [|discriminate].
      rewrite (parse_hash_of _ _ Ep). cbv zeta. rewrite NC, Eh.
      assert (starts (legacy_version net k ++ h) [0; 32] = false /\ starts (legacy_version net k ++ h) [0; 20] = false) as [X1 X2].
      { rewrite Eb. unfold witness_bytes, starts. rewrite !find_0. cbn [is_prefix].
        destruct (Z.eqb_spec 0 w) as [<-|_]; [|split; reflexivity]. exfalso.
        destruct W as [_ [_ [_ W]]]. specialize (W eq_refl). unfold witness_bytes in Eb.
        destruct (sh_legacy _ _ S) as [[a [b [A1 [B1 _]]]]|[_ [a [a' [b [b' [A1 [B1 [_ [N1 N2]]]]]]]]]].
        - assert (len (legacy_version net k ++ h) = 21) as X.
          { unfold len in *. rewrite app_length. destruct k; try discriminate Wk; cbn [legacy_version]; rewrite ?A1, ?B1; cbn [length]; lia. }
          rewrite Eb in X. unfold len in *. cbn [length] in X. lia.
        - destruct k; try discriminate Wk; cbn [legacy_version] in Eb; rewrite ?A1, ?B1 in Eb; cbn [app] in Eb; congruence. }
      rewrite X1, X2. destruct (starts s hrp); exact Lg.
    - left. split.
      + rewrite (parse_hash_cashaddr_lemma s cp x vals _ Ec Nx T Lv Lb).
        destruct Hv as [->|Hv]; [|apply CO, Hv].
        rewrite behind_cash_other; [exact Lg| |].
        * intros h' Q. destruct (sh_cash _ _ S) as [[_ [_ X]]|[_ [_ [_ [N1 [N2 _]]]]]]; [congruence|].
          destruct (sh_legacy _ _ S) as [[a [b [A [B _]]]]|[X _]].
          -- destruct k; try discriminate Wk; cbn [legacy_version] in Q; rewrite ?A, ?B in *; cbn [app] in Q; congruence.
          -- destruct (sh_cash _ _ S) as [[_ [_ Y]]|[Y _]]; congruence.
        * intros h' Q. destruct (sh_legacy _ _ S) as [[a [b [A [B [_ N]]]]]|[X _]].
          -- destruct k; try discriminate Wk; cbn [legacy_version] in Q; rewrite ?A, ?B in *; cbn [app] in Q; congruence.
          -- destruct (sh_cash _ _ S) as [[_ [_ Y]]|[Y _]]; congruence.
      + intros q _ _ B. apply (no_colon_base58 H name net K En) in B. apply B.
        destruct T as [_ [_ ->]]. apply in_or_app. right. apply in_or_app. left. left. reflexivity.
  Qed.

  Lemma taken_for_spec v : SEGWIT_ENCODER net = Enc_bech32 -> BECH32_HRP net <> None -> 1 <= v <= 16 ->
    (P2SH_PREFIX net = [v] /\ taken_for name v = Some P2SH) \/
    (P2PKH_PREFIX net = [v] /\ taken_for name v = Some P2PKH) \/
    (P2SH_PREFIX net <> [v] /\ P2PKH_PREFIX net <> [v] /\ taken_for name v = None).
  Proof using All.
    intros Ee Nh Hv.
    set (ok := fun (nm : str) (n : network) => match SEGWIT_ENCODER n, BECH32_HRP n with
      | Enc_bech32, Some _ => forallb (fun i => let v := Z.of_nat i in
          match taken_for nm v with
          | Some P2SH => leqb (P2SH_PREFIX n) [v]
          | Some P2PKH => leqb (P2PKH_PREFIX n) [v]
          | Some _ => false
          | None => negb (leqb (P2SH_PREFIX n) [v]) && negb (leqb (P2PKH_PREFIX n) [v])
          end) (seq 1 16)
      | _, _ => true end).
    assert (ok name net = true) as B.
    { apply (supported_forall ok); [vm_compute; reflexivity|exact En]. }
    unfold ok in B. rewrite Ee in B. destruct (BECH32_HRP net); [|congruence].
    rewrite forallb_forall in B. specialize (B (Z.to_nat v)). rewrite in_seq in B. specialize (B ltac:(lia)).
    rewrite Z2Nat.id in B by lia. cbv zeta in B.
    destruct (taken_for name v) as [[| | |]|]; try discriminate B.
    - right; left. apply leqb_eq in B. auto.
    - left. apply leqb_eq in B. auto.
    - right; right. apply andb_prop in B. destruct B as [B1 B2]. rewrite negb_true_iff in B1, B2.
      split; [|split; [|reflexivity]]; intros Q; [rewrite Q in B1; cbn in B1; rewrite Z.eqb_refl in B1; discriminate|
        rewrite Q in B2; cbn in B2; rewrite Z.eqb_refl in B2; discriminate].
  Qed.

  Lemma bech32_one_byte : SEGWIT_ENCODER net = Enc_bech32 -> BECH32_HRP net <> None ->
    zlen (P2SH_PREFIX net) = 1 /\ zlen (P2PKH_PREFIX net) = 1.
  Proof using All.
    intros Ee Nh.
    set (ok := fun (nm : str) (n : network) => match SEGWIT_ENCODER n, BECH32_HRP n with
      | Enc_bech32, Some _ => (zlen (P2SH_PREFIX n) =? 1) && (zlen (P2PKH_PREFIX n) =? 1)
      | _, _ => true end).
    assert (ok name net = true) as B.
    { apply (supported_forall ok); [vm_compute; reflexivity|exact En]. }
    unfold ok in B. rewrite Ee in B. destruct (BECH32_HRP net); [|congruence]. lia.
  Qed.

  (* the script of a bech32 address of a later witness version *)
  Lemma higher_witness_lemma s hrp v prog : SEGWIT_ENCODER net = Enc_bech32 -> BECH32_HRP net = Some hrp ->
    witness_program v prog -> v <> 0 -> one_case s -> segwit_address hrp v prog (lower s) ->
    (forall p, ~ base58check_of H name p s) ->
    to_output_script H net s =
      match taken_for name v with
      | Some k => if len prog =? 19 then Ok (template k (19 :: prog)) else Err ValueError
      | None => Err ValueError
      end.
  Proof using All.
    intros Ee Eh W Nv C A NB.
    pose proof (parse_bech32 s hrp v prog Ee Eh W C A NB) as Ep.
    assert (BECH32_HRP net <> None) as Nh by congruence.
    assert (1 <= v <= 16) as Hv by (destruct W; lia).
    destruct (bech32_one_byte Ee Nh) as [Z1 Z2].
    assert (CASHADDR_P2SH net = None /\ CASHADDR_P2PKH net = None) as [C1 C2].
    { pose proof (no_bech32_cash hrp Eh). destruct (sh_cash _ _ S) as [[X [Y _]]|[_ [_ [[p Q] _]]]]; [auto|congruence]. }
    (* the payments that the payload can announce *)
    assert (forall script, pays net (witness_bytes v prog) script -> len prog = 19 /\
      (P2SH_PREFIX net = [v] /\ script = template P2SH (19 :: prog) \/
       P2PKH_PREFIX net = [v] /\ script = template P2PKH (19 :: prog))) as Inv.
    { intros script [k [w [h [Iw [Ew [Lh ->]]]]]]. change (zlen h = hash_len k) in Lh.
      assert (forall q, zlen q = 1 -> w = q -> hash_len k = 20 -> len prog = 19 /\ q = [v] /\ h = 19 :: prog) as G.
      { intros q Lq -> Hk. destruct q as [|x [|]]; rewrite ?zlen_cons, ?zlen_nil in Lq; try (pose proof (zlen_nonneg q)); try lia.
        - unfold witness_bytes in Ew. cbn [app] in Ew. injection Ew as <- Eh'.
          assert (len prog = 19) as L19.
          { rewrite <- Eh', zlen_cons in Lh. change (len prog) with (zlen prog). lia. }
          rewrite L19 in Eh'. auto.
        - pose proof (zlen_nonneg l). lia. }
      destruct k; cbn [versions] in Iw; rewrite ?C1, ?C2 in Iw; cbn [In] in Iw; destruct Iw as [Iw|[]].
      - destruct (G _ Z2 (eq_sym Iw) eq_refl) as [G1 [G2 ->]]. auto.
      - destruct (G _ Z1 (eq_sym Iw) eq_refl) as [G1 [G2 ->]]. auto.
      - exfalso. rewrite <- Iw in Ew. unfold witness_bytes in Ew. cbn [app] in Ew. congruence.
      - exfalso. rewrite <- Iw in Ew. unfold witness_bytes in Ew. cbn [app] in Ew. congruence. }
    rewrite to_output_script_unfold, Ep. cbn [bind].
    destruct (script_of_cases name net (witness_bytes v prog) S) as [[script [Q P]]|[Q P]]; rewrite Q.
    - destruct (Inv _ P) as [L19 [[X ->]|[X ->]]].
      + rewrite L19. destruct (taken_for_spec v Ee Nh Hv) as [[_ ->]|[[Y _]|[Y _]]]; [reflexivity| |congruence].
        exfalso. destruct (sh_legacy _ _ S) as [[a [b [A1 [B1 [D _]]]]]|[_ [a [a' [b [b' [A1 [B1 [D _]]]]]]]]]; congruence.
      + rewrite L19. destruct (taken_for_spec v Ee Nh Hv) as [[Y _]|[[_ ->]|[_ [Y _]]]]; [|reflexivity|congruence].
        exfalso. destruct (sh_legacy _ _ S) as [[a [b [A1 [B1 [D _]]]]]|[_ [a [a' [b [b' [A1 [B1 [D _]]]]]]]]]; congruence.
    - destruct (Z.eqb_spec (len prog) 19) as [L19|]; [|destruct (taken_for name v); reflexivity].
      assert (len (19 :: prog) = 20) as L20 by (unfold len in *; cbn [length]; lia).
      destruct (taken_for_spec v Ee Nh Hv) as [[Y T]|[[Y T]|[_ [_ T]]]]; rewrite T; [| |reflexivity]; exfalso.
      + apply (P (template P2SH (19 :: prog))). exists P2SH, [v], (19 :: prog). cbn [versions]. rewrite Y.
        split; [left; reflexivity|]. split; [unfold witness_bytes; rewrite L19; reflexivity|]. split; [exact L20|reflexivity].
      + apply (P (template P2PKH (19 :: prog))). exists P2PKH, [v], (19 :: prog). cbn [versions]. rewrite Y.
        split; [left; reflexivity|]. split; [unfold witness_bytes; rewrite L19; reflexivity|]. split; [exact L20|reflexivity].
  Qed.
End Net.

Lemma parse_hash_total_lemma H name net s : hashes_ok H -> get_network name = Ok net ->
  (exists h raw, parse_hash H net s = Ok h /\ address_text H name net s raw /\ exists v, raw = v ++ h) \/ parse_hash H net s = Err ValueError.
Proof.
  intros K En. destruct (parse_err H name net K En s) as [[raw E]|E].
  - pose proof (parse_inv H name net K En s raw E) as T.
    assert (forall p, starts raw p = true -> raw = p ++ slice_from raw (zlen p)) as St.
    { intros p Q. apply starts_spec in Q. destruct Q as [r ->]. rewrite slice_from_pre. reflexivity. }
    rewrite (parse_hash_of H name net K En s raw E). cbv zeta.
    rewrite (behind_cash_hash H name net K En), (behind_legacy_hash H name net K En).
    change 2 with (zlen [0; 32]) at 1. change (slice_from raw 2) with (slice_from raw (zlen [0; 20])).
    repeat match goal with
    | |- context [match CASHADDR_PREFIX net with _ => _ end] => destruct (CASHADDR_PREFIX net)
    | |- context [match BECH32_HRP net with _ => _ end] => destruct (BECH32_HRP net)
    | |- context [if starts ?a ?b then _ else _] => destruct (starts a b) eqn:?
    end; try (right; reflexivity); left; eexists; exists raw; (split; [reflexivity|split; [exact T|]]); eexists; apply St; assumption.
  - right. unfold parse_hash. rewrite E. reflexivity.
Qed.
