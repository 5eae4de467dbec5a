(* Lemmas for C91: which Zcash transactions are read as themselves *)
From Coq Require Import String.
From Verif Require Import Py LBase MNet MUtils MShared MScript MTx MZcash SNum SNet SHash SScript STx SZcash SStandard SExact SZExact
  LNet LUtils LVarint LTx LTxParse LZcash LZcashTx LSapling LSprout LZTrunc LTxWire LExact.
Open Scope list_scope.
Open Scope Z_scope.
Ltac Zify.zify_post_hook ::= idtac.

Section Parts.
  Context (name : str) (net : network) (En : get_network name = Ok net).

  Lemma exact_read_parts ins outs : Forall txin_obj ins -> Forall (fun i => all_bytes (ti_script_sig i)) ins -> exact_parts name ins outs ->
    exists ins', read_parts name net ins outs ins'.
  Proof using En.
    intros F B [R1 [R2 [Xi Xo]]]. destruct (exact_inputs name net En ins F) as [ins' [F2 [S Fi']]]; [apply Forall_map; exact Xi|exact B|].
    exists ins'. unfold read_parts. auto 10.
  Qed.

  Lemma exact_parts_inv pre ins outs tail bs k f1 f2 v1 is c2 v2 os c4 :
    Forall txin_obj ins -> Forall txout_obj outs -> Forall (fun i => all_bytes (ti_script_sig i)) ins -> zlen ins < 2 ^ 64 -> zlen outs < 2 ^ 64 ->
    zlen pre = k -> bs = pre ++ transparent ins outs ++ tail ->
    VarInt_from_bytes net (slice_from bs k) = Ok v1 ->
    read_many (TxIn_from_bytes net) (fun i => zlen (ti_bytes i)) f1 bs (vi_number v1) (k + zlen (vi_bytes v1)) = Ok (is, c2) ->
    VarInt_from_bytes net (slice_from bs c2) = Ok v2 ->
    read_many (TxOut_from_bytes net) (fun o => zlen (to_bytes_ o)) f2 bs (vi_number v2) (c2 + zlen (vi_bytes v2)) = Ok (os, c4) ->
    map the_input is = map the_input ins -> os = outs ->
    exact_parts name ins outs /\ c4 = zlen (pre ++ transparent ins outs).
  Proof using En.
    intros Fi Fo Bs LI LO K Eb V1 R1 V2 R2 Xi Xo. pose proof (zlen_nonneg ins). pose proof (zlen_nonneg outs).
    set (wins := map the_input ins) in *. set (wouts := map the_output outs) in *.
    assert (map the_output os = wouts) as Xo' by (rewrite Xo; reflexivity).
    assert (concat (map ti_bytes ins) = concat (map input_wire wins)) as Wi.
    { unfold wins. rewrite map_map. f_equal. apply map_ext_in. intros i I. rewrite Forall_forall in Fi. apply txin_wire, Fi, I. }
    assert (concat (map to_bytes_ outs) = concat (map output_wire wouts)) as Wo.
    { unfold wouts. rewrite map_map. f_equal. apply map_ext_in. intros o I. rewrite Forall_forall in Fo. apply txout_wire, Fo, I. }
    assert (zlen wins = zlen ins) as Zi by apply zlen_map. assert (zlen wouts = zlen outs) as Zo by apply zlen_map.
    assert (Forall (fun i => input_ok i /\ all_bytes (in_script i)) wins) as Oi.
    { unfold wins. apply Forall_map. rewrite Forall_forall in Fi, Bs |- *. intros i I. split; [apply txin_wire, Fi, I|apply (Bs i I)]. }
    assert (Forall output_ok wouts) as Oo.
    { unfold wouts. apply Forall_map. rewrite Forall_forall in Fo |- *. intros o I. apply txout_wire, Fo, I. }
    unfold transparent in Eb |- *. rewrite Wi, Wo in *.
    assert (bs = (pre ++ compactsize (zlen ins)) ++ concat (map input_wire wins) ++ compactsize (zlen outs) ++ concat (map output_wire wouts) ++ tail) as Eb1 by (rewrite Eb, <- !app_assoc; reflexivity).
    assert (slice_from bs k = compactsize (zlen ins) ++ concat (map input_wire wins) ++ compactsize (zlen outs) ++ concat (map output_wire wouts) ++ tail) as Sb.
    { rewrite Eb1, <- app_assoc. apply slice_from_app, K. }
    assert (0 <= zlen ins < 2 ^ 64) as LI' by lia. assert (0 <= zlen outs < 2 ^ 64) as LO' by lia.
    rewrite Sb in V1. destruct (VarInt_compact_inv name net _ _ v1 En LI' V1) as [Q1 [N1 B1]]. rewrite N1, B1 in R1. clear Sb V1 N1 B1.
    rewrite Eb1, <- Zi in R1.
    destruct (read_many_inv (TxIn_from_bytes net) (fun i => zlen (ti_bytes i)) input_wire the_input (exact_in name) wins) with
      (2 := eq_refl (zlen wins)) (4 := R1) (5 := Xi) as [Qi C1].
    { intros x r y I P Y. rewrite Forall_forall in Oi. destruct (Oi x I) as [O1 O2]. apply (exact_in_size name net En x r y O1 O2 P Y). }
    { rewrite zlen_app, K, Zi. reflexivity. }
    rewrite Zi in C1.
    set (pre2 := (pre ++ compactsize (zlen ins)) ++ concat (map input_wire wins)) in *.
    assert (bs = (pre2 ++ compactsize (zlen outs)) ++ concat (map output_wire wouts) ++ tail) as Eb2 by (rewrite Eb1; unfold pre2; rewrite <- !app_assoc; reflexivity).
    assert (slice_from bs c2 = compactsize (zlen outs) ++ concat (map output_wire wouts) ++ tail) as Sb.
    { rewrite Eb2, <- app_assoc. apply slice_from_app. symmetry. exact C1. }
    rewrite Sb in V2. destruct (VarInt_compact_inv name net _ _ v2 En LO' V2) as [Q2 [N2 B2]]. rewrite N2, B2 in R2. clear Sb V2 N2 B2.
    rewrite Eb2, <- Zo in R2.
    destruct (read_many_inv (TxOut_from_bytes net) (fun i => zlen (to_bytes_ i)) output_wire the_output (fun o => len (out_script o) < 252) wouts) with
      (2 := eq_refl (zlen wouts)) (4 := R2) (5 := Xo') as [Qo C2].
    { intros x r y I P Y. rewrite Forall_forall in Oo. apply (exact_out_size net x r y (Oo x I) P). }
    { rewrite zlen_app, C1, Zo. reflexivity. }
    split.
    - unfold wins in Qi. unfold wouts in Qo. rewrite Forall_map in Qi, Qo. split; [exact Q1|]. split; [exact Q2|]. split; [exact Qi|exact Qo].
    - rewrite C2, Zo. unfold pre2. rewrite <- !app_assoc. reflexivity.
  Qed.
End Parts.

Section Tx.
  Context (H : hashes) (name : str) (net : network) (En : get_network name = Ok net).

  (** * Overwinter *)
  Lemma overwinter_exact_inv t rest t' : overwinter_obj H net t -> Forall (fun i => all_bytes (ti_script_sig i)) (ow_tx_ins t) ->
    OverwinterTx_from_bytes H net (ow_bytes t ++ rest) = Ok t' -> same_overwinter t t' -> exact_parts name (ow_tx_ins t) (ow_tx_outs t).
  Proof using En.
    intros O Bs E [_ [_ [Si [So _]]]]. apply overwinter_obj_iff in O. destruct O as [Fi [Fo [_ [A O]]]].
    unfold ow_args_ok in A. rewrite !andb_true_iff in A. destruct A as [[[_ A9] A10] _]. apply Z.ltb_lt in A9, A10.
    apply (f_equal ow_bytes) in O. cbn [ow_of ow_bytes] in O. unfold ow_body in O. set (ins := ow_tx_ins t) in *. set (outs := ow_tx_outs t) in *.
    apply Overwinter_inv in E. destruct E as [v1 [is [c2 [v2 [os [c4 [js [pk [sg [V1 [R1 [V2 [R2 [_ E]]]]]]]]]]]]]].
    apply OverwinterTx_Ok in E. destruct E as [_ E].
    assert (map the_input is = map the_input ins) as Xi by (rewrite <- Si, E; reflexivity).
    assert (os = outs) as Xo by (rewrite <- So, E; reflexivity).
    match type of O with _ = _ ++ _ ++ _ ++ ?x => set (tail := x) in * end.
    assert (ow_bytes t ++ rest = ([3; 0; 0; 0x80] ++ [0x70; 0x82; 0xc4; 0x03]) ++ transparent ins outs ++ (tail ++ rest)) as Eb by (rewrite O, <- !app_assoc; reflexivity).
    exact (proj1 (exact_parts_inv name net En ([3; 0; 0; 0x80] ++ [0x70; 0x82; 0xc4; 0x03]) ins outs _ _ 8 _ _ v1 is c2 v2 os c4 Fi Fo Bs A9 A10 eq_refl Eb V1 R1 V2 R2 Xi Xo)).
  Qed.

  Lemma overwinter_exact t : overwinter_obj H net t -> Forall (fun i => all_bytes (ti_script_sig i)) (ow_tx_ins t) ->
    ((exists t', OverwinterTx_from_bytes H net (ow_bytes t) = Ok t' /\ same_overwinter t t') <->
     exact_parts name (ow_tx_ins t) (ow_tx_outs t) /\ (zlen (ow_tx_outs t) < 253 \/ ow_tx_joinsplits t = [])).
  Proof using En.
    intros O Bs. pose proof (proj1 (proj1 (overwinter_obj_iff H net t) O)) as Fi. split.
    - intros [t' [E S]]. assert (OverwinterTx_from_bytes H net (ow_bytes t ++ []) = Ok t') as E' by (rewrite app_nil_r; exact E).
      pose proof (overwinter_exact_inv t [] t' O Bs E' S) as P. split; [exact P|].
      destruct (Z_lt_dec (zlen (ow_tx_outs t)) 253) as [L|L]; [left; exact L|]. destruct (list_eq_dec_nil (ow_tx_joinsplits t)) as [J|J]; [right; exact J|].
      destruct (exact_read_parts name net En _ _ Fi Bs P) as [ins' R]. rewrite (overwinter_misparse_as H net name t ins' En O R) in E by (try exact J; lia). discriminate E.
    - intros [P C]. destruct (exact_read_parts name net En _ _ Fi Bs P) as [ins' R].
      destruct (overwinter_parse_as H net name t [] ins' En O R C) as [t' [E [_ [S _]]]]. rewrite app_nil_r in E. exists t'. auto.
  Qed.
  Lemma overwinter_exact_rest t rest : overwinter_obj H net t -> Forall (fun i => all_bytes (ti_script_sig i)) (ow_tx_ins t) ->
    exact_parts name (ow_tx_ins t) (ow_tx_outs t) -> zlen (ow_tx_outs t) < 253 \/ ow_tx_joinsplits t = [] ->
    exists t', OverwinterTx_from_bytes H net (ow_bytes t ++ rest) = Ok t' /\ overwinter_obj H net t' /\ same_overwinter t t'.
  Proof using En.
    intros O Bs P C. pose proof (proj1 (proj1 (overwinter_obj_iff H net t) O)) as Fi.
    destruct (exact_read_parts name net En _ _ Fi Bs P) as [ins' R]. destruct (overwinter_parse_as H net name t rest ins' En O R C) as [t' [E [O' [S _]]]]. exists t'. auto.
  Qed.

  (** * Sapling *)
  Lemma sapling_exact_inv t rest t' : sapling_obj H net t -> Forall (fun i => all_bytes (ti_script_sig i)) (sa_tx_ins t) ->
    SaplingTx_from_bytes H net (sa_bytes t ++ rest) = Ok t' -> same_sapling t t' ->
    exact_parts name (sa_tx_ins t) (sa_tx_outs t) /\ readable_size name (count (sa_tx_shielded_spends t)).
  Proof using En.
    intros O Bs E [_ [_ [Si [So _]]]]. apply sapling_obj_iff in O. destruct O as [Fi [Fo [_ [_ [_ [A O]]]]]].
    apply (f_equal sa_bytes) in O. cbn [sa_of sa_bytes] in O. unfold sa_body in O. set (ins := sa_tx_ins t) in *. set (outs := sa_tx_outs t) in *.
    unfold sa_args_ok in A. rewrite !andb_true_iff in A.
    apply Sapling_inv in E.
    destruct E as [v1 [is [c2 [v2 [os [c4 [v3 [sp [c5 [v4 [so [c6 [v5 [js [c7 [V1 [R1 [V2 [R2 [V3 [_ [_ [_ [_ [_ E]]]]]]]]]]]]]]]]]]]]]]]]].
    match type of O with _ = _ ++ _ ++ _ ++ _ ++ _ ++ _ ++ _ ++ ?x => set (tail := x) in * end.
    assert (exists pk sg bs, SaplingTx H net is os (slice (sa_bytes t ++ rest) c4 (c4 + 4)) (slice (sa_bytes t ++ rest) (c4 + 4) (c4 + 4 + 4)) (slice (sa_bytes t ++ rest) (c4 + 4 + 4) (c4 + 4 + 4 + 8)) (Some sp) (Some so) (Some js) pk sg bs = Ok t')
      as [pk [sg [bs E']]] by (destruct (0 <? zlen js); eauto). clear E.
    apply SaplingTx_Ok in E'. destruct E' as [_ E].
    assert (map the_input is = map the_input ins) as Xi by (rewrite <- Si, E; reflexivity).
    assert (os = outs) as Xo by (rewrite <- So, E; reflexivity).
    set (rest1 := sa_lock_time t ++ sa_expiry_height t ++ sa_value_balance t ++ compactsize (zlen (sa_tx_shielded_spends t)) ++ tail ++ rest).
    assert (sa_bytes t ++ rest = ([4; 0; 0; 0x80] ++ [0x85; 0x20; 0x2f; 0x89]) ++ transparent ins outs ++ rest1) as Eb by (rewrite O; unfold rest1; rewrite <- !app_assoc; reflexivity).
    assert (zlen ins < 2 ^ 64 /\ zlen outs < 2 ^ 64 /\ zlen (sa_tx_shielded_spends t) < 2 ^ 64 /\ zlen (sa_lock_time t) = 4 /\ zlen (sa_expiry_height t) = 4 /\ zlen (sa_value_balance t) = 8) as [L1 [L2 [L3 [L4 [L5 L6]]]]].
    { repeat split; lia. }
    destruct (exact_parts_inv name net En ([4; 0; 0; 0x80] ++ [0x85; 0x20; 0x2f; 0x89]) ins outs _ _ 8 _ _ v1 is c2 v2 os c4 Fi Fo Bs L1 L2 eq_refl Eb V1 R1 V2 R2 Xi Xo) as [P C4]. split; [exact P|].
    pose proof (zlen_nonneg (sa_tx_shielded_spends t)) as N.
    assert (slice_from (sa_bytes t ++ rest) (c4 + 4 + 4 + 8) = compactsize (zlen (sa_tx_shielded_spends t)) ++ tail ++ rest) as Sb.
    { rewrite Eb. unfold rest1. rewrite !(app_assoc (_ ++ _)). rewrite <- (app_assoc _ tail rest). rewrite <- (app_assoc _ _ (tail ++ rest)). apply slice_from_app.
      rewrite zlen_app in C4. rewrite !zlen_app. rewrite C4. rewrite !zlen_app. lia. }
    rewrite Sb in V3. assert (0 <= zlen (sa_tx_shielded_spends t) < 2 ^ 64) as L by lia.
    exact (proj1 (VarInt_compact_inv name net _ _ v3 En L V3)).
  Qed.

  Definition no_shielded (t : sapling_tx) : Prop := sa_tx_joinsplits t = [] /\ sa_tx_shielded_spends t = [] /\ sa_tx_shielded_outputs t = [].
  Lemma sapling_exact t : sapling_obj H net t -> Forall (fun i => all_bytes (ti_script_sig i)) (sa_tx_ins t) ->
    ((exists t', SaplingTx_from_bytes H net (sa_bytes t) = Ok t' /\ same_sapling t t') <->
     exact_parts name (sa_tx_ins t) (sa_tx_outs t) /\ readable_size name (count (sa_tx_shielded_spends t)) /\ (zlen (sa_tx_outs t) < 253 \/ no_shielded t)).
  Proof using En.
    intros O Bs. pose proof (proj1 (proj1 (sapling_obj_iff H net t) O)) as Fi. split.
    - intros [t' [E S]]. assert (SaplingTx_from_bytes H net (sa_bytes t ++ []) = Ok t') as E' by (rewrite app_nil_r; exact E).
      destruct (sapling_exact_inv t [] t' O Bs E' S) as [P Rs]. split; [exact P|]. split; [exact Rs|].
      destruct (Z_lt_dec (zlen (sa_tx_outs t)) 253) as [L|L]; [left; exact L|]. right. unfold no_shielded.
      destruct (exact_read_parts name net En _ _ Fi Bs P) as [ins' R].
      assert (~ ~ (sa_tx_joinsplits t = [] /\ sa_tx_shielded_spends t = [] /\ sa_tx_shielded_outputs t = [])) as NN.
      { intros N. rewrite (sapling_misparse_as H net name t ins' En O R Rs) in E by (try exact N; lia). discriminate E. }
      destruct (list_eq_dec_nil (sa_tx_joinsplits t)) as [J1|J1]; [|destruct NN; intros [X _]; contradiction].
      destruct (list_eq_dec_nil (sa_tx_shielded_spends t)) as [J2|J2]; [|destruct NN; intros [_ [X _]]; contradiction].
      destruct (list_eq_dec_nil (sa_tx_shielded_outputs t)) as [J3|J3]; [|destruct NN; intros [_ [_ X]]; contradiction]. auto.
    - intros [P [Rs C]]. destruct (exact_read_parts name net En _ _ Fi Bs P) as [ins' R].
      destruct (sapling_parse_as H net name t [] ins' En O R Rs C) as [t' [E [_ [S _]]]]. rewrite app_nil_r in E. exists t'. auto.
  Qed.
  Lemma sapling_exact_rest t rest : sapling_obj H net t -> Forall (fun i => all_bytes (ti_script_sig i)) (sa_tx_ins t) ->
    exact_parts name (sa_tx_ins t) (sa_tx_outs t) -> readable_size name (count (sa_tx_shielded_spends t)) -> zlen (sa_tx_outs t) < 253 \/ no_shielded t ->
    exists t', SaplingTx_from_bytes H net (sa_bytes t ++ rest) = Ok t' /\ sapling_obj H net t' /\ same_sapling t t'.
  Proof using En.
    intros O Bs P Rs C. pose proof (proj1 (proj1 (sapling_obj_iff H net t) O)) as Fi.
    destruct (exact_read_parts name net En _ _ Fi Bs P) as [ins' R]. destruct (sapling_parse_as H net name t rest ins' En O R Rs C) as [t' [E [O' [S _]]]]. exists t'. auto.
  Qed.

  (** * Sprout *)
  Lemma sprout_exact t rest : sprout_obj H net t -> Forall (fun i => all_bytes (ti_script_sig i)) (sp_tx_ins t) ->
    ((exists t', SproutTx_from_bytes H net (sp_bytes t ++ rest) = Ok t' /\ same_sprout t t') <->
     exact_parts name (sp_tx_ins t) (sp_tx_outs t) /\ le_value (sp_version t) = 2 /\ (rest = [] \/ sp_joinsplit_sig t <> Some [])).
  Proof using En.
    intros O Bs. pose proof (sprout_version H net t O) as V. pose proof O as O0. apply sprout_obj_iff in O0. destruct O0 as [js [Bv [Fi [Fo [J [Fj [A Ot]]]]]]]. split.
    - intros [t' [E S]].
      assert (exact_parts name (sp_tx_ins t) (sp_tx_outs t)) as P.
      { destruct S as [_ [_ [_ [Si [So _]]]]]. unfold sp_args_ok in A. rewrite !andb_true_iff in A. destruct A as [[[[[[_ _] _] _] A5] A6] _]. apply Z.ltb_lt in A5, A6.
        apply (f_equal sp_bytes) in Ot. cbn [sp_of sp_bytes] in Ot. unfold sp_body in Ot. 
        apply Sprout_inv in E. destruct E as [u1 [is [c2 [u2 [os [c4 [js' [pk [sg [V1 [R1 [V2 [R2 [_ E]]]]]]]]]]]]]].
        match type of Ot with _ = _ ++ _ ++ ?x => set (tail := x) in * end.
        assert (sp_bytes t ++ rest = sp_version t ++ transparent (sp_tx_ins t) (sp_tx_outs t) ++ (tail ++ rest)) as Eb by (rewrite Ot, <- !app_assoc; reflexivity).
        assert (zlen (sp_version t) = 4) as Kv by (destruct V as [[-> _]|[-> _]]; reflexivity).
        assert (js' <> None) as Nj.
        { intros ->. destruct (SproutTx_None H net (Some (slice (sp_bytes t ++ rest) 0 4)) is os (slice (sp_bytes t ++ rest) c4 (c4 + 4)) pk sg) as [e X]. pose proof (eq_trans (eq_sym X) E) as Y. discriminate Y. }
        destruct js' as [js'|]; [|contradiction].
        assert (slice (sp_bytes t ++ rest) 0 4 = sp_version t) as Ev by (rewrite Eb; apply (slice_app [] (sp_version t) _ 0 4); [reflexivity|exact Kv]).
        rewrite Ev in E. apply SproutTx_Ok in E; [|apply all_bytes_is_bytes; exact Bv]. destruct E as [_ E].
        assert (map the_input is = map the_input (sp_tx_ins t)) as Xi by (rewrite <- Si, E; reflexivity).
        assert (os = sp_tx_outs t) as Xo by (rewrite <- So, E; reflexivity).
        exact (proj1 (exact_parts_inv name net En _ _ _ _ _ 4 _ _ u1 is c2 u2 os c4 Fi Fo Bs A5 A6 Kv Eb V1 R1 V2 R2 Xi Xo)). }
      split; [exact P|]. destruct (exact_read_parts name net En _ _ Fi Bs P) as [ins' R].
      destruct V as [[V _]|[V [js' [pk [sg [J' [L5 [Ek [Lk [Es Ls]]]]]]]]]].
      { rewrite (sprout_v1_as H net name t rest ins' En O R) in E by (rewrite V; reflexivity). discriminate E. }
      split; [rewrite V; reflexivity|]. destruct (list_eq_dec_nil rest) as [Z|Nr]; [left; exact Z|]. right. intros Z. rewrite Es in Z. injection Z as ->.
      rewrite J in J'. injection J' as <-.
      destruct (sprout_parse_head H net name t rest ins' En O R) as [pre [B T]]. rewrite T in E. clear T. rewrite V, J, Ek, Es in *. change (leqb LSprout.v2 LSprout.v2) with true in *. cbn iota in B, E. cbn [opts opt] in B, E.
      set (bs := sp_bytes t ++ rest) in *.
      apply bind_Ok in E. destruct E as [[[a b] c] [E1 E]]. apply bind_Ok in E1. destruct E1 as [[xs cur] [E1 E2]]. apply Ok_inj in E2. injection E2 as <- <- <-. cbn iota beta in E.
      assert (cur = zlen pre + 1 + zlen js * 1802) as Ec.
      { destruct (read_many_fixed (SproutJoinsplit_from_bytes net) (fun j => zlen (js_bytes j)) 1802) with
          (fuel := Datatypes.S (length bs)) (bs := bs) (n := zlen js) (c := zlen pre + 1) as [[ys [X _]]|X].
        - intros s x Ex. apply sprout_joinsplit_parse_inv in Ex. destruct Ex as [Ox _]. apply (js_len net), Ox.
        - intros s e Ee. apply (part_errors net s e) in Ee. exact Ee.
        - assert (zlen js <= zlen bs) as L; [|unfold zlen in *; lia].
          rewrite B, !zlen_app, (concat_len _ js_bytes 1802 js (js_len net) Fj). pose proof (zlen_nonneg pre). pose proof (zlen_nonneg rest). pose proof (zlen_nonneg js). pose proof (zlen_nonneg pk).
          pose proof (zlen_nonneg (compactsize (zlen js))). unfold bytes, sprout_joinsplit in *. change (zlen (@nil Z)) with 0. lia.
        - pose proof (eq_trans (eq_sym X) E1) as Y. apply Ok_inj in Y. injection Y as _ Y. symmetry. exact Y.
        - pose proof (eq_trans (eq_sym X) E1) as Y. discriminate Y. }
      apply SproutTx_Ok in E; [|apply all_bytes_is_bytes; exact Bv]. destruct E as [_ E].
      destruct S as [_ [_ [_ [_ [_ [_ [_ [_ [S _]]]]]]]]]. rewrite Es, E in S. cbn [sp_of sp_joinsplit_sig] in S. change (leqb LSprout.v2 LSprout.v2) with true in S. cbn iota in S.
      injection S as S. apply (f_equal zlen) in S. change (zlen (@nil Z)) with 0 in S.
      pose proof (zlen_nonneg rest) as Zr. pose proof (zlen_nonneg js) as Zj. pose proof (zlen_nonneg pre) as Zp.
      assert (zlen rest <> 0) as Nz by (intros X; apply zlen_0 in X; contradiction).
      assert (zlen (compactsize (zlen js)) = 1) as Cs. { rewrite zlen_compactsize. destruct (Z.ltb_spec (zlen js) 253); lia. }
      assert (zlen bs = cur + 32 + zlen rest) as Lb.
      { rewrite B, !zlen_app, (concat_len _ js_bytes 1802 js (js_len net) Fj), Cs, Lk. change (zlen (@nil Z)) with 0. unfold bytes, sprout_joinsplit in *; lia. }
      unfold bytes, sprout_joinsplit in *. rewrite zlen_slice in S by lia. lia.
    - intros [P [V2 C]]. destruct (exact_read_parts name net En _ _ Fi Bs P) as [ins' R].
      destruct (sprout_parse_as H net name t rest ins' En O R V2 C) as [t' [E [_ [S _]]]]. exists t'. auto.
  Qed.
End Tx.
