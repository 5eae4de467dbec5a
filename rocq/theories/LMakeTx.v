(* make_tx: what the result is made of, and foreign parts *)
From Coq Require Import String.
From Verif Require Import Py SNum SNet SHash SScript SAddr MNet MUtils MShared MScript MTx MZcash MDecred MBase58 MBech32 MCashaddr MAddr MBuilder
  STx SZcash SDecred SMake LBase LNet LUtils LTx LZcash LZcashTx LZcashTop LDecred LSapling LBuilder LBuilderTx.
Open Scope list_scope.
Open Scope Z_scope.

Section Mix.
  Context {A B : Type} (f : A -> res B) (back : B -> A).
  Context (Fok : forall x y, f x = Ok y <-> x = back y) (Ferr : forall x e, f x = Err e -> e = ValueError).
  Lemma mapM_back l m : mapM f l = Ok m <-> l = map back m.
  Proof using All.
    revert m. induction l as [|x l IH]; intros m; cbn [mapM].
    - destruct m; cbn [map]; split; intros X; try discriminate; reflexivity.
    - destruct (f x) as [y|] eqn:E; cbn [bind].
      + destruct (mapM f l) as [n|] eqn:M; cbn [bind].
        * split; intros X.
          -- apply Ok_inj in X. subst m. cbn [map]. apply Fok in E. subst x. f_equal. apply IH. reflexivity.
          -- destruct m as [|y' m]; [discriminate|]. cbn [map] in X. injection X as Ex El. apply Fok in Ex. rewrite E in Ex. apply Ok_inj in Ex. subst y'.
             apply IH in El. apply Ok_inj in El. subst. reflexivity.
        * split; [discriminate|]. intros X. destruct m as [|y' m]; [discriminate|]. cbn [map] in X. injection X as _ El. apply IH in El. discriminate.
      + split; [discriminate|]. intros X. destruct m as [|y' m]; [discriminate|]. cbn [map] in X. injection X as Ex _. apply Fok in Ex. congruence.
  Qed.
  Lemma mapM_value l : (exists m, l = map back m /\ mapM f l = Ok m) \/ (mapM f l = Err ValueError /\ forall m, l <> map back m).
  Proof using All.
    destruct (mapM f l) as [m|e] eqn:M.
    - left. exists m. split; [apply mapM_back, M|reflexivity].
    - right. split; [|intros m X; apply mapM_back in X; congruence]. f_equal. revert M. induction l as [|x l IH]; cbn [mapM]; [discriminate|].
      destruct (f x) as [y|e'] eqn:E; cbn [bind].
      + destruct (mapM f l) as [n|e'']; cbn [bind]; [discriminate|]. exact IH.
      + intros Q. apply (Ferr x). congruence.
  Qed.
End Mix.

Ltac mix := intros; repeat match goal with x : any_in |- _ => destruct x | x : any_out |- _ => destruct x | x : any_js |- _ => destruct x end; split; congruence.
Ltac mixe := intros x e; destruct x; congruence.
Lemma plain_ins_value l : (exists m, l = map AnyIn m /\ plain_ins l = Ok m) \/ (plain_ins l = Err ValueError /\ forall m, l <> map AnyIn m).
Proof. apply mapM_value; [mix|mixe]. Qed.
Lemma decred_ins_value l : (exists m, l = map AnyDecredIn m /\ decred_ins l = Ok m) \/ (decred_ins l = Err ValueError /\ forall m, l <> map AnyDecredIn m).
Proof. apply mapM_value; [mix|mixe]. Qed.
Lemma plain_outs_value l : (exists m, l = map AnyOut m /\ plain_outs l = Ok m) \/ (plain_outs l = Err ValueError /\ forall m, l <> map AnyOut m).
Proof. apply mapM_value; [mix|mixe]. Qed.
Lemma decred_outs_value l : (exists m, l = map AnyDecredOut m /\ decred_outs l = Ok m) \/ (decred_outs l = Err ValueError /\ forall m, l <> map AnyDecredOut m).
Proof. apply mapM_value; [mix|mixe]. Qed.
Lemma sprout_jss_value l : (exists m, l = map AnySproutJs m /\ sprout_jss l = Ok m) \/ (sprout_jss l = Err ValueError /\ forall m, l <> map AnySproutJs m).
Proof. apply mapM_value; [mix|mixe]. Qed.
Lemma sapling_jss_value l : (exists m, l = map AnySaplingJs m /\ sapling_jss l = Ok m) \/ (sapling_jss l = Err ValueError /\ forall m, l <> map AnySaplingJs m).
Proof. apply mapM_value; [mix|mixe]. Qed.

Lemma padded_Ok n k b : i2le_padded n (Z.of_nat k) = Ok b -> 0 <= n < 256 ^ Z.of_nat k /\ b = le_bytes k n.
Proof.
  rewrite padded. unfold word. destruct (Z.leb_spec 0 n), (Z.ltb_spec n (256 ^ Z.of_nat k)); cbn [andb]; try discriminate.
  intros E. apply Ok_inj in E. auto.
Qed.

Section Make.
  Context (H : hashes) (name : str) (net : network) (En : get_network name = Ok net).

  Lemma SaplingTx_lists ins outs lock expiry vb sp so js pk sg bs t : SaplingTx H net ins outs lock expiry vb sp so js pk sg bs = Ok t ->
    exists p o j, sp = Some p /\ so = Some o /\ js = Some j.
  Proof using All.
    intros E. destruct sp as [p|]; [|destruct (SaplingTx_no_lists H net ins outs lock expiry vb so js pk sg bs) as [e X]; congruence].
    destruct so as [o|].
    - destruct js as [j|]; [exists p, o, j; auto|]. exfalso. assert (exists e, SaplingTx H net ins outs lock expiry vb (Some p) (Some o) None pk sg bs = Err e) as [e X]; [|congruence].
      unfold SaplingTx. repeat (apply bind_Err; intros ? ?; try discriminate).
    - exfalso. assert (exists e, SaplingTx H net ins outs lock expiry vb (Some p) None js pk sg bs = Err e) as [e X]; [|congruence].
      unfold SaplingTx. repeat (apply bind_Err; intros ? ?; try discriminate).
  Qed.

  Lemma made_of v ins outs lock expiry vb sp so ws js pk sg bs t :
    make_tx H net v ins outs lock expiry vb sp so ws js pk sg bs = Ok t ->
    match t with
    | AnyTx t => ~ In name decred_names /\ ~ In name overwinter_names /\ ~ In name sapling_names /\ (In name sprout_names -> js = None) /\
        ins = map AnyIn (tx_tx_ins t) /\ outs = map AnyOut (tx_tx_outs t) /\ tx_version t = le_bytes 4 v /\ tx_lock_time t = le_bytes 4 lock /\
        match tx_tx_witnesses t with
        | None => ws = NoWits /\ tx_flag t = None
        | Some l => (ws = Wits l \/ (l = [] /\ ws = DecredWits [])) /\ tx_flag t = Some marker_and_flag
        end
    | AnyDecredTx t => In name decred_names /\
        ins = map AnyDecredIn (dtx_tx_ins t) /\ outs = map AnyDecredOut (dtx_tx_outs t) /\ dtx_version t = le_bytes 4 v /\ dtx_lock_time t = le_bytes 4 lock /\
        (exists e, expiry = Some e /\ dtx_expiry t = le_bytes 4 e) /\ exists w, ws = DecredWit w /\ dtx_tx_witnesses t = [w]
    | AnySproutTx _ => False
    | AnyOverwinterTx t => In name overwinter_names /\
        ins = map AnyIn (ow_tx_ins t) /\ outs = map AnyOut (ow_tx_outs t) /\ ow_lock_time t = le_bytes 4 lock /\
        (exists e, expiry = Some e /\ ow_expiry_height t = le_bytes 4 e) /\
        match js with Some j => j | None => [] end = map AnySproutJs (ow_tx_joinsplits t) /\
        (ow_tx_joinsplits t <> [] -> ow_joinsplit_pubkey t = pk /\ ow_joinsplit_sig t = sg)
    | AnySaplingTx t => In name sapling_names /\
        ins = map AnyIn (sa_tx_ins t) /\ outs = map AnyOut (sa_tx_outs t) /\ sa_lock_time t = le_bytes 4 lock /\
        (exists e, expiry = Some e /\ sa_expiry_height t = le_bytes 4 e) /\ sa_value_balance t = le_bytes 8 vb /\
        sp = Some (sa_tx_shielded_spends t) /\ so = Some (sa_tx_shielded_outputs t) /\ js = Some (map AnySaplingJs (sa_tx_joinsplits t)) /\
        (sa_tx_joinsplits t <> [] -> sa_joinsplit_pubkey t = pk /\ sa_joinsplit_sig t = sg)
    end.
  Proof using All.
    assert (forall n b, i2le_padded n 4 = Ok b -> b = le_bytes 4 n) as P4 by (intros n b X; change 4 with (Z.of_nat 4) in X; apply padded_Ok in X; apply X).
    assert (forall n b, i2le_padded n 8 = Ok b -> b = le_bytes 8 n) as P8 by (intros n b X; change 8 with (Z.of_nat 8) in X; apply padded_Ok in X; apply X).
    assert (forall b, i2le_padded_opt expiry 4 = Ok b -> exists e, expiry = Some e /\ b = le_bytes 4 e) as Pe.
    { intros b X. destruct expiry as [e|]; [|discriminate X]. exists e. split; [reflexivity|]. apply P4, X. }
    assert (forall {A} (l : list A), l <> [] -> negb (zlen l =? 0) = true) as NE by (intros A [|a l] X; [congruence|reflexivity]).
    unfold make_tx. cbv zeta.
    destruct (contains (get_current_network_name net) (lit "decred")) eqn:Cd.
    { pose proof Cd as Hd. apply (decred_only_names name net En) in Hd. intros E.
      destruct (i2le_padded v 4) as [vb4|] eqn:Ev; [|discriminate E]. cbn [bind] in E. destruct (i2le_padded lock 4) as [lb|] eqn:El; [|discriminate E]. cbn [bind] in E.
      destruct (i2le_padded_opt expiry 4) as [eb|] eqn:Ee; [|discriminate E]. cbn [bind] in E.
      destruct (decred_ins_value ins) as [[is [Ei Qi]]|[Qi _]]; rewrite Qi in E; [|discriminate E]. cbn [bind] in E.
      destruct (decred_outs_value outs) as [[os [Eo Qo]]|[Qo _]]; rewrite Qo in E; [|discriminate E]. cbn [bind] in E.
      destruct ws as [| | |w]; try discriminate E. cbn [bind] in E. destruct (DecredTx H net vb4 is os lb eb [w]) as [t'|] eqn:Et; [|discriminate E].
      cbn [bind] in E. apply Ok_inj in E. subst t. apply DecredTx_Ok in Et; [|unfold decred_only; rewrite Cd; reflexivity]. destruct Et as [_ ->].
      cbn [dtx_of dtx_tx_ins dtx_tx_outs dtx_version dtx_lock_time dtx_expiry dtx_tx_witnesses].
      split; [exact Hd|]. split; [exact Ei|]. split; [exact Eo|]. split; [apply P4, Ev|]. split; [apply P4, El|]. split; [apply Pe, eq_refl|]. exists w. auto. }
    assert (~ In name decred_names) as Nd by (intros X; apply (decred_only_names name net En) in X; congruence).
    destruct (contains (get_current_network_name net) (lit "sprout")) eqn:Cs.
    { assert (In name sprout_names) as Hs by (apply (sprout_has name net En); exact Cs).
      destruct (proj1 (families name) Hs) as [_ [No Na]].
      destruct js as [j|]; cbn [andb].
      - intros E. exfalso. destruct (i2le_padded lock 4) as [lb|]; [|discriminate E]. cbn [bind] in E.
        destruct (plain_ins ins); [|discriminate E]. cbn [bind] in E. destruct (plain_outs outs); [|discriminate E]. cbn [bind] in E.
        destruct (sprout_jss j); [|discriminate E]. cbn [bind] in E.
        match type of E with bind (SproutTx H net None ?a ?b ?c ?d ?e ?f) _ = _ => destruct (SproutTx_no_version H net a b c d e f) as [x X] end.
        rewrite X in E. discriminate E.
      - rewrite (has_false name net _ _ (overwinter_has name net En) No), (has_false name net _ _ (sapling_has name net En) Na). intros E.
        destruct (i2le_padded v 4) as [vb4|] eqn:Ev; [|discriminate E]. cbn [bind] in E. destruct (i2le_padded lock 4) as [lb|] eqn:El; [|discriminate E]. cbn [bind] in E.
        destruct (plain_ins_value ins) as [[is [Ei Qi]]|[Qi _]]; rewrite Qi in E; [|discriminate E]. cbn [bind] in E.
        destruct (plain_outs_value outs) as [[os [Eo Qo]]|[Qo _]]; rewrite Qo in E; [|discriminate E]. cbn [bind] in E.
        revert E. match goal with |- bind ?w _ = _ -> _ => destruct w as [w'|] eqn:Ew; [|discriminate] end. cbn [bind]. intros E.
        match type of E with bind ?w _ = _ => destruct w as [t'|] eqn:Et; [|discriminate E] end. cbn [bind] in E. apply Ok_inj in E. subst t.
        apply Tx_Ok in Et. destruct Et as [_ ->]. cbn [tx_of tx_tx_ins tx_tx_outs tx_version tx_lock_time tx_tx_witnesses tx_flag].
        rewrite (segwit_flag name net En).
        split; [exact Nd|]. split; [exact No|]. split; [exact Na|]. split; [reflexivity|]. split; [exact Ei|]. split; [exact Eo|].
        split; [apply P4, Ev|]. split; [apply P4, El|].
        destruct ws as [|l|[|? ?]|]; try discriminate Ew; apply Ok_inj in Ew; subst w'; auto. }
    assert (~ In name sprout_names) as Ns by (intros X; apply (sprout_has name net En) in X; unfold net_has in X; congruence).
    cbn [andb]. destruct (contains (get_current_network_name net) (lit "overwinter")) eqn:Co.
    { assert (In name overwinter_names) as Ho by (apply (overwinter_has name net En); exact Co). intros E.
      destruct (i2le_padded lock 4) as [lb|] eqn:El; [|discriminate E]. cbn [bind] in E.
      destruct (i2le_padded_opt expiry 4) as [eb|] eqn:Ee; [|discriminate E]. cbn [bind] in E.
      destruct (plain_ins_value ins) as [[is [Ei Qi]]|[Qi _]]; rewrite Qi in E; [|discriminate E]. cbn [bind] in E.
      destruct (plain_outs_value outs) as [[os [Eo Qo]]|[Qo _]]; rewrite Qo in E; [|discriminate E]. cbn [bind] in E.
      destruct (sprout_jss_value (match js with Some j => j | None => [] end)) as [[jl [Ej Qj]]|[Qj _]]; rewrite Qj in E; [|discriminate E]. cbn [bind] in E.
      match type of E with bind ?w _ = _ => destruct w as [t'|] eqn:Et; [|discriminate E] end. cbn [bind] in E. apply Ok_inj in E. subst t.
      apply OverwinterTx_Ok in Et. destruct Et as [_ ->].
      cbn [ow_of ow_tx_ins ow_tx_outs ow_lock_time ow_expiry_height ow_tx_joinsplits ow_joinsplit_pubkey ow_joinsplit_sig].
      split; [exact Ho|]. split; [exact Ei|]. split; [exact Eo|]. split; [apply P4, El|]. split; [apply Pe, eq_refl|]. split; [exact Ej|].
      intros X. rewrite (NE _ _ X). auto. }
    assert (~ In name overwinter_names) as No by (intros X; apply (overwinter_has name net En) in X; unfold net_has in X; congruence).
    destruct (contains (get_current_network_name net) (lit "sapling")) eqn:Ca.
    { assert (In name sapling_names) as Ha by (apply (sapling_has name net En); exact Ca). intros E.
      destruct (i2le_padded lock 4) as [lb|] eqn:El; [|discriminate E]. cbn [bind] in E.
      destruct (i2le_padded_opt expiry 4) as [eb|] eqn:Ee; [|discriminate E]. cbn [bind] in E.
      destruct (i2le_padded vb 8) as [vb8|] eqn:Eb; [|discriminate E]. cbn [bind] in E.
      destruct (plain_ins_value ins) as [[is [Ei Qi]]|[Qi _]]; rewrite Qi in E; [|discriminate E]. cbn [bind] in E.
      destruct (plain_outs_value outs) as [[os [Eo Qo]]|[Qo _]]; rewrite Qo in E; [|discriminate E]. cbn [bind] in E.
      revert E. match goal with |- bind ?w _ = _ -> _ => destruct w as [w'|] eqn:Ew; [|discriminate] end. cbn [bind]. intros E.
      match type of E with bind ?w _ = _ => destruct w as [t'|] eqn:Et; [|discriminate E] end. cbn [bind] in E. apply Ok_inj in E. subst t.
      destruct (SaplingTx_lists _ _ _ _ _ _ _ _ _ _ _ _ Et) as [p [o [j [-> [-> ->]]]]].
      destruct js as [j'|]; [|discriminate Ew].
      destruct (sapling_jss_value j') as [[jl [Ej Qj]]|[Qj _]]; rewrite Qj in Ew; [|discriminate Ew]. cbn [bind] in Ew. apply Ok_inj in Ew.
      injection Ew as ->.
      apply SaplingTx_Ok in Et. destruct Et as [_ ->].
      cbn [sa_of sa_tx_ins sa_tx_outs sa_lock_time sa_expiry_height sa_value_balance sa_tx_shielded_spends sa_tx_shielded_outputs sa_tx_joinsplits sa_joinsplit_pubkey sa_joinsplit_sig].
      split; [exact Ha|]. split; [exact Ei|]. split; [exact Eo|]. split; [apply P4, El|]. split; [apply Pe, eq_refl|]. split; [apply P8, Eb|].
      split; [reflexivity|]. split; [reflexivity|]. split; [rewrite Ej; reflexivity|]. intros X. rewrite (NE _ _ X). auto. }
    assert (~ In name sapling_names) as Na by (intros X; apply (sapling_has name net En) in X; unfold net_has in X; congruence).
    intros E.
    destruct (i2le_padded v 4) as [vb4|] eqn:Ev; [|discriminate E]. cbn [bind] in E. destruct (i2le_padded lock 4) as [lb|] eqn:El; [|discriminate E]. cbn [bind] in E.
    destruct (plain_ins_value ins) as [[is [Ei Qi]]|[Qi _]]; rewrite Qi in E; [|discriminate E]. cbn [bind] in E.
    destruct (plain_outs_value outs) as [[os [Eo Qo]]|[Qo _]]; rewrite Qo in E; [|discriminate E]. cbn [bind] in E.
    revert E. match goal with |- bind ?w _ = _ -> _ => destruct w as [w'|] eqn:Ew; [|discriminate] end. cbn [bind]. intros E.
    match type of E with bind ?w _ = _ => destruct w as [t'|] eqn:Et; [|discriminate E] end. cbn [bind] in E. apply Ok_inj in E. subst t.
    apply Tx_Ok in Et. destruct Et as [_ ->]. cbn [tx_of tx_tx_ins tx_tx_outs tx_version tx_lock_time tx_tx_witnesses tx_flag].
    rewrite (segwit_flag name net En).
    split; [exact Nd|]. split; [exact No|]. split; [exact Na|]. split; [intros X; destruct (Ns X)|]. split; [exact Ei|]. split; [exact Eo|].
    split; [apply P4, Ev|]. split; [apply P4, El|].
    destruct ws as [|l|[|? ?]|]; try discriminate Ew; apply Ok_inj in Ew; subst w'; auto.
  Qed.
End Make.

(** * foreign parts *)

Lemma not_map {A B} (back : B -> A) (bad : A -> Prop) l : (forall y, ~ bad (back y)) -> Exists bad l -> forall m, l <> map back m.
Proof.
  intros N X m E. subst l. apply Exists_exists in X. destruct X as [x [I Bx]]. apply in_map_iff in I. destruct I as [y [<- _]]. exact (N y Bx).
Qed.

Section Foreign.
  Context (H : hashes) (name : str) (net : network) (En : get_network name = Ok net).

  Lemma foreign_value v ins outs lock expiry vb sp so ws js pk sg bs : numbers_fit name v lock expiry vb -> foreign name ins outs ws js ->
    make_tx H net v ins outs lock expiry vb sp so ws js pk sg bs = Err ValueError.
  Proof using All.
    intros [Rl [Rv [Re Rb]]] F. unfold make_tx. cbv zeta.
    assert (forall n, 0 <= n < 2 ^ 32 -> i2le_padded n 4 = Ok (le_bytes 4 n)) as P4 by (intros n R; rewrite padded4; apply (word_Ok 4); exact R).
    rewrite (P4 lock Rl). unfold foreign in F. cbv zeta in F.
    destruct (contains (get_current_network_name net) (lit "decred")) eqn:Cd.
    { assert (In name decred_names) as Hd by (apply (decred_only_names name net En); exact Cd).
      assert (~ In name sprout_names /\ ~ In name overwinter_names /\ ~ In name sapling_names) as [Ns [No Na]].
      { destruct (families name) as [F1 [F2 F3]]. split; [|split]; intros X; [apply F1 in X|apply F2 in X|apply F3 in X]; exact (proj1 X Hd). }
      rewrite (P4 v (Rv No Na)). destruct (Re (or_introl Hd)) as [e [-> Ree]]. cbn [bind i2le_padded_opt]. rewrite (P4 e Ree). cbn [bind].
      destruct (decred_ins_value ins) as [[is [Ei Qi]]|[Qi _]]; rewrite Qi; [|reflexivity]. cbn [bind].
      destruct (decred_outs_value outs) as [[os [Eo Qo]]|[Qo _]]; rewrite Qo; [|reflexivity]. cbn [bind].
      destruct F as [[_ [F|[F|F]]]|F]; [| | |exfalso; tauto].
      - exfalso. refine (not_map AnyDecredIn _ _ _ F _ Ei). intros y X. apply X. exact I.
      - exfalso. refine (not_map AnyDecredOut _ _ _ F _ Eo). intros y X. apply X. exact I.
      - destruct ws as [| | |w]; try reflexivity. destruct (F w eq_refl). }
    assert (~ In name decred_names) as Nd by (intros X; apply (decred_only_names name net En) in X; congruence).
    destruct F as [[X _]|F]; [destruct (Nd X)|].
    destruct (plain_ins_value ins) as [[is [Ei Qi]]|[Qi _]]; rewrite Qi.
    2:{ destruct (contains _ (lit "sprout") && _); [reflexivity|].
        destruct (contains _ (lit "overwinter")) eqn:Co.
        { assert (In name overwinter_names) as Ho by (apply (overwinter_has name net En); exact Co).
          destruct (Re (or_intror (or_introl Ho))) as [e [-> Ree]]. cbn [bind i2le_padded_opt]. rewrite (P4 e Ree). reflexivity. }
        assert (~ In name overwinter_names) as No by (intros X; apply (overwinter_has name net En) in X; unfold net_has in X; congruence).
        destruct (contains _ (lit "sapling")) eqn:Ca.
        { assert (In name sapling_names) as Ha by (apply (sapling_has name net En); exact Ca).
          destruct (Re (or_intror (or_intror Ha))) as [e [-> Ree]]. cbn [bind i2le_padded_opt]. rewrite (P4 e Ree). rewrite padded8, (word_Ok 8) by (apply Rb, Ha). reflexivity. }
        assert (~ In name sapling_names) as Na by (intros X; apply (sapling_has name net En) in X; unfold net_has in X; congruence).
        rewrite (P4 v (Rv No Na)). reflexivity. }
    destruct (plain_outs_value outs) as [[os [Eo Qo]]|[Qo _]]; rewrite Qo.
    2:{ destruct (contains _ (lit "sprout") && _); [reflexivity|].
        destruct (contains _ (lit "overwinter")) eqn:Co.
        { assert (In name overwinter_names) as Ho by (apply (overwinter_has name net En); exact Co).
          destruct (Re (or_intror (or_introl Ho))) as [e [-> Ree]]. cbn [bind i2le_padded_opt]. rewrite (P4 e Ree). reflexivity. }
        assert (~ In name overwinter_names) as No by (intros X; apply (overwinter_has name net En) in X; unfold net_has in X; congruence).
        destruct (contains _ (lit "sapling")) eqn:Ca.
        { assert (In name sapling_names) as Ha by (apply (sapling_has name net En); exact Ca).
          destruct (Re (or_intror (or_intror Ha))) as [e [-> Ree]]. cbn [bind i2le_padded_opt]. rewrite (P4 e Ree). rewrite padded8, (word_Ok 8) by (apply Rb, Ha). reflexivity. }
        assert (~ In name sapling_names) as Na by (intros X; apply (sapling_has name net En) in X; unfold net_has in X; congruence).
        rewrite (P4 v (Rv No Na)). reflexivity. }
    assert (~ (~ In name decred_names /\ (Exists is_decred_in ins \/ Exists is_decred_out outs))) as NF.
    { intros [_ [X|X]].
      - refine (not_map AnyIn _ _ _ X _ Ei). intros y Y. exact Y.
      - refine (not_map AnyOut _ _ _ X _ Eo). intros y Y. exact Y. }
    destruct F as [F|F]; [destruct (NF F)|]. clear NF.
    destruct F as [[W F]|[[Ha F]|[_ [Nz F]]]].
    - (* a Sapling JoinSplit before Sapling *)
      destruct js as [j|]; [|inversion F].
      destruct (sprout_jss_value j) as [[jl [Ej Qj]]|[Qj _]]; [exfalso; refine (not_map AnySproutJs _ _ _ F _ Ej); intros y Y; exact Y|].
      destruct W as [Hs|Ho].
      + rewrite (has_true name net _ _ (sprout_has name net En) Hs). cbn [andb bind]. rewrite Qj. reflexivity.
      + destruct (proj1 (proj2 (families name)) Ho) as [_ [Ns _]].
        rewrite (has_false name net _ _ (sprout_has name net En) Ns), (has_true name net _ _ (overwinter_has name net En) Ho). cbn [andb bind].
        destruct (Re (or_intror (or_introl Ho))) as [e [-> Ree]]. cbn [bind i2le_padded_opt]. rewrite (P4 e Ree). cbn [bind]. rewrite Qj. reflexivity.
    - destruct js as [j|]; [|inversion F].
      destruct (proj2 (proj2 (families name)) Ha) as [_ [Ns No]].
      destruct (sapling_jss_value j) as [[jl [Ej Qj]]|[Qj _]]; [exfalso; refine (not_map AnySaplingJs _ _ _ F _ Ej); intros y Y; apply Y; exact I|].
      rewrite (has_false name net _ _ (sprout_has name net En) Ns), (has_false name net _ _ (overwinter_has name net En) No), (has_true name net _ _ (sapling_has name net En) Ha).
      cbn [andb bind]. destruct (Re (or_intror (or_intror Ha))) as [e [-> Ree]]. cbn [bind i2le_padded_opt]. rewrite (P4 e Ree). cbn [bind].
      rewrite padded8, (word_Ok 8) by (apply Rb, Ha). cbn [bind]. rewrite Qj. reflexivity.
    - destruct (zcash_parts name Nz) as [Ns [No Na]].
      rewrite (has_false name net _ _ (sprout_has name net En) Ns), (has_false name net _ _ (overwinter_has name net En) No), (has_false name net _ _ (sapling_has name net En) Na).
      cbn [andb]. rewrite (P4 v (Rv No Na)). cbn [bind]. destruct ws as [|l|[|? ?]|]; try reflexivity; destruct F. reflexivity.
  Qed.
End Foreign.
