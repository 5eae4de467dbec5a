(* C63: truncated transactions whose witnesses have long items *)
From Coq Require Import String.
From Verif Require Import Py LBase MNet MUtils MShared MScript MTx SHash SNum SNet STx STrunc LTx LTxParse LTrunc LTrunc2 PTx PTrunc.
Open Scope list_scope.
Open Scope Z_scope.

Section Hashes.
Context (H : hashes).

(* Two kinds of truncation are accepted: the one that ends four bytes into the witness
   data, and those that leave fewer than 253 bytes of a last item of 65536 bytes or more *)
Theorem tx_truncated_long name net t p : get_network name = Ok net -> tx_obj H net t -> parsable name (the_tx t) ->
  fitting_witness (the_tx t) -> cut p (tx_bytes t) ->
  ((exists t', Tx_from_bytes H net p = Ok t') <->
   t_witness (the_tx t) <> None /\
   (len p = length_without_witnesses (the_tx t) \/ exists ws st l, cut_in_long_item (the_tx t) p ws st l)).
Proof.
  intros En O P Sh [q [Q E]]. destruct (tx_wire H name net t En O) as [Wr K].
  assert (len (t_lock (the_tx t)) = 4) as L4 by apply K.
  assert (t_witness (the_tx t) = None -> exists e, Tx_from_bytes H net p = Err e) as NW.
  { intros W. apply (tx_truncated_partial H name net t p En O P W). exists q. auto. }
  destruct (t_witness (the_tx t)) as [tw|] eqn:Ew; [clear NW|destruct (NW eq_refl) as [e X]; rewrite X; split; [intros [t' T]; discriminate T|intros [T _]; congruence]].
  assert (tx_flag t <> None /\ tw = map the_stack (the_witnesses t)) as [F Tw].
  { unfold the_tx in Ew. cbn [t_witness] in Ew. destruct (tx_flag t); [|discriminate]. injection Ew as <-. split; [discriminate|reflexivity]. }
  assert (Forall medium_witness (the_witnesses t)) as M.
  { unfold fitting_witness in Sh. rewrite Ew, Tw, Forall_map in Sh. eapply Forall_impl; [|exact Sh].
    intros w [S1 S2]. unfold the_stack in S1, S2. rewrite Forall_map in S2. unfold count in S1. rewrite map_length in S1. split; [exact S1|exact S2]. }
  split.
  - intros [t' T]. split; [discriminate|].
    destruct (Tx_cut4 H name net t p q t' En O P M Q E T) as [_ [L|[ws [w [its [x [l [s [X1 [X2 [X3 [X4 [X5 X6]]]]]]]]]]]]]; [left; exact L|right].
    exists (map the_stack ws), (map wi_item its), l, s. rewrite Ew, Tw, X1, map_app. cbn [map]. unfold the_stack at 2. rewrite X2, map_app. cbn [map].
    rewrite X4 in *. split; [reflexivity|]. split; [exact X3|]. split; [exact X5|]. rewrite L4, <- Wr. exact X6.
  - intros [_ [L|[tws [tst [l [s [X1 [X2 [X3 X4]]]]]]]]].
    + destruct (Tx_cut_accepted H name net t p q En O P F E L) as [_ [_ [t' [_ [_ [T _]]]]]]. eauto.
    + rewrite Ew, Tw in X1. injection X1 as X1.
      apply map_eq_app in X1. destruct X1 as [ws [w' [W1 [_ W2]]]]. destruct w' as [|w [|]]; try discriminate W2.
      injection W2 as W2. unfold the_stack in W2. apply map_eq_app in W2. destruct W2 as [its [x' [V1 [_ V2]]]].
      destruct x' as [|x [|]]; try discriminate V2. injection V2 as V2.
      assert (zlen (wi_item x) < 2 ^ 32) as L32.
      { rewrite W1, Forall_app in M. destruct M as [_ M]. inversion M as [|w0 n0 [_ M'] _]; subst. rewrite V1, Forall_app in M'. destruct M' as [_ M'].
        inversion M'; subst. assumption. }
      destruct (Tx_cut4_accepted H name net t p q ws w its x l s En O P F E W1 V1) as [_ [_ [t' [_ [_ [T _]]]]]]; eauto.
      * rewrite V2. exact X2.
      * rewrite L4, <- Wr in X4. exact X4.
Qed.

(* what such a cut is taken for: the item has only the bytes that are left, and the
   lock time is the last four bytes of what is left *)
Theorem tx_truncated_long_result name net t p ws st l : get_network name = Ok net -> tx_obj H net t -> parsable name (the_tx t) ->
  fitting_witness (the_tx t) -> cut p (tx_bytes t) -> cut_in_long_item (the_tx t) p ws st l ->
  exists front r t', p = front ++ r /\ len r = 4 /\ Tx_from_bytes H net p = Ok t' /\
    the_tx t' = {| t_version := t_version (the_tx t); t_ins := t_ins (the_tx t); t_outs := t_outs (the_tx t);
                   t_witness := Some (ws ++ [st ++ [l]]); t_lock := r |}.
Proof.
  intros En O P Sh [q [Q E]] [s [X1 [X2 [X3 X4]]]]. destruct (tx_wire H name net t En O) as [Wr K].
  assert (len (t_lock (the_tx t)) = 4) as L4 by apply K.
  destruct (t_witness (the_tx t)) as [tw|] eqn:Ew; [|discriminate].
  assert (tx_flag t <> None /\ tw = map the_stack (the_witnesses t)) as [F Tw].
  { unfold the_tx in Ew. cbn [t_witness] in Ew. destruct (tx_flag t); [|discriminate]. injection Ew as <-. split; [discriminate|reflexivity]. }
  unfold fitting_witness in Sh. rewrite Ew in Sh. rewrite Tw in X1. injection X1 as X1.
  rewrite Tw in Sh. rewrite X1, Forall_app in Sh. destruct Sh as [_ Sh]. inversion Sh as [|w0 n0 [_ Sh'] _]; subst w0 n0.
  rewrite Forall_app in Sh'. destruct Sh' as [_ Sh']. inversion Sh' as [|w0 n0 L32 _]; subst w0 n0.
  apply map_eq_app in X1. destruct X1 as [ws' [w' [W1 [W0 W2]]]]. destruct w' as [|w [|]]; try discriminate W2.
  injection W2 as W2. unfold the_stack in W2. apply map_eq_app in W2. destruct W2 as [its [x' [V1 [V0 V2]]]].
  destruct x' as [|x [|]]; try discriminate V2. injection V2 as V2.
  rewrite <- W0, <- V0. rewrite <- V2 in L32, X2. rewrite L4, <- Wr in X4.
  exact (Tx_cut4_accepted H name net t p q ws' w its x l s En O P F E W1 V1 X2 L32 V2 X3 X4).
Qed.
End Hashes.

(* a transaction whose only witness item has 65536 bytes, cut after the first three of them *)
Example tx_truncated_long_ex : exists t p, tx_obj toy BitcoinMain t /\ parsable (lit "bitcoin_main") (the_tx t) /\
  fitting_witness (the_tx t) /\ cut p (tx_bytes t) /\ cut_in_long_item (the_tx t) p [] [] [9; 9; 9] /\
  exists t', Tx_from_bytes toy BitcoinMain p = Ok t' /\ t_witness (the_tx t') = Some [[[9; 9; 9]]] /\ t_lock (the_tx t') = [0; 9; 9; 9].
Proof.
  assert (get_network (lit "bitcoin_main") = Ok BitcoinMain) as En by (vm_compute; reflexivity).
  set (s := zrepeat 9 65533). assert (zlen s = 65533) as Ls by (apply zlen_zrepeat; lia).
  set (item := [9; 9; 9] ++ s). assert (zlen item = 65536) as Li by (unfold item; rewrite zlen_app, Ls; reflexivity).
  set (wb := compactsize 65536 ++ item).
  set (w := {| wit_stack := [{| wi_item := item; wi_bytes := wb |}]; wit_bytes := [1] ++ wb |}).
  assert (witness_obj w) as Ow.
  { apply witness_obj_iff. cbn [w wit_stack wit_bytes]. split; [|split; [reflexivity|cbn [map concat wi_bytes]; rewrite app_nil_r; reflexivity]].
    constructor; [|constructor]. apply witem_obj_iff. cbn [wi_item wi_bytes]. rewrite Li. split; [reflexivity|reflexivity]. }
  set (t := tx_of toy BitcoinMain [2; 0; 0; 0] (Some [0; 1]) [ex_input] [ex_output] (Some [w]) [0; 0; 0; 0]).
  assert (tx_obj toy BitcoinMain t) as O.
  { apply tx_obj_iff. cbn [t tx_of tx_tx_ins tx_tx_outs tx_tx_witnesses tx_version tx_flag tx_lock_time].
    split; [repeat constructor|]. split; [repeat constructor|]. split; [constructor; [exact Ow|constructor]|]. split; [vm_compute; reflexivity|reflexivity]. }
  assert (parsable (lit "bitcoin_main") (the_tx t)) as P.
  { destruct parsable_ex as [[[P1 [P2 [P3 _]]] P4] _]. split; [|exact P4]. split; [exact P1|]. split; [exact P2|]. split; [exact P3|].
    assert (forall n, readable_size (lit "bitcoin_main") n) as R by (intros n; left; vm_compute; intuition discriminate).
    constructor; [|constructor]. split; [apply R|]. constructor; [apply R|constructor]. }
  set (front := [2; 0; 0; 0; 0; 1; 1] ++ repeat 7 32 ++ [1; 0; 0; 0; 1; 0; 255; 255; 255; 255; 1; 5; 0; 0; 0; 0; 0; 0; 0; 1; 81; 1; 254; 0; 0; 1]).
  set (p := (front ++ [0; 9; 9; 9])).
  assert (tx_bytes t = p ++ s ++ [0; 0; 0; 0]) as Eb by (cbn [t tx_of tx_bytes]; reflexivity).
  assert (fitting_witness (the_tx t)) as Fw.
  { constructor; [|constructor]. split; [reflexivity|]. constructor; [|constructor]. change (len item < 2 ^ 32). unfold len. fold (zlen item). rewrite Li. reflexivity. }
  assert (cut p (tx_bytes t)) as C.
  { exists (s ++ [0; 0; 0; 0]). split; [intros X; apply app_eq_nil in X; destruct X; discriminate|exact Eb]. }
  assert (cut_in_long_item (the_tx t) p [] [] [9; 9; 9]) as CI.
  { exists s. split; [reflexivity|]. unfold len. change (2 ^ 16 <= zlen item /\ zlen [9; 9; 9] < 253 /\ zlen p = zlen (wire_tx (the_tx t)) - zlen [0; 0; 0; 0] - zlen s).
    split; [rewrite Li; lia|]. split; [reflexivity|]. destruct (tx_wire toy _ _ t En O) as [Wr _]. rewrite <- Wr, Eb, !zlen_app. lia. }
  exists t, p. split; [exact O|]. split; [exact P|]. split; [exact Fw|]. split; [exact C|]. split; [exact CI|].
  destruct (tx_truncated_long_result toy _ _ t p _ _ _ En O P Fw C CI) as [f [r [t' [Ef [Lr [T Et]]]]]].
  exists t'. split; [exact T|]. rewrite Et. split; [reflexivity|]. cbn [t_lock].
  unfold p in Ef.
  assert (length front = length f) as Lf.
  { assert (length (front ++ [0; 9; 9; 9]) = length (f ++ r)) as X by (rewrite Ef; reflexivity). rewrite !app_length in X.
    unfold len in Lr. cbn [length] in X. lia. }
  apply app_inj_len in Ef; [|exact Lf]. symmetry. apply Ef.
Qed.

Print Assumptions tx_truncated_long.
Print Assumptions tx_truncated_long_result.
