(* The Zcash classes in the heap *)
From Coq Require Import String.
From Verif Require Import Py SHash LBase MNet MUtils MShared MTx MZcash MHeap MHeapTx MHeapDecred MHeapZcash SHeap SHeapTx SHeapDecred SHeapZcash LHeap LHeapTx LHeapDecred.
Open Scope list_scope.
Open Scope Z_scope.

Section Preserved.
  Context (h h' : heap) (Pr : preserves h h').
  Lemma sprout_zkproof_preserved v z : is_sprout_zkproof h v z -> is_sprout_zkproof h' v z.
  Proof using Pr. apply object_preserved, Pr. Qed.
  Lemma sapling_zkproof_preserved v z : is_sapling_zkproof h v z -> is_sapling_zkproof h' v z.
  Proof using Pr. apply object_preserved, Pr. Qed.
  Lemma joinsplit_preserved {P} (is_proof : heap -> val -> P -> Prop) : (forall v z, is_proof h v z -> is_proof h' v z) ->
    forall v j, is_joinsplit is_proof h v j -> is_joinsplit is_proof h' v j.
  Proof using Pr. intros K v j [p [Z O]]. exists p. split; [apply K, Z|apply (object_preserved h), O; exact Pr]. Qed.
  Lemma sprout_joinsplit_preserved v j : is_sprout_joinsplit h v j -> is_sprout_joinsplit h' v j.
  Proof using Pr. apply joinsplit_preserved, sprout_zkproof_preserved. Qed.
  Lemma sapling_joinsplit_preserved v j : is_sapling_joinsplit h v j -> is_sapling_joinsplit h' v j.
  Proof using Pr. apply joinsplit_preserved, sapling_zkproof_preserved. Qed.
  Lemma shielded_spend_preserved v s : is_shielded_spend h v s -> is_shielded_spend h' v s.
  Proof using Pr. intros [p [Z O]]. exists p. split; [apply sapling_zkproof_preserved, Z|apply (object_preserved h), O; exact Pr]. Qed.
  Lemma shielded_output_preserved v s : is_shielded_output h v s -> is_shielded_output h' v s.
  Proof using Pr. intros [p [Z O]]. exists p. split; [apply sapling_zkproof_preserved, Z|apply (object_preserved h), O; exact Pr]. Qed.
  Lemma sprout_tx_preserved v t : is_sprout_tx h v t -> is_sprout_tx h' v t.
  Proof using Pr.
    intros [ins [outs [js [l [Fi [Fo [E [Fj O]]]]]]]]. exists ins, outs, js, l.
    split; [exact (Forall2_preserved h h' is_txin ins _ (txin_preserved h h' Pr) Fi)|].
    split; [exact (Forall2_preserved h h' is_txout outs _ (txout_preserved h h' Pr) Fo)|]. split; [exact E|].
    split; [exact (Forall2_preserved h h' is_sprout_joinsplit js _ sprout_joinsplit_preserved Fj)|apply (object_preserved h), O; exact Pr].
  Qed.
  Lemma overwinter_tx_preserved v t : is_overwinter_tx h v t -> is_overwinter_tx h' v t.
  Proof using Pr.
    intros [ins [outs [js [Fi [Fo [Fj O]]]]]]. exists ins, outs, js.
    split; [exact (Forall2_preserved h h' is_txin ins _ (txin_preserved h h' Pr) Fi)|].
    split; [exact (Forall2_preserved h h' is_txout outs _ (txout_preserved h h' Pr) Fo)|].
    split; [exact (Forall2_preserved h h' is_sprout_joinsplit js _ sprout_joinsplit_preserved Fj)|apply (object_preserved h), O; exact Pr].
  Qed.
  Lemma sapling_tx_preserved v t : is_sapling_tx h v t -> is_sapling_tx h' v t.
  Proof using Pr.
    intros [ins [outs [ss [so [js [Fi [Fo [Fs [Fp [Fj O]]]]]]]]]]. exists ins, outs, ss, so, js.
    split; [exact (Forall2_preserved h h' is_txin ins _ (txin_preserved h h' Pr) Fi)|].
    split; [exact (Forall2_preserved h h' is_txout outs _ (txout_preserved h h' Pr) Fo)|].
    split; [exact (Forall2_preserved h h' is_shielded_spend ss _ shielded_spend_preserved Fs)|].
    split; [exact (Forall2_preserved h h' is_shielded_output so _ shielded_output_preserved Fp)|].
    split; [exact (Forall2_preserved h h' is_sapling_joinsplit js _ sapling_joinsplit_preserved Fj)|apply (object_preserved h), O; exact Pr].
  Qed.
End Preserved.

Lemma check_len_optional h x n : check_len h (optional x) n = validate_bytes x (Some n).
Proof. destruct x; reflexivity. Qed.
Lemma get_content_optional h x : get_content h (optional x) = add_opt x.
Proof. destruct x; reflexivity. Qed.
Lemma frozen_optional h x : frozen h (optional x).
Proof. destruct x; constructor. Qed.
Lemma frozen_tuple_bytes h l : frozen h (VTuple (map VB l)).
Proof. constructor. intros v I. apply in_map_iff in I. destruct I as [b [<- _]]. constructor. Qed.
Lemma object_getattr h l b f k x : object h (VRef l) b f -> assoc k ((lit "_bytes", VB b) :: f) = Some x -> getattr h l k = Ok x.
Proof. intros [l' [a [E [N [A _]]]]] X. injection E as <-. unfold getattr. rewrite N, A, X. reflexivity. Qed.
Lemma object_attr h v b f k x : object h v b f -> assoc k ((lit "_bytes", VB b) :: f) = Some x -> attr h v k = Ok x.
Proof. intros O X. pose proof O as [l [a [-> _]]]. cbn [attr]. exact (object_getattr h l b f k x O X). Qed.

(* a destruct of every check that both sides make *)
Ltac checks := repeat (match goal with
  | |- match @bind unit _ ?r _ with Ok _ => _ | Err _ => _ end => destruct r as [[]|]; [|reflexivity]; cbn [bind]
  end).
Ltac frozen_attrs' := repeat (constructor; [split; [discriminate|cbn [snd]; first [assumption|apply frozen_optional|apply frozen_tuple_bytes|constructor]]|]); constructor.

Section Make.
  Context (H : hashes) (net : network) (h : heap) (Cl : closed h).

  Lemma sprout_zkproof_agrees a b c d e f g i :
    agrees (SproutZkproof net a b c d e f g i) (new_sprout_zkproof net h (VB a) (VB b) (VB c) (VB d) (VB e) (VB f) (VB g) (VB i)) is_sprout_zkproof.
  Proof using Cl.
    unfold SproutZkproof, new_sprout_zkproof, vb. rewrite !(check_len_bytes h (VB _) _ _ eq_refl). unfold agrees.
    destruct (zcash_only net) as [[]|]; [|reflexivity]. cbn [bind]. checks.
    match goal with |- context [construct h ?p ?q] => destruct (construct_whole h p [a; b; c; d; e; f; g; i] q Cl) as [h' [l [E [O C]]]] end.
    - repeat (constructor; [split; [exact I|reflexivity]|]). constructor.
    - frozen_attrs.
    - distinct.
    - exists h', l. split; [exact E|]. split; [|exact C]. cbn [concat] in O. rewrite app_nil_r in O. exact O.
  Qed.

  Lemma sapling_zkproof_agrees a b c :
    agrees (SaplingZkproof net a b c) (new_sapling_zkproof net h (VB a) (VB b) (VB c)) is_sapling_zkproof.
  Proof using Cl.
    unfold SaplingZkproof, new_sapling_zkproof, vb. rewrite !(check_len_bytes h (VB _) _ _ eq_refl). unfold agrees.
    destruct (zcash_only net) as [[]|]; [|reflexivity]. cbn [bind]. checks.
    match goal with |- context [construct h ?p ?q] => destruct (construct_whole h p [a; b; c] q Cl) as [h' [l [E [O C]]]] end.
    - repeat (constructor; [split; [exact I|reflexivity]|]). constructor.
    - frozen_attrs.
    - distinct.
    - exists h', l. split; [exact E|]. split; [|exact C]. cbn [concat] in O. rewrite app_nil_r in O. exact O.
  Qed.

  Section Joinsplit.
    Context {P : Type} (is_proof : heap -> val -> P -> Prop) (proof_bytes : P -> bytes)
      (proof_object : forall h v z, is_proof h v z -> exists f, object h v (proof_bytes z) f)
      (proof_preserved : forall h h', preserves h h' -> forall v z, is_proof h v z -> is_proof h' v z).

    Lemma joinsplit_agrees a b c d e f g i pv z n : is_proof h pv z ->
      agrees (Joinsplit net proof_bytes a b c d e f g i z n)
        (new_joinsplit net h (VB a) (VB b) (VB c) (VB d) (VB e) (VB f) (VB g) (VB i) pv (VB n)) (is_joinsplit is_proof).
    Proof using Cl proof_object proof_preserved.
      intros Z. destruct (proof_object _ _ _ Z) as [fl O]. pose proof (object_content _ _ _ _ O) as [Old Co].
      unfold Joinsplit, new_joinsplit, vb, le_number, get_content. cbn [content buffer bind]. rewrite !(check_len_bytes h (VB _) _ _ eq_refl). unfold agrees.
      destruct (zcash_only net) as [[]|]; [|reflexivity]. cbn [bind].
      assert ((if le2i a false =? 0 then Ok tt else guard (negb (le2i b false =? 0)) ValueError) =
        guard (negb (le2i a false =? 0) && negb (le2i b false =? 0)) ValueError) as -> by (destruct (le2i a false =? 0); reflexivity).
      checks.
      match goal with |- context [construct h ?p ?q] => destruct (construct_whole h p [a; b; c; d; e; f; g; i; proof_bytes z; n] q Cl) as [h' [l [E [B C]]]] end.
      - repeat (constructor; [first [split; [exact I|reflexivity]|split; assumption]|]). constructor.
      - pose proof (object_frozen _ _ _ _ O). frozen_attrs.
      - distinct.
      - exists h', l. split; [exact E|]. split; [|exact C]. exists pv. cbn [js_zkproof].
        split; [eapply proof_preserved; [eapply construct_preserves, E|exact Z]|]. cbn [concat] in B. rewrite app_nil_r in B. exact B.
    Qed.

    Lemma joinsplit_contents vs l : Forall2 (is_joinsplit is_proof h) vs l -> Forall2 (fun p x => old h p /\ content h p = Some x) vs (map js_bytes l) /\ Forall (frozen h) vs.
    Proof using. apply contents_of. intros x y [p [_ O]]. eexists. exact O. Qed.

    Lemma hsig_agrees v j pk : is_joinsplit is_proof h v j -> hsig_of H h (VB pk) v = Ok (hsig H pk j).
    Proof using.
      intros [p [_ O]]. unfold hsig_of, attrs_of. cbn [mapM].
      rewrite (object_attr _ _ _ _ (lit "random_seed") _ O eq_refl), (object_attr _ _ _ _ (lit "nullifiers") _ O eq_refl).
      cbn [bind app joined content buffer]. rewrite app_nil_r. reflexivity.
    Qed.
    Lemma hsigs_agree vs l pk : Forall2 (is_joinsplit is_proof h) vs l -> hsigs_of H h (VB pk) vs = Ok (map (hsig H pk) l).
    Proof using.
      intros F. unfold hsigs_of. induction F as [|v j vs l J F IH]; [reflexivity|]. cbn [mapM map]. rewrite (hsig_agrees v j pk J). cbn [bind]. rewrite IH. reflexivity.
    Qed.
    Lemma primary_input_agrees v j pk : is_joinsplit is_proof h v j -> primary_input_of h v (hsig H pk j) = Ok (primary_input H pk j).
    Proof using.
      intros [p [_ O]]. unfold primary_input_of, attrs_of. cbn [mapM].
      rewrite (object_attr _ _ _ _ (lit "anchor") _ O eq_refl), (object_attr _ _ _ _ (lit "nullifiers") _ O eq_refl), (object_attr _ _ _ _ (lit "commitments") _ O eq_refl),
        (object_attr _ _ _ _ (lit "vpub_old") _ O eq_refl), (object_attr _ _ _ _ (lit "vpub_new") _ O eq_refl), (object_attr _ _ _ _ (lit "vmacs") _ O eq_refl).
      cbn [bind app joined content buffer]. rewrite app_nil_r. reflexivity.
    Qed.
    Lemma primary_inputs_agree vs l pk : Forall2 (is_joinsplit is_proof h) vs l ->
      primary_inputs_of h vs (map (hsig H pk) l) = Ok (map (primary_input H pk) l).
    Proof using.
      intros F. unfold primary_inputs_of. induction F as [|v j vs l J F IH]; [reflexivity|]. cbn [mapM map combine fst snd]. rewrite (primary_input_agrees v j pk J). cbn [bind]. rewrite IH. reflexivity.
    Qed.

    Lemma vpub_numbers vs l : Forall2 (is_joinsplit is_proof h) vs l ->
      numbers_of h (lit "vpub_new") vs = Ok (map (fun j => le2i (js_vpub_new j) false) l) /\
      numbers_of h (lit "vpub_old") vs = Ok (map (fun j => le2i (js_vpub_old j) false) l).
    Proof using.
      intros F. unfold numbers_of. induction F as [|v j vs l [p [_ O]] F [I1 I2]]; [split; reflexivity|]. cbn [mapM map].
      rewrite (object_attr _ _ _ _ (lit "vpub_new") _ O eq_refl), (object_attr _ _ _ _ (lit "vpub_old") _ O eq_refl). cbn [bind].
      unfold le_number at 1 3. cbn [get_content content buffer bind]. rewrite I1, I2. split; reflexivity.
    Qed.
  End Joinsplit.

  Lemma sprout_joinsplit_agrees a b c d e f g i pv z n : is_sprout_zkproof h pv z ->
    agrees (SproutJoinsplit net a b c d e f g i z n)
      (new_joinsplit net h (VB a) (VB b) (VB c) (VB d) (VB e) (VB f) (VB g) (VB i) pv (VB n)) is_sprout_joinsplit.
  Proof using Cl. apply joinsplit_agrees; [intros ? ? ? O; eexists; exact O|exact sprout_zkproof_preserved]. Qed.
  Lemma sapling_joinsplit_agrees a b c d e f g i pv z n : is_sapling_zkproof h pv z ->
    agrees (SaplingJoinsplit net a b c d e f g i z n)
      (new_joinsplit net h (VB a) (VB b) (VB c) (VB d) (VB e) (VB f) (VB g) (VB i) pv (VB n)) is_sapling_joinsplit.
  Proof using Cl. apply joinsplit_agrees; [intros ? ? ? O; eexists; exact O|exact sapling_zkproof_preserved]. Qed.

  Lemma shielded_spend_agrees a b c d pv z s : is_sapling_zkproof h pv z ->
    agrees (SaplingShieldedSpend net a b c d z s) (new_shielded_spend net h (VB a) (VB b) (VB c) (VB d) pv (VB s)) is_shielded_spend.
  Proof using Cl.
    intros O. pose proof (object_content _ _ _ _ O) as [Old Co].
    unfold SaplingShieldedSpend, new_shielded_spend, vb. rewrite !(check_len_bytes h (VB _) _ _ eq_refl). unfold agrees.
    destruct (zcash_only net) as [[]|]; [|reflexivity]. cbn [bind]. checks.
    match goal with |- context [construct h ?p ?q] => destruct (construct_whole h p [a; b; c; d; szk_bytes z; s] q Cl) as [h' [l [E [B C]]]] end.
    - repeat (constructor; [first [split; [exact I|reflexivity]|split; assumption]|]). constructor.
    - pose proof (object_frozen _ _ _ _ O). frozen_attrs.
    - distinct.
    - exists h', l. split; [exact E|]. split; [|exact C]. exists pv. cbn [ss_zkproof].
      split; [eapply sapling_zkproof_preserved; [eapply construct_preserves, E|exact O]|]. cbn [concat] in B. rewrite app_nil_r in B. exact B.
  Qed.
  Lemma shielded_output_agrees a b c d e pv z : is_sapling_zkproof h pv z ->
    agrees (SaplingShieldedOutput net a b c d e z) (new_shielded_output net h (VB a) (VB b) (VB c) (VB d) (VB e) pv) is_shielded_output.
  Proof using Cl.
    intros O. pose proof (object_content _ _ _ _ O) as [Old Co].
    unfold SaplingShieldedOutput, new_shielded_output, vb. rewrite !(check_len_bytes h (VB _) _ _ eq_refl). unfold agrees.
    destruct (zcash_only net) as [[]|]; [|reflexivity]. cbn [bind]. checks.
    match goal with |- context [construct h ?p ?q] => destruct (construct_whole h p [a; b; c; d; e; szk_bytes z] q Cl) as [h' [l [E [B C]]]] end.
    - repeat (constructor; [first [split; [exact I|reflexivity]|split; assumption]|]). constructor.
    - pose proof (object_frozen _ _ _ _ O). frozen_attrs.
    - distinct.
    - exists h', l. split; [exact E|]. split; [|exact C]. exists pv. cbn [so_zkproof].
      split; [eapply sapling_zkproof_preserved; [eapply construct_preserves, E|exact O]|]. cbn [concat] in B. rewrite app_nil_r in B. exact B.
  Qed.

  Local Notation whole := (fun p x => old h p /\ content h p = Some x).
  Lemma txin_contents vs l : Forall2 (is_txin h) vs l -> Forall2 whole vs (map ti_bytes l) /\ Forall (frozen h) vs.
  Proof using. apply contents_of. intros x y [o [_ O]]. eexists. exact O. Qed.
  Lemma txout_contents vs l : Forall2 (is_txout h) vs l -> Forall2 whole vs (map to_bytes_ l) /\ Forall (frozen h) vs.
  Proof using. apply contents_of. intros x y O. eexists. exact O. Qed.
  Lemma spend_contents vs l : Forall2 (is_shielded_spend h) vs l -> Forall2 whole vs (map ss_bytes l) /\ Forall (frozen h) vs.
  Proof using. apply contents_of. intros x y [o [_ O]]. eexists. exact O. Qed.
  Lemma output_contents vs l : Forall2 (is_shielded_output h) vs l -> Forall2 whole vs (map so_bytes l) /\ Forall (frozen h) vs.
  Proof using. apply contents_of. intros x y [o [_ O]]. eexists. exact O. Qed.

  Lemma Forall2_zlen0 {A} (is : val -> A -> Prop) vs l : Forall2 is vs l -> zlen l = 0 -> l = [].
  Proof using. intros _ E. destruct l; [reflexivity|]. unfold zlen in E. cbn [length] in E. lia. Qed.

  Lemma overwinter_agrees vi ins vo outs lt ex vj js pk sg :
    sequence_of h (is_txin h) vi ins -> sequence_of h (is_txout h) vo outs -> sequence_of h (is_sprout_joinsplit h) vj js ->
    agrees (OverwinterTx H net ins outs lt ex js pk sg)
      (new_overwinter_tx H net h vi vo (VB lt) (VB ex) vj (optional pk) (optional sg)) is_overwinter_tx.
  Proof using Cl.
    intros Qi Qo Qj. destruct (get_sequence h _ _ _ Qi) as [is [Ei Fi]]. destruct (get_sequence h _ _ _ Qo) as [os [Eo Fo]].
    destruct (get_sequence h _ _ _ Qj) as [jv [Ej Fj]].
    destruct (txin_contents is ins Fi) as [Ci Zi]. destruct (txout_contents os outs Fo) as [Co Zo]. destruct (joinsplit_contents _ jv js Fj) as [Cj Zj].
    unfold OverwinterTx, new_overwinter_tx, vb. rewrite !(check_len_bytes h (VB _) _ _ eq_refl), !check_len_optional, Ei, Eo, Ej.
    unfold agrees, le_number. cbn [get_content content buffer bind].
    rewrite (zlen_Forall2 _ _ _ Fi), (zlen_Forall2 _ _ _ Fo), (zlen_Forall2 _ _ _ Fj). unfold sprout_joinsplit, sapling_joinsplit in *.
    destruct (zcash_only net) as [[]|]; [|reflexivity]. cbn [bind]. checks.
    destruct (VarInt (zlen ins) None) as [n|]; [|reflexivity]. cbn [bind]. destruct (VarInt (zlen outs) None) as [m|]; [|reflexivity]. cbn [bind].
    destruct (VarInt (zlen js) None) as [k|]; [|reflexivity]. cbn [bind].
    pose proof (tuple_frozen h _ Zi) as Zi'. pose proof (tuple_frozen h _ Zo) as Zo'. pose proof (tuple_frozen h _ Zj) as Zj'.
    destruct (negb (zlen js =? 0)) eqn:Sj.
    - rewrite !get_content_optional. destruct pk as [pk|]; [|reflexivity]. cbn [add_opt bind]. destruct sg as [sg|]; [|reflexivity]. cbn [add_opt bind optional].
      rewrite (hsigs_agree is_sprout_zkproof jv js pk Fj). cbn [bind]. rewrite (primary_inputs_agree is_sprout_zkproof jv js pk Fj). cbn [bind].
      match goal with |- context [joined h ?ps] => assert (Forall2 whole ps ([[3; 0; 0; 128]; [112; 130; 196; 3]; vi_bytes n] ++ map ti_bytes ins ++
        [vi_bytes m] ++ map to_bytes_ outs ++ [lt; ex; vi_bytes k] ++ map js_bytes js ++ [pk; sg])) as Cp end.
      { repeat (apply Forall2_app; [first [assumption|repeat (constructor; [split; [exact I|reflexivity]|]); constructor]|]).
        repeat (constructor; [split; [exact I|reflexivity]|]). constructor. }
      rewrite (joined_contents h _ _ Cp). cbn [bind].
      match goal with |- context [concat ?l] => lazymatch l with _ ++ _ => assert (concat l =
        [3; 0; 0; 128] ++ [112; 130; 196; 3] ++ vi_bytes n ++ concat (map ti_bytes ins) ++ vi_bytes m ++ concat (map to_bytes_ outs) ++
        lt ++ ex ++ vi_bytes k ++ concat (map js_bytes js) ++ pk ++ sg) as Ep by (rewrite !concat_app; cbn [concat]; rewrite ?app_nil_r, <- ?app_assoc; reflexivity); rewrite Ep end end.
      match goal with |- context [construct h ?p ?q] => destruct (construct_whole h p _ q Cl Cp) as [h' [l [E [B C]]]] end; [frozen_attrs'|distinct|].
      rewrite E. cbn [bind]. destruct (guard _ _) as [[]|]; [|reflexivity]. cbn [bind].
      exists h', l. split; [reflexivity|]. split; [|exact C]. pose proof (construct_preserves _ _ _ _ _ E) as Pr.
      exists is, os, jv. cbn [ow_tx_ins ow_tx_outs ow_tx_joinsplits].
      split; [exact (Forall2_preserved h h' is_txin is _ (txin_preserved h h' Pr) Fi)|].
      split; [exact (Forall2_preserved h h' is_txout os _ (txout_preserved h h' Pr) Fo)|].
      split; [exact (Forall2_preserved h h' is_sprout_joinsplit jv _ (sprout_joinsplit_preserved h h' Pr) Fj)|].
      rewrite Ep in B. exact B.
    - cbn [bind].
      match goal with |- context [joined h ?ps] => assert (Forall2 whole ps ([[3; 0; 0; 128]; [112; 130; 196; 3]; vi_bytes n] ++ map ti_bytes ins ++
        [vi_bytes m] ++ map to_bytes_ outs ++ [lt; ex; vi_bytes k] ++ [])) as Cp end.
      { repeat (apply Forall2_app; [first [assumption|repeat (constructor; [split; [exact I|reflexivity]|]); constructor]|]). constructor. }
      rewrite (joined_contents h _ _ Cp). cbn [bind].
      match goal with |- context [concat ?l] => lazymatch l with _ ++ _ => assert (concat l =
        [3; 0; 0; 128] ++ [112; 130; 196; 3] ++ vi_bytes n ++ concat (map ti_bytes ins) ++ vi_bytes m ++ concat (map to_bytes_ outs) ++
        lt ++ ex ++ vi_bytes k ++ []) as Ep by (rewrite !concat_app; cbn [concat]; rewrite ?app_nil_r, <- ?app_assoc; reflexivity); rewrite Ep end end.
      match goal with |- context [construct h ?p ?q] => destruct (construct_whole h p _ q Cl Cp) as [h' [l [E [B C]]]] end;
        [assert (frozen h (VTuple [])) by (constructor; intros ? []); frozen_attrs'|distinct|].
      rewrite E. cbn [bind]. destruct (guard _ _) as [[]|]; [|reflexivity]. cbn [bind].
      exists h', l. split; [reflexivity|]. split; [|exact C]. pose proof (construct_preserves _ _ _ _ _ E) as Pr.
      exists is, os, []. cbn [ow_tx_ins ow_tx_outs ow_tx_joinsplits].
      split; [exact (Forall2_preserved h h' is_txin is _ (txin_preserved h h' Pr) Fi)|].
      split; [exact (Forall2_preserved h h' is_txout os _ (txout_preserved h h' Pr) Fo)|].
      split; [constructor|].
      rewrite Ep in B. exact B.
  Qed.

  Lemma sapling_agrees vi ins vo outs lt ex vbal vs ss vp so vj js pk sg bs :
    sequence_of h (is_txin h) vi ins -> sequence_of h (is_txout h) vo outs -> optional_sequence_of h (is_shielded_spend h) vs ss ->
    optional_sequence_of h (is_shielded_output h) vp so -> optional_sequence_of h (is_sapling_joinsplit h) vj js ->
    agrees (SaplingTx H net ins outs lt ex vbal ss so js pk sg bs)
      (new_sapling_tx H net h vi vo (VB lt) (VB ex) (VB vbal) vs vp vj (optional pk) (optional sg) (optional bs)) is_sapling_tx.
  Proof using Cl.
    intros Qi Qo Qs Qp Qj. destruct (get_sequence h _ _ _ Qi) as [is [Ei Fi]]. destruct (get_sequence h _ _ _ Qo) as [os [Eo Fo]].
    destruct (txin_contents is ins Fi) as [Ci Zi]. destruct (txout_contents os outs Fo) as [Co Zo].
    unfold SaplingTx, new_sapling_tx, vb. rewrite !(check_len_bytes h (VB _) _ _ eq_refl), !check_len_optional.
    unfold agrees, le_number. cbn [get_content content buffer bind].
    destruct (zcash_only net) as [[]|]; [|reflexivity]. cbn [bind]. checks.
    destruct ss as [ss|]; [|cbn [optional_sequence_of] in Qs; subst vs; reflexivity]. destruct (get_sequence h _ _ _ Qs) as [sv [Es Fs]]. rewrite Es. cbn [len_opt bind].
    destruct so as [so|]; [|cbn [optional_sequence_of] in Qp; subst vp; reflexivity]. destruct (get_sequence h _ _ _ Qp) as [pv [Ep Fp]]. rewrite Ep. cbn [len_opt bind].
    destruct (spend_contents sv ss Fs) as [Cs Zs]. destruct (output_contents pv so Fp) as [Cp Zp].
    rewrite (zlen_Forall2 _ _ _ Fs), (zlen_Forall2 _ _ _ Fp). unfold equals. cbn [content buffer].
    assert ((if is_none (optional bs) then Ok tt else validate_bytes bs (Some 64)) = match bs with Some s => validate_bytes (Some s) (Some 64) | None => Ok tt end) as -> by (destruct bs; reflexivity).
    checks. rewrite Ei, Eo. cbn [bind].
    destruct js as [js|]; [|cbn [optional_sequence_of] in Qj; subst vj; reflexivity]. destruct (get_sequence h _ _ _ Qj) as [jv [Ej Fj]]. rewrite Ej. cbn [len_opt bind].
    destruct (joinsplit_contents _ jv js Fj) as [Cj Zj].
    rewrite (zlen_Forall2 _ _ _ Fi), (zlen_Forall2 _ _ _ Fo), (zlen_Forall2 _ _ _ Fj). unfold sapling_joinsplit in *. checks.
    destruct (VarInt (zlen ins) None) as [n|]; [|reflexivity]. cbn [bind]. destruct (VarInt (zlen outs) None) as [m|]; [|reflexivity]. cbn [bind].
    destruct (VarInt (zlen ss) None) as [p|]; [|reflexivity]. cbn [bind]. destruct (VarInt (zlen so) None) as [q|]; [|reflexivity]. cbn [bind].
    destruct (VarInt (zlen js) None) as [k|]; [|reflexivity]. cbn [bind].
    pose proof (tuple_frozen h _ Zi) as Zi'. pose proof (tuple_frozen h _ Zo) as Zo'. pose proof (tuple_frozen h _ Zj) as Zj'.
    pose proof (tuple_frozen h _ Zs) as Zs'. pose proof (tuple_frozen h _ Zp) as Zp'. assert (frozen h (VTuple [])) as Z0 by (constructor; intros ? []).
    (* the part for the joinsplits *)
    set (some := negb (zlen js =? 0)) in *.
    assert (match (if some then pk <- add_opt pk ;; sg <- add_opt sg ;; Ok (pk, concat (map js_bytes js) ++ pk ++ sg) else Ok ([], [])) with
      | Ok (key, tail) => exists xs vs, concat xs = tail /\ Forall2 whole vs xs /\
          (if some then _ <- get_content h (optional pk) ;; _ <- get_content h (optional sg) ;; Ok (jv ++ [optional pk; optional sg]) else Ok []) = Ok vs /\
          (if some then hsigs_of H h (optional pk) jv else Ok []) = Ok (if some then map (hsig H key) js else []) /\
          (if some then primary_inputs_of h jv (if some then map (hsig H key) js else []) else Ok []) = Ok (if some then map (primary_input H key) js else [])
      | Err e => (if some then _ <- get_content h (optional pk) ;; _ <- get_content h (optional sg) ;; Ok (jv ++ [optional pk; optional sg]) else Ok []) = Err e
      end) as J.
    { rewrite !get_content_optional. destruct some; [|exists [], []; repeat split; constructor].
      destruct pk as [pk|]; [|reflexivity]. cbn [add_opt bind]. destruct sg as [sg|]; [|reflexivity]. cbn [add_opt bind optional].
      exists (map js_bytes js ++ [pk; sg]), (jv ++ [VB pk; VB sg]). split; [rewrite concat_app; cbn [concat]; rewrite app_nil_r; reflexivity|].
      split; [apply Forall2_app; [exact Cj|repeat (constructor; [split; [exact I|reflexivity]|]); constructor]|]. split; [reflexivity|].
      split; [exact (hsigs_agree is_sapling_zkproof jv js pk Fj)|exact (primary_inputs_agree is_sapling_zkproof jv js pk Fj)]. }
    destruct (if some then pk <- add_opt pk ;; sg <- add_opt sg ;; Ok (pk, concat (map js_bytes js) ++ pk ++ sg) else Ok ([], [])) as [[key tail]|e]; [|rewrite J; reflexivity].
    destruct J as [xs [tv [Et [Ft [Eg [Eh Eq]]]]]]. rewrite Eg, Eh. cbn [bind]. rewrite Eq. cbn [bind].
    (* the binding signature *)
    set (shielded := negb (zlen so + zlen ss =? 0)) in *.
    assert (match (if shielded then add_opt bs else Ok []) with
      | Ok b => exists xs vs, concat xs = b /\ Forall2 whole vs xs /\ (if shielded then _ <- get_content h (optional bs) ;; Ok [optional bs] else Ok []) = Ok vs
      | Err e => (if shielded then _ <- get_content h (optional bs) ;; Ok [optional bs] else Ok []) = Err e
      end) as K.
    { rewrite get_content_optional. destruct shielded; [|exists [], []; repeat split; constructor]. destruct bs as [bs|]; [|reflexivity].
      cbn [add_opt bind optional]. exists [bs], [VB bs]. split; [apply app_nil_r|]. split; [apply one|reflexivity]. }
    destruct (if shielded then add_opt bs else Ok []) as [b|e]; [|rewrite K; reflexivity]. destruct K as [ys [bv [Eb [Fb Ek]]]]. rewrite Ek. cbn [bind].
    match goal with |- context [joined h ?ps] => assert (Forall2 whole ps ([[4; 0; 0; 128]; [133; 32; 47; 137]; vi_bytes n] ++ map ti_bytes ins ++
      [vi_bytes m] ++ map to_bytes_ outs ++ [lt; ex; vbal; vi_bytes p] ++ map ss_bytes ss ++ [vi_bytes q] ++ map so_bytes so ++ [vi_bytes k] ++ xs ++ ys)) as Cw end.
    { repeat (apply Forall2_app; [first [assumption|repeat (constructor; [split; [exact I|reflexivity]|]); constructor]|]). exact Fb. }
    rewrite (joined_contents h _ _ Cw). cbn [bind].
    match goal with |- context [concat ?l] => lazymatch l with _ ++ _ => assert (concat l =
      [4; 0; 0; 128] ++ [133; 32; 47; 137] ++ vi_bytes n ++ concat (map ti_bytes ins) ++ vi_bytes m ++ concat (map to_bytes_ outs) ++
      lt ++ ex ++ vbal ++ vi_bytes p ++ concat (map ss_bytes ss) ++ vi_bytes q ++ concat (map so_bytes so) ++ vi_bytes k ++ tail ++ b) as Ew
      by (rewrite !concat_app; cbn [concat]; rewrite ?app_nil_r, <- ?app_assoc, Et, Eb; reflexivity); rewrite Ew end end.
    assert (frozen h (if shielded then optional bs else VNone)) by (destruct shielded; [apply frozen_optional|constructor]).
    assert (frozen h (if some then optional pk else VNone)) by (destruct some; [apply frozen_optional|constructor]).
    assert (frozen h (if some then optional sg else VNone)) by (destruct some; [apply frozen_optional|constructor]).
    assert (frozen h (VTuple (if some then jv else []))) by (destruct some; assumption).
    match goal with |- context [construct h ?p ?q] => destruct (construct_whole h p _ q Cl Cw) as [h' [l [E [B C]]]] end; [frozen_attrs'|distinct|].
    rewrite E. cbn [bind]. destruct (guard _ _) as [[]|]; [|reflexivity]. cbn [bind].
    exists h', l. split; [reflexivity|]. split; [|exact C]. pose proof (construct_preserves _ _ _ _ _ E) as Pr.
    assert ((if some then jv else []) = jv) as Ejv.
    { subst some. destruct (Z.eqb_spec (zlen js) 0) as [Z|]; [|reflexivity]. rewrite (Forall2_zlen0 _ _ _ Fj Z) in Fj. inversion Fj. reflexivity. }
    exists is, os, sv, pv, jv. cbn [sa_tx_ins sa_tx_outs sa_tx_shielded_spends sa_tx_shielded_outputs sa_tx_joinsplits].
    split; [exact (Forall2_preserved h h' is_txin is _ (txin_preserved h h' Pr) Fi)|].
    split; [exact (Forall2_preserved h h' is_txout os _ (txout_preserved h h' Pr) Fo)|].
    split; [exact (Forall2_preserved h h' is_shielded_spend sv _ (shielded_spend_preserved h h' Pr) Fs)|].
    split; [exact (Forall2_preserved h h' is_shielded_output pv _ (shielded_output_preserved h h' Pr) Fp)|].
    split; [exact (Forall2_preserved h h' is_sapling_joinsplit jv _ (sapling_joinsplit_preserved h h' Pr) Fj)|].
    rewrite Ew, Ejv in B. cbn [sa_bytes sa_binding_sig sa_header sa_group_id sa_lock_time sa_expiry_height sa_value_balance sa_joinsplit_pubkey sa_joinsplit_sig sa_hsigs sa_primary_inputs sa_tx_id_le sa_tx_id].
    destruct some, shielded; exact B.
  Qed.

  Lemma sprout_agrees v vi ins vo outs lt vj js pk sg :
    sequence_of h (is_txin h) vi ins -> sequence_of h (is_txout h) vo outs -> optional_sequence_of h (is_sprout_joinsplit h) vj js ->
    agrees (SproutTx H net (Some v) ins outs lt js pk sg)
      (new_sprout_tx H net h (VB v) vi vo (VB lt) vj (optional pk) (optional sg)) is_sprout_tx.
  Proof using Cl.
    intros Qi Qo Qj. destruct (get_sequence h _ _ _ Qi) as [is [Ei Fi]]. destruct (get_sequence h _ _ _ Qo) as [os [Eo Fo]].
    destruct (txin_contents is ins Fi) as [Ci Zi]. destruct (txout_contents os outs Fo) as [Co Zo].
    unfold SproutTx, new_sprout_tx, vb. rewrite !(check_len_bytes h (VB _) _ _ eq_refl), !check_len_optional, Ei, Eo.
    unfold agrees, le_number. cbn [get_content content buffer bind].
    destruct (zcash_only net) as [[]|]; [|reflexivity]. cbn [bind].
    rewrite (zlen_Forall2 _ _ _ Fi), (zlen_Forall2 _ _ _ Fo).
    destruct (guard (negb (net_has net (lit "sprout"))) ValueError) as [[]|]; [|reflexivity]. cbn [bind].
    destruct (validate_bytes (Some v) (Some 4)) as [[]|]; [|reflexivity]. cbn [bind add_opt]. checks.
    assert (exists jv, match js with Some l => get_items h vj = Ok jv /\ is_none vj = false /\ Forall2 (is_sprout_joinsplit h) jv l
      | None => get_items h vj = Err TypeError /\ is_none vj = true end) as [jv J].
    { destruct js as [l|]; cbn [optional_sequence_of] in Qj; [|subst vj; exists []; split; reflexivity].
      destruct (items_sequence h _ _ _ Qj) as [vs [E [F N]]]. exists vs. unfold get_items. rewrite E. split; [reflexivity|]. split; [|exact F]. destruct vj; try reflexivity. destruct N. reflexivity. }
    assert (forall z, (if z =? 1 then _ <- (if is_none vj then Ok tt else l <- get_items h vj ;; guard (negb (zlen l =? 0)) ValueError) ;; guard (zlen ins =? 0) ValueError else Ok tt) =
      (if z =? 1 then raise_if (match js with Some l => negb (zlen l =? 0) | None => false end) as ValueError ;; guard (zlen ins =? 0) ValueError else Ok tt)) as ->.
    { intros z. destruct js as [l|]; destruct J as [-> J]; [destruct J as [-> F]; cbn [bind]; rewrite (zlen_Forall2 _ _ _ F)|rewrite J]; reflexivity. }
    unfold sprout_joinsplit in *. checks.
    assert ((if is_none (optional sg) || equals h (optional sg) [] then Ok tt else validate_bytes sg (Some 64)) =
      match sg with None => Ok tt | Some s => if leqb s [] then Ok tt else validate_bytes (Some s) (Some 64) end) as -> by (destruct sg; reflexivity).
    assert (forall z, (if z =? 2 then l <- get_items h vj ;; raise_if 5 <? zlen l as ValueError ;; _ <- validate_bytes pk (Some 32) ;;
        match sg with None => Ok tt | Some s => if leqb s [] then Ok tt else validate_bytes (Some s) (Some 64) end else Ok tt) =
      (if z =? 2 then l <- len_opt js ;; raise_if 5 <? zlen l as ValueError ;; _ <- validate_bytes pk (Some 32) ;;
        match sg with None => Ok tt | Some s => if leqb s [] then Ok tt else validate_bytes (Some s) (Some 64) end else Ok tt)) as ->.
    { intros z. destruct js as [l|]; destruct J as [-> J]; [destruct J as [_ F]; cbn [bind len_opt]; rewrite (zlen_Forall2 _ _ _ F)|]; reflexivity. }
    unfold sprout_joinsplit in *. checks.
    destruct (VarInt (zlen ins) None) as [n|]; [|reflexivity]. cbn [bind]. destruct (VarInt (zlen outs) None) as [m|]; [|reflexivity]. cbn [bind].
    destruct (i2le_padded 2 4) as [two|]; [|reflexivity]. cbn [bind]. change (equals h (VB v) two) with (leqb v two).
    set (v2 := leqb v two) in *.
    destruct js as [js|]; [|destruct J as [-> _]; destruct v2; reflexivity]. destruct J as [Ej [_ Fj]]. rewrite Ej. cbn [len_opt bind].
    rewrite (zlen_Forall2 _ _ _ Fj). destruct (joinsplit_contents _ jv js Fj) as [Cj Zj].
    pose proof (tuple_frozen h _ Zi) as Zi'. pose proof (tuple_frozen h _ Zo) as Zo'. pose proof (tuple_frozen h _ Zj) as Zj'.
    destruct v2.
    - destruct (VarInt (zlen js) None) as [k|]; [|reflexivity]. cbn [bind].
      rewrite !get_content_optional. destruct pk as [pk|]; [|reflexivity]. cbn [add_opt bind]. destruct sg as [sg|]; [|reflexivity]. cbn [add_opt bind optional].
      rewrite (hsigs_agree is_sprout_zkproof jv js pk Fj). cbn [bind]. rewrite (primary_inputs_agree is_sprout_zkproof jv js pk Fj). cbn [bind].
      match goal with |- context [joined h ?ps] => assert (Forall2 whole ps ([v; vi_bytes n] ++ map ti_bytes ins ++
        [vi_bytes m] ++ map to_bytes_ outs ++ [lt] ++ [vi_bytes k] ++ map js_bytes js ++ [pk; sg])) as Cp end.
      { repeat (apply Forall2_app; [first [assumption|repeat (constructor; [split; [exact I|reflexivity]|]); constructor]|]).
        repeat (constructor; [split; [exact I|reflexivity]|]). constructor. }
      rewrite (joined_contents h _ _ Cp). cbn [bind].
      match goal with |- context [concat ?l] => lazymatch l with _ ++ _ => assert (concat l =
        v ++ vi_bytes n ++ concat (map ti_bytes ins) ++ vi_bytes m ++ concat (map to_bytes_ outs) ++
        lt ++ vi_bytes k ++ concat (map js_bytes js) ++ pk ++ sg) as Ep by (rewrite !concat_app; cbn [concat]; rewrite ?app_nil_r, <- ?app_assoc; reflexivity); rewrite Ep end end.
      match goal with |- context [construct h ?p ?q] => destruct (construct_whole h p _ q Cl Cp) as [h' [l [E [B C]]]] end; [frozen_attrs'|distinct|].
      rewrite E. cbn [bind]. destruct (guard _ _) as [[]|]; [|reflexivity]. cbn [bind].
      exists h', l. split; [reflexivity|]. split; [|exact C]. pose proof (construct_preserves _ _ _ _ _ E) as Pr.
      exists is, os, jv, js. cbn [sp_tx_ins sp_tx_outs sp_tx_joinsplits].
      split; [exact (Forall2_preserved h h' is_txin is _ (txin_preserved h h' Pr) Fi)|].
      split; [exact (Forall2_preserved h h' is_txout os _ (txout_preserved h h' Pr) Fo)|]. split; [reflexivity|].
      split; [exact (Forall2_preserved h h' is_sprout_joinsplit jv _ (sprout_joinsplit_preserved h h' Pr) Fj)|].
      rewrite Ep in B. exact B.
    - cbn [bind].
      match goal with |- context [joined h ?ps] => assert (Forall2 whole ps ([v; vi_bytes n] ++ map ti_bytes ins ++
        [vi_bytes m] ++ map to_bytes_ outs ++ [lt] ++ [])) as Cp end.
      { repeat (apply Forall2_app; [first [assumption|repeat (constructor; [split; [exact I|reflexivity]|]); constructor]|]). constructor. }
      rewrite (joined_contents h _ _ Cp). cbn [bind].
      match goal with |- context [concat ?l] => lazymatch l with _ ++ _ => assert (concat l =
        v ++ vi_bytes n ++ concat (map ti_bytes ins) ++ vi_bytes m ++ concat (map to_bytes_ outs) ++
        lt ++ []) as Ep by (rewrite !concat_app; cbn [concat]; rewrite ?app_nil_r, <- ?app_assoc; reflexivity); rewrite Ep end end.
      match goal with |- context [construct h ?p ?q] => destruct (construct_whole h p _ q Cl Cp) as [h' [l [E [B C]]]] end;
        [assert (frozen h (VTuple [])) by (constructor; intros ? []); frozen_attrs'|distinct|].
      rewrite E. cbn [bind]. destruct (guard _ _) as [[]|]; [|reflexivity]. cbn [bind].
      exists h', l. split; [reflexivity|]. split; [|exact C]. pose proof (construct_preserves _ _ _ _ _ E) as Pr.
      exists is, os, jv, js. cbn [sp_tx_ins sp_tx_outs sp_tx_joinsplits].
      split; [exact (Forall2_preserved h h' is_txin is _ (txin_preserved h h' Pr) Fi)|].
      split; [exact (Forall2_preserved h h' is_txout os _ (txout_preserved h h' Pr) Fo)|]. split; [reflexivity|].
      split; [exact (Forall2_preserved h h' is_sprout_joinsplit jv _ (sprout_joinsplit_preserved h h' Pr) Fj)|].
      rewrite Ep in B. exact B.
  Qed.
End Make.

(** * copy and calculate_fee *)

Lemma given_sequence {A} h (is : val -> A -> Prop) v x vs l : optional_sequence_of h is v x -> Forall2 is vs l ->
  sequence_of h is (given v (VTuple vs)) (or_self x l).
Proof.
  intros Q F. destruct x as [x|]; cbn [optional_sequence_of or_self] in *.
  - destruct (items_sequence h is v x Q) as [_ [_ [_ N]]]. destruct v; try exact Q. destruct N. reflexivity.
  - subst v. exists vs. split; [left; reflexivity|exact F].
Qed.
Lemma given_bytes x y : given (optional x) (VB y) = VB (or_self x y).
Proof. destruct x; reflexivity. Qed.
Lemma given_optional x y : given (optional x) (optional y) = optional (or_self_opt x y).
Proof. destruct x; reflexivity. Qed.
Lemma object_or_attr h l b f k x v : object h (VRef l) b f -> assoc k ((lit "_bytes", VB b) :: f) = Some x -> or_attr h l v k = Ok (given v x).
Proof. intros O A. unfold or_attr. rewrite (object_getattr h l b f k x O A). destruct v; reflexivity. Qed.

Section Methods.
  Context (H : hashes) (net : network) (h : heap) (Cl : closed h) (l : nat).

  Lemma overwinter_copy_agrees t ai ao aj oi oo oj lt ex pk sg : is_overwinter_tx h (VRef l) t ->
    optional_sequence_of h (is_txin h) ai oi -> optional_sequence_of h (is_txout h) ao oo -> optional_sequence_of h (is_sprout_joinsplit h) aj oj ->
    agrees (OverwinterTx_copy H net t oi oo lt ex oj pk sg)
      (overwinter_copy H net h l ai ao (optional lt) (optional ex) aj (optional pk) (optional sg)) is_overwinter_tx.
  Proof using Cl.
    intros [ins [outs [js [Fi [Fo [Fj O]]]]]] Qi Qo Qj. unfold overwinter_copy, OverwinterTx_copy.
    rewrite (object_or_attr _ _ _ _ (lit "tx_ins") _ _ O eq_refl), (object_or_attr _ _ _ _ (lit "tx_outs") _ _ O eq_refl), (object_or_attr _ _ _ _ (lit "lock_time") _ _ O eq_refl),
      (object_or_attr _ _ _ _ (lit "expiry_height") _ _ O eq_refl), (object_or_attr _ _ _ _ (lit "tx_joinsplits") _ _ O eq_refl),
      (object_or_attr _ _ _ _ (lit "joinsplit_pubkey") _ _ O eq_refl), (object_or_attr _ _ _ _ (lit "joinsplit_sig") _ _ O eq_refl).
    cbn [bind]. rewrite !given_bytes, !given_optional. apply overwinter_agrees; [exact Cl|apply given_sequence; assumption..].
  Qed.
  Lemma sprout_copy_agrees t v ai ao aj oi oo oj lt pk sg : is_sprout_tx h (VRef l) t ->
    optional_sequence_of h (is_txin h) ai oi -> optional_sequence_of h (is_txout h) ao oo -> optional_sequence_of h (is_sprout_joinsplit h) aj oj ->
    agrees (SproutTx_copy H net t v oi oo lt oj pk sg)
      (sprout_copy H net h l (optional v) ai ao (optional lt) aj (optional pk) (optional sg)) is_sprout_tx.
  Proof using Cl.
    intros [ins [outs [js [jl [Fi [Fo [Ej [Fj O]]]]]]]] Qi Qo Qj. unfold sprout_copy, SproutTx_copy. rewrite Ej.
    rewrite (object_or_attr _ _ _ _ (lit "version") _ _ O eq_refl),
      (object_or_attr _ _ _ _ (lit "tx_ins") _ _ O eq_refl), (object_or_attr _ _ _ _ (lit "tx_outs") _ _ O eq_refl), (object_or_attr _ _ _ _ (lit "lock_time") _ _ O eq_refl),
      (object_or_attr _ _ _ _ (lit "tx_joinsplits") _ _ O eq_refl),
      (object_or_attr _ _ _ _ (lit "joinsplit_pubkey") _ _ O eq_refl), (object_or_attr _ _ _ _ (lit "joinsplit_sig") _ _ O eq_refl).
    cbn [bind]. rewrite !given_bytes, !given_optional. apply sprout_agrees; [exact Cl|apply given_sequence; assumption..|].
    pose proof (given_sequence h _ aj oj js jl Qj Fj) as Q. destruct oj; exact Q.
  Qed.
  Lemma sapling_copy_agrees t ai ao as_ ap aj oi oo os op oj lt ex vbal pk sg bs : is_sapling_tx h (VRef l) t ->
    optional_sequence_of h (is_txin h) ai oi -> optional_sequence_of h (is_txout h) ao oo ->
    optional_sequence_of h (is_shielded_spend h) as_ os -> optional_sequence_of h (is_shielded_output h) ap op ->
    optional_sequence_of h (is_sapling_joinsplit h) aj oj ->
    agrees (SaplingTx_copy H net t oi oo lt ex vbal os op oj pk sg bs)
      (sapling_copy H net h l ai ao (optional lt) (optional ex) (optional vbal) as_ ap aj (optional pk) (optional sg) (optional bs)) is_sapling_tx.
  Proof using Cl.
    intros [ins [outs [ss [so [js [Fi [Fo [Fs [Fp [Fj O]]]]]]]]]] Qi Qo Qs Qp Qj. unfold sapling_copy, SaplingTx_copy.
    rewrite (object_or_attr _ _ _ _ (lit "tx_ins") _ _ O eq_refl), (object_or_attr _ _ _ _ (lit "tx_outs") _ _ O eq_refl), (object_or_attr _ _ _ _ (lit "lock_time") _ _ O eq_refl),
      (object_or_attr _ _ _ _ (lit "expiry_height") _ _ O eq_refl), (object_or_attr _ _ _ _ (lit "value_balance") _ _ O eq_refl),
      (object_or_attr _ _ _ _ (lit "tx_shielded_spends") _ _ O eq_refl), (object_or_attr _ _ _ _ (lit "tx_shielded_outputs") _ _ O eq_refl),
      (object_or_attr _ _ _ _ (lit "tx_joinsplits") _ _ O eq_refl), (object_or_attr _ _ _ _ (lit "binding_sig") _ _ O eq_refl),
      (object_or_attr _ _ _ _ (lit "joinsplit_pubkey") _ _ O eq_refl), (object_or_attr _ _ _ _ (lit "joinsplit_sig") _ _ O eq_refl).
    cbn [bind]. rewrite !given_bytes, !given_optional. apply sapling_agrees; [exact Cl|cbn [optional_sequence_of]; apply given_sequence; assumption..].
  Qed.

  Lemma value_numbers vs x : Forall2 (is_txout h) vs x -> numbers_of h (lit "value") vs = Ok (map (fun o => le2i (to_value o) false) x).
  Proof using.
    intros F. unfold numbers_of. induction F as [|v o vs x O F IH]; [reflexivity|]. cbn [mapM map].
    rewrite (object_attr _ _ _ _ (lit "value") _ O eq_refl). cbn [bind]. unfold le_number at 1. cbn [get_content content buffer bind]. rewrite IH. reflexivity.
  Qed.
  Lemma fee_of {P} (is_proof : heap -> val -> P -> Prop) b f outs js x y values : object h (VRef l) b f ->
    assoc (lit "tx_outs") ((lit "_bytes", VB b) :: f) = Some (VTuple outs) -> assoc (lit "tx_joinsplits") ((lit "_bytes", VB b) :: f) = Some (VTuple js) ->
    Forall2 (is_txout h) outs x -> Forall2 (is_joinsplit is_proof h) js y ->
    zcash_calculate_fee h l values = Ok (sumZ values - outs_total x + js_net y).
  Proof using.
    intros O Ao Aj Fo Fj. unfold zcash_calculate_fee. rewrite (object_getattr _ _ _ _ _ _ O Ao), (object_getattr _ _ _ _ _ _ O Aj). cbn [bind get_items items].
    rewrite (value_numbers outs x Fo). destruct (vpub_numbers h is_proof js y Fj) as [-> ->]. cbn [bind]. unfold outs_total, js_net. f_equal. lia.
  Qed.
  Lemma sprout_fee t values : is_sprout_tx h (VRef l) t -> zcash_calculate_fee h l values = sprout_calculate_fee t values.
  Proof using.
    intros [ins [outs [js [jl [Fi [Fo [Ej [Fj O]]]]]]]]. unfold sprout_calculate_fee. rewrite Ej. cbn [len_opt bind].
    exact (fee_of is_sprout_zkproof _ _ outs js _ _ values O eq_refl eq_refl Fo Fj).
  Qed.
  Lemma overwinter_fee t values : is_overwinter_tx h (VRef l) t -> zcash_calculate_fee h l values = Ok (overwinter_calculate_fee t values).
  Proof using.
    intros [ins [outs [js [Fi [Fo [Fj O]]]]]]. exact (fee_of is_sprout_zkproof _ _ outs js _ _ values O eq_refl eq_refl Fo Fj).
  Qed.
  Lemma sapling_fee_agrees t values : is_sapling_tx h (VRef l) t -> sapling_fee h l values = Ok (sapling_calculate_fee t values).
  Proof using.
    intros [ins [outs [ss [so [js [Fi [Fo [Fs [Fp [Fj O]]]]]]]]]]. unfold sapling_fee.
    rewrite (fee_of is_sapling_zkproof _ _ outs js _ _ values O eq_refl eq_refl Fo Fj). cbn [bind].
    rewrite (object_getattr _ _ _ _ (lit "value_balance") _ O eq_refl). reflexivity.
  Qed.
End Methods.
