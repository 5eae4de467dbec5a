(* The Decred classes in the heap *)
From Coq Require Import String.
From Verif Require Import Py SHash LBase MNet MUtils MShared MTx MDecred MHeap MHeapTx MHeapDecred SHeap SHeapTx SHeapDecred LHeap LHeapTx.
Open Scope list_scope.
Open Scope Z_scope.

Section Preserved.
  Context (h h' : heap) (P : preserves h h').
  Lemma doutpoint_preserved v o : is_doutpoint h v o -> is_doutpoint h' v o.
  Proof using P. apply object_preserved, P. Qed.
  Lemma dtxin_preserved v i : is_dtxin h v i -> is_dtxin h' v i.
  Proof using P. intros [o [O B]]. exists o. split; [apply doutpoint_preserved, O|apply (object_preserved h), B; exact P]. Qed.
  Lemma dtxout_preserved v o : is_dtxout h v o -> is_dtxout h' v o.
  Proof using P. apply object_preserved, P. Qed.
  Lemma dwitness_preserved v o : is_dwitness h v o -> is_dwitness h' v o.
  Proof using P. apply object_preserved, P. Qed.
  Lemma dtx_shell_preserved v t vi vo vw : dtx_shell h v t vi vo vw -> dtx_shell h' v t vi vo vw.
  Proof using P. intros [l [a [-> [E A]]]]. exists l, a. split; [reflexivity|]. split; [apply P, E|exact A]. Qed.
  Lemma sequence_preserved {A} (is : heap -> val -> A -> Prop) v l : (forall v x, is h v x -> is h' v x) ->
    (forall a, v = VRef a -> nth_error h' a = nth_error h a) -> sequence_of h (is h) v l -> sequence_of h' (is h') v l.
  Proof using.
    intros K N [vs [Q F]]. exists vs. split; [|exact (Forall2_preserved h h' is vs l K F)].
    destruct Q as [->|[a [-> E]]]; [left; reflexivity|right]. exists a. split; [reflexivity|]. rewrite (N a eq_refl). exact E.
  Qed.
  Lemma lists_preserved vi vo vw ins outs wits :
    (forall a, In (VRef a) [vi; vo; vw] -> nth_error h' a = nth_error h a) ->
    lists_hold h vi vo vw ins outs wits -> lists_hold h' vi vo vw ins outs wits.
  Proof using P.
    intros N [A [B C]]. split; [|split].
    - apply sequence_preserved; [exact dtxin_preserved|intros a ->; apply N; left; reflexivity|exact A].
    - apply sequence_preserved; [exact dtxout_preserved|intros a ->; apply N; right; left; reflexivity|exact B].
    - apply sequence_preserved; [exact dwitness_preserved|intros a ->; apply N; right; right; left; reflexivity|exact C].
  Qed.
End Preserved.

Section Make.
  Context (H : hashes) (net : network) (h : heap) (Cl : closed h).

  Lemma doutpoint_agrees a b c : agrees (DecredOutpoint net a b c) (new_doutpoint net h (VB a) (VB b) (VB c)) is_doutpoint.
  Proof using Cl.
    unfold DecredOutpoint, new_doutpoint. rewrite !(check_len_bytes h (VB _) _ _ eq_refl). unfold agrees.
    destruct (decred_only net) as [[]|]; [|reflexivity]. cbn [bind].
    destruct (validate_bytes (Some a) (Some 32)) as [[]|]; [|reflexivity]. cbn [bind].
    destruct (validate_bytes (Some b) (Some 4)) as [[]|]; [|reflexivity]. cbn [bind].
    destruct (validate_bytes (Some c) (Some 1)) as [[]|]; [|reflexivity]. cbn [bind].
    destruct (construct_whole h [VB a; VB b; VB c] [a; b; c] [(lit "tx_id", VB a); (lit "index", VB b); (lit "tree", VB c)] Cl) as [h' [l [E [O C]]]].
    - repeat (constructor; [split; [exact I|reflexivity]|]). constructor.
    - frozen_attrs.
    - distinct.
    - exists h', l. split; [exact E|]. split; [|exact C]. unfold is_doutpoint. cbn [dop_bytes dop_tx_id dop_index dop_tree]. cbn [concat] in O. rewrite app_nil_r in O. exact O.
  Qed.

  Lemma dtxin_agrees o ov q : is_doutpoint h ov o -> agrees (DecredTxIn net o q) (new_dtxin net h ov (VB q)) is_dtxin.
  Proof using Cl.
    intros O. pose proof (object_content _ _ _ _ O) as [Old Co]. unfold DecredTxIn, new_dtxin.
    rewrite (check_len_bytes h ov _ _ Co), (check_len_bytes h (VB q) _ _ eq_refl). unfold agrees.
    destruct (decred_only net) as [[]|]; [|reflexivity]. cbn [bind].
    destruct (validate_bytes (Some (dop_bytes o)) (Some 37)) as [[]|]; [|reflexivity]. cbn [bind].
    destruct (validate_bytes (Some q) (Some 4)) as [[]|]; [|reflexivity]. cbn [bind].
    destruct (construct_whole h [ov; VB q] [dop_bytes o; q] [(lit "outpoint", ov); (lit "sequence", VB q)] Cl) as [h' [l [E [B C]]]].
    - constructor; [split; assumption|]. repeat (constructor; [split; [exact I|reflexivity]|]). constructor.
    - constructor; [split; [discriminate|exact (object_frozen _ _ _ _ O)]|]. frozen_attrs.
    - distinct.
    - exists h', l. split; [exact E|]. split; [|exact C]. exists ov. cbn [dti_outpoint dti_bytes dti_sequence].
      split; [eapply doutpoint_preserved; [eapply construct_preserves, E|exact O]|]. cbn [concat] in B. rewrite app_nil_r in B. exact B.
  Qed.

  Lemma dtxout_agrees a v s : agrees (DecredTxOut net a (Some v) s) (new_dtxout net h (VB a) (VB v) (VB s)) is_dtxout.
  Proof using Cl.
    unfold DecredTxOut, new_dtxout, check_bytes. cbn [content buffer]. rewrite !(check_len_bytes h (VB _) _ _ eq_refl). unfold agrees.
    destruct (decred_only net) as [[]|]; [|reflexivity]. cbn [bind].
    destruct (validate_bytes (Some a) (Some 8)) as [[]|]; [|reflexivity]. cbn [bind].
    destruct (validate_bytes (Some v) (Some 2)) as [[]|]; [|reflexivity]. cbn [bind validate_bytes add_opt].
    destruct (VarInt (zlen s) None) as [n|]; [|reflexivity]. cbn [bind].
    destruct (construct_whole h [VB a; VB v; VB (vi_bytes n); VB s] [a; v; vi_bytes n; s]
      [(lit "value", VB a); (lit "version", VB v); (lit "output_script_len", VInt (zlen s)); (lit "output_script", VB s)] Cl) as [h' [l [E [B C]]]].
    - repeat (constructor; [split; [exact I|reflexivity]|]). constructor.
    - frozen_attrs.
    - distinct.
    - exists h', l. split; [exact E|]. split; [|exact C]. unfold is_dtxout. cbn [dto_bytes dto_value dto_version dto_output_script_len dto_output_script].
      cbn [concat] in B. rewrite app_nil_r in B. exact B.
  Qed.

  Lemma dwitness_agrees a g i s r : agrees (DecredInputWitness net a g i s r) (new_dwitness net h (VB a) (VB g) (VB i) (VB s) (VB r)) is_dwitness.
  Proof using Cl.
    unfold DecredInputWitness, new_dwitness, check_bytes. cbn [content buffer]. rewrite !(check_len_bytes h (VB _) _ _ eq_refl). unfold agrees.
    destruct (decred_only net) as [[]|]; [|reflexivity]. cbn [bind].
    destruct (validate_bytes (Some a) (Some 8)) as [[]|]; [|reflexivity]. cbn [bind].
    destruct (validate_bytes (Some g) (Some 4)) as [[]|]; [|reflexivity]. cbn [bind].
    destruct (validate_bytes (Some i) (Some 4)) as [[]|]; [|reflexivity]. cbn [bind validate_bytes].
    destruct (VarInt (zlen s + zlen r) None) as [n|]; [|reflexivity]. cbn [bind add buffer get_content content].
    destruct (construct_whole h [VB a; VB g; VB i; VB (vi_bytes n); VB s; VB r] [a; g; i; vi_bytes n; s; r]
      [(lit "value", VB a); (lit "height", VB g); (lit "index", VB i); (lit "script_len", VInt (zlen (s ++ r))); (lit "stack_script", VB s);
       (lit "redeem_script", VB r); (lit "script_sig", VB (s ++ r))] Cl) as [h' [l [E [B C]]]].
    - repeat (constructor; [split; [exact I|reflexivity]|]). constructor.
    - frozen_attrs.
    - distinct.
    - exists h', l. split; [exact E|]. split; [|exact C]. unfold is_dwitness.
      cbn [dw_bytes dw_value dw_height dw_index dw_script_len dw_stack_script dw_redeem_script dw_script_sig].
      cbn [concat] in B. rewrite app_nil_r in B. exact B.
  Qed.

  Lemma get_sequence {A} (is : val -> A -> Prop) v l : sequence_of h is v l -> exists vs, get_items h v = Ok vs /\ Forall2 is vs l.
  Proof using. intros Q. destruct (items_sequence h is v l Q) as [vs [E [F _]]]. exists vs. unfold get_items. rewrite E. split; [reflexivity|exact F]. Qed.

  Lemma dtxin_contents vs l : Forall2 (is_dtxin h) vs l -> Forall2 (fun p x => old h p /\ content h p = Some x) vs (map dti_bytes l).
  Proof using. intros F. apply (contents_of h (is_dtxin h) dti_bytes vs l); [intros x y [o [_ J]]; eexists; exact J|exact F]. Qed.
  Lemma dtxout_contents vs l : Forall2 (is_dtxout h) vs l -> Forall2 (fun p x => old h p /\ content h p = Some x) vs (map dto_bytes l).
  Proof using. intros F. apply (contents_of h (is_dtxout h) dto_bytes vs l); [intros x y J; eexists; exact J|exact F]. Qed.
  Lemma dwitness_contents vs l : Forall2 (is_dwitness h) vs l -> Forall2 (fun p x => old h p /\ content h p = Some x) vs (map dw_bytes l).
  Proof using. intros F. apply (contents_of h (is_dwitness h) dw_bytes vs l); [intros x y J; eexists; exact J|exact F]. Qed.
  Lemma known bs : Forall2 (fun p x => old h p /\ content h p = Some x) (map VB bs) bs.
  Proof using. induction bs; constructor; [split; [exact I|reflexivity]|assumption]. Qed.

  Lemma prefix_of_agrees v vi vo lt ex ins outs : sequence_of h (is_dtxin h) vi ins -> sequence_of h (is_dtxout h) vo outs ->
    dtx_prefix_of h (VB v) vi vo (VB lt) (VB ex) = decred_prefix_of v ins outs lt ex.
  Proof using.
    intros Qi Qo. destruct (get_sequence _ _ _ Qi) as [is [Ei Fi]]. destruct (get_sequence _ _ _ Qo) as [os [Eo Fo]].
    unfold dtx_prefix_of, decred_prefix_of. cbn [get_content content buffer bind]. rewrite Ei, Eo. cbn [bind].
    rewrite (zlen_Forall2 _ _ _ Fi), (zlen_Forall2 _ _ _ Fo).
    destruct (VarInt (zlen ins) None) as [n|]; [|reflexivity]. cbn [bind]. destruct (VarInt (zlen outs) None) as [m|]; [|reflexivity]. cbn [bind].
    rewrite (joined_contents h _ ([slice_to v 2; [1; 0]; vi_bytes n] ++ map dti_bytes ins ++ [vi_bytes m] ++ map dto_bytes outs ++ [lt; ex])).
    - f_equal. rewrite !concat_app. cbn [concat]. rewrite !app_nil_r, <- !app_assoc. reflexivity.
    - apply Forall2_app; [apply (known [_; _; _])|]. apply Forall2_app; [apply dtxin_contents, Fi|].
      apply Forall2_app; [apply (known [_])|]. apply Forall2_app; [apply dtxout_contents, Fo|]. apply (known [_; _]).
  Qed.

  Lemma dtx_agrees v vi vo lt ex vw ins outs wits : lists_hold h vi vo vw ins outs wits ->
    match DecredTx H net v ins outs lt ex wits with
    | Ok t => exists h' l, new_dtx H net h (VB v) vi vo (VB lt) (VB ex) vw = Ok (h', l) /\ dtx_shell h' (VRef l) t vi vo vw /\ closed h' /\
                preserves h h' /\ forall a, (a < length h)%nat -> nth_error h' a = nth_error h a
    | Err e => new_dtx H net h (VB v) vi vo (VB lt) (VB ex) vw = Err e
    end.
  Proof using Cl.
    intros [Qi [Qo Qw]]. unfold DecredTx, new_dtx. rewrite (prefix_of_agrees _ _ _ _ _ _ _ Qi Qo).
    destruct (get_sequence _ _ _ Qi) as [is [Ei Fi]]. destruct (get_sequence _ _ _ Qo) as [os [Eo Fo]]. destruct (get_sequence _ _ _ Qw) as [ws [Ew Fw]].
    rewrite !(check_len_bytes h (VB _) _ _ eq_refl), Ei, Eo, Ew. cbn [bind]. rewrite (zlen_Forall2 _ _ _ Fi), (zlen_Forall2 _ _ _ Fo), (zlen_Forall2 _ _ _ Fw).
    destruct (decred_only net) as [[]|]; [|reflexivity]. cbn [bind].
    destruct (validate_bytes (Some v) (Some 4)) as [[]|]; [|reflexivity]. cbn [bind].
    destruct (validate_bytes (Some lt) (Some 4)) as [[]|]; [|reflexivity]. cbn [bind].
    destruct (validate_bytes (Some ex) (Some 4)) as [[]|]; [|reflexivity]. cbn [bind].
    destruct (guard (Z.min (zlen ins) (zlen outs) =? 0) ValueError) as [[]|]; [|reflexivity]. cbn [bind].
    destruct (VarInt (zlen ins) None) as [n|]; [|reflexivity]. cbn [bind]. destruct (VarInt (zlen outs) None) as [m|]; [|reflexivity]. cbn [bind].
    destruct (VarInt (zlen wits) None) as [k|]; [|reflexivity]. cbn [bind]. cbv zeta.
    set (parts := [VB v; VB (vi_bytes n)] ++ _).
    set (xs := [v; vi_bytes n] ++ map dti_bytes ins ++ [vi_bytes m] ++ map dto_bytes outs ++ [lt; ex; vi_bytes k] ++ map dw_bytes wits).
    assert (Forall2 (fun p x => old h p /\ content h p = Some x) parts xs) as F.
    { unfold parts, xs. apply Forall2_app; [apply (known [_; _])|]. apply Forall2_app; [apply dtxin_contents, Fi|].
      apply Forall2_app; [apply (known [_])|]. apply Forall2_app; [apply dtxout_contents, Fo|]. apply Forall2_app; [apply (known [_; _; _])|apply dwitness_contents, Fw]. }
    rewrite (joined_contents h _ _ F). cbn [bind].
    assert (concat xs = v ++ vi_bytes n ++ concat (map dti_bytes ins) ++ vi_bytes m ++ concat (map dto_bytes outs) ++ lt ++ ex ++ vi_bytes k ++ concat (map dw_bytes wits)) as Ex.
    { unfold xs. rewrite !concat_app. cbn [concat]. rewrite !app_nil_r, <- !app_assoc. reflexivity. }
    rewrite Ex. match goal with |- context [guard ?c ValueError] => destruct (guard c ValueError) as [[]|]; [|reflexivity] end. cbn [bind].
    destruct (decred_prefix_of v ins outs lt ex) as [p|]; [|reflexivity]. cbn [bind].
    match goal with |- context [construct h parts ?a] => destruct (construct_sealed h parts xs a Cl F) as [h' [l [fin [E [N [A [C O]]]]]]] end.
    - repeat (constructor; [discriminate|]). constructor.
    - distinct.
    - exists h', l. split; [exact E|]. split; [|split; [exact C|split; [eapply construct_preserves, E|exact O]]].
      exists l, fin. split; [reflexivity|]. split; [exact N|]. rewrite Ex in A. exact A.
  Qed.
End Make.

Section Methods.
  Context (H : hashes) (net : network) (h : heap) (l : nat) (t : dtx) (vi vo vw : val) (ins : list dtxin) (outs : list dtxout) (wits : list dwitness).
  Context (Sh : dtx_shell h (VRef l) t vi vo vw) (Li : lists_hold h vi vo vw ins outs wits).

  Lemma shell_attr k : getattr h l k = match assoc k ((lit "_bytes", VB (dtx_bytes t)) ::
      [(lit "version", VB (dtx_version t)); (lit "tx_ins", vi); (lit "tx_outs", vo);
       (lit "lock_time", VB (dtx_lock_time t)); (lit "expiry", VB (dtx_expiry t)); (lit "tx_witnesses", vw);
       (lit "tx_id_le", VB (dtx_tx_id_le t)); (lit "tx_id", VB (dtx_tx_id t))]) with Some v => Ok v | None => Err AttributeError end.
  Proof using Sh. destruct Sh as [l' [a [E [N A]]]]. injection E as <-. unfold getattr. rewrite N, A. reflexivity. Qed.
  Lemma shell_version : getattr h l (lit "version") = Ok (VB (dtx_version t)).
  Proof using Sh. rewrite shell_attr. reflexivity. Qed.
  Lemma shell_ins : getattr h l (lit "tx_ins") = Ok vi.
  Proof using Sh. rewrite shell_attr. reflexivity. Qed.
  Lemma shell_outs : getattr h l (lit "tx_outs") = Ok vo.
  Proof using Sh. rewrite shell_attr. reflexivity. Qed.
  Lemma shell_lock : getattr h l (lit "lock_time") = Ok (VB (dtx_lock_time t)).
  Proof using Sh. rewrite shell_attr. reflexivity. Qed.
  Lemma shell_expiry : getattr h l (lit "expiry") = Ok (VB (dtx_expiry t)).
  Proof using Sh. rewrite shell_attr. reflexivity. Qed.
  Lemma shell_wits : getattr h l (lit "tx_witnesses") = Ok vw.
  Proof using Sh. rewrite shell_attr. reflexivity. Qed.
  Lemma shell_id : getattr h l (lit "tx_id_le") = Ok (VB (dtx_tx_id_le t)).
  Proof using Sh. rewrite shell_attr. reflexivity. Qed.

  Lemma prefix_now : dtx_prefix h l = decred_prefix (with_lists t ins outs wits).
  Proof using Sh Li.
    unfold dtx_prefix. rewrite shell_version, shell_ins, shell_outs, shell_lock, shell_expiry. cbn [bind].
    destruct Li as [Qi [Qo _]]. apply prefix_of_agrees; assumption.
  Qed.
  Lemma prefix_hash_kept : dtx_prefix_hash H h l = Ok (dtx_tx_id_le t).
  Proof using Sh. unfold dtx_prefix_hash. rewrite shell_id. reflexivity. Qed.
  Lemma witness_now : dtx_witness h l = decred_witness (with_lists t ins outs wits).
  Proof using Sh Li.
    unfold dtx_witness, decred_witness. rewrite shell_version, shell_wits. cbn [bind get_content content buffer].
    destruct Li as [_ [_ Qw]]. destruct (get_sequence h _ _ _ Qw) as [ws [Ew Fw]]. rewrite Ew. cbn [bind].
    rewrite (zlen_Forall2 _ _ _ Fw). cbn [with_lists dtx_tx_witnesses dtx_version]. destruct (VarInt (zlen wits) None) as [n|]; [|reflexivity]. cbn [bind].
    rewrite (joined_contents h _ ([slice_to (dtx_version t) 2; [2; 0]; vi_bytes n] ++ map dw_bytes wits)).
    - f_equal.
    - apply Forall2_app; [apply (known h [_; _; _])|apply dwitness_contents, Fw].
  Qed.
  Lemma mapM_Forall2 {A B C} (R : A -> B -> Prop) (f : A -> res C) (g : B -> res C) xs ys :
    (forall x y, R x y -> f x = g y) -> Forall2 R xs ys -> mapM f xs = mapM g ys.
  Proof using. intros K F. induction F as [|x y xs ys J F IH]; [reflexivity|]. cbn [mapM]. rewrite (K _ _ J), IH. reflexivity. Qed.
  Lemma object_attr v b f k : object h v b f -> attr h v k = match assoc k ((lit "_bytes", VB b) :: f) with Some x => Ok x | None => Err AttributeError end.
  Proof using. intros [l' [a [-> [N [A _]]]]]. unfold attr, getattr. rewrite N, A. reflexivity. Qed.
  Lemma witness_signing_now : dtx_witness_signing h l = decred_witness_signing (with_lists t ins outs wits).
  Proof using Sh Li.
    unfold dtx_witness_signing, decred_witness_signing. rewrite shell_version, shell_wits. cbn [bind get_content content buffer].
    destruct Li as [_ [_ Qw]]. destruct (get_sequence h _ _ _ Qw) as [ws [Ew Fw]]. rewrite Ew. cbn [bind].
    rewrite (zlen_Forall2 _ _ _ Fw). cbn [with_lists dtx_tx_witnesses dtx_version]. destruct (VarInt (zlen wits) None) as [n|]; [|reflexivity]. cbn [bind].
    rewrite (mapM_Forall2 (is_dwitness h) (dwitness_signing h) (fun w => l <- VarInt (dw_script_len w) None ;; Ok (vi_bytes l ++ dw_script_sig w)) ws wits); [reflexivity| |exact Fw].
    intros x y J. unfold dwitness_signing. rewrite !(object_attr _ _ _ _ J). cbn -[VarInt vi_bytes]. reflexivity.
  Qed.
  Lemma values_now {A} (is : val -> A -> Prop) (value : A -> bytes) vs xs :
    (forall v x, is v x -> attr h v (lit "value") = Ok (VB (value x))) -> Forall2 is vs xs -> mapM (value_of h) vs = Ok (map (fun x => le2i (value x) false) xs).
  Proof using.
    intros K F. induction F as [|v x vs xs J F IH]; [reflexivity|]. cbn [mapM map]. unfold value_of at 1. rewrite (K _ _ J). cbn [bind get_content content buffer]. rewrite IH. reflexivity.
  Qed.
  Lemma fee_now : dtx_calculate_fee h l = Ok (decred_calculate_fee (with_lists t ins outs wits)).
  Proof using Sh Li.
    unfold dtx_calculate_fee, decred_calculate_fee. rewrite shell_wits, shell_outs. cbn [bind].
    destruct Li as [_ [Qo Qw]]. destruct (get_sequence h _ _ _ Qw) as [ws [Ew Fw]]. destruct (get_sequence h _ _ _ Qo) as [os [Eo Fo]]. rewrite Ew, Eo. cbn [bind].
    rewrite (values_now (is_dwitness h) dw_value ws wits), (values_now (is_dtxout h) dto_value os outs); [reflexivity| |exact Fo| |exact Fw].
    - intros v x J. rewrite (object_attr _ _ _ _ J). reflexivity.
    - intros v x J. rewrite (object_attr _ _ _ _ J). reflexivity.
  Qed.
End Methods.

Lemma copy_given H net h l t vi vo vw version ai ao lock expiry aw : dtx_shell h (VRef l) t vi vo vw ->
  dtx_copy H net h l (optional version) ai ao (optional lock) (optional expiry) aw =
  new_dtx H net h (VB (or_self version (dtx_version t))) (given ai vi) (given ao vo) (VB (or_self lock (dtx_lock_time t)))
    (VB (or_self expiry (dtx_expiry t))) (given aw vw).
Proof.
  intros Sh. unfold dtx_copy, or_attr.
  rewrite (shell_version h l t vi vo vw Sh), (shell_ins h l t vi vo vw Sh), (shell_outs h l t vi vo vw Sh), (shell_lock h l t vi vo vw Sh), (shell_expiry h l t vi vo vw Sh), (shell_wits h l t vi vo vw Sh).
  destruct version, lock, expiry, ai, ao, aw; reflexivity.
Qed.
