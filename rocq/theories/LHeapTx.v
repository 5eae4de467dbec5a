(* The transaction classes in the heap *)
From Coq Require Import String.
From Verif Require Import Py SHash LBase MNet MUtils MShared MTx MHeap MHeapTx SHeap SHeapTx LHeap.
Open Scope list_scope.
Open Scope Z_scope.

Lemma assoc_filter k k' attrs : k' <> k -> assoc k' (filter (fun kv => negb (leqb k (fst kv))) attrs) = assoc k' attrs.
Proof.
  intros N. induction attrs as [|[x y] r IH]; [reflexivity|]. cbn [filter fst]. destruct (leqb_spec k x) as [->|Q]; cbn [negb].
  - rewrite IH. cbn [assoc]. destruct (leqb_spec k' x); [contradiction|reflexivity].
  - cbn [assoc]. destruct (leqb k' x); [reflexivity|exact IH].
Qed.
Lemma assoc_set k k' v attrs : assoc k' (set_assoc k v attrs) = if leqb k' k then Some v else assoc k' attrs.
Proof.
  unfold set_assoc. cbn [assoc]. destruct (leqb_spec k' k) as [|N]; [reflexivity|]. apply assoc_filter, N.
Qed.
Lemma assoc_app k a b : assoc k (a ++ b) = match assoc k a with Some v => Some v | None => assoc k b end.
Proof. induction a as [|[x y] r IH]; [reflexivity|]. cbn [app assoc]. destruct (leqb k x); [reflexivity|exact IH]. Qed.
Lemma assoc_notin k a : ~ In k (map fst a) -> assoc k a = None.
Proof. induction a as [|[x y] r IH]; intros N; [reflexivity|]. cbn [assoc]. destruct (leqb_spec k x) as [->|]; [destruct N; left; reflexivity|]. apply IH. intros X. apply N. right. exact X. Qed.
Lemma assoc_set_all new : NoDup (map fst new) -> forall start k, assoc k (set_all new start) = assoc k (new ++ start).
Proof.
  induction new as [|[x y] r IH]; intros D start k; [reflexivity|]. cbn [set_all fold_left fst snd]. cbn [map fst] in D. inversion D as [|? ? N D']; subst.
  fold (set_all r (set_assoc x y start)). rewrite (IH D'), !assoc_app. cbn [assoc app]. rewrite assoc_set.
  destruct (leqb_spec k x) as [->|Q]; [|reflexivity]. rewrite assoc_notin by exact N. reflexivity.
Qed.

Lemma closed_object h t fin b : closed h -> assoc (lit "_bytes") fin = Some (VB b) ->
  (forall l, (l < length h)%nat -> nth_error t l = nth_error h l) -> length t = S (S (length h)) ->
  (forall i a, nth_error t (length h) <> Some (CObj i a)) -> nth_error t (S (length h)) = Some (CObj true fin) -> closed t.
Proof.
  intros C A D L N1 N2 l i attrs E v As.
  destruct (Nat.lt_ge_cases l (length h)) as [Lt|Ge].
  - rewrite D in E by exact Lt. specialize (C _ _ _ E _ As). destruct v; cbn [old] in *; try exact I. lia.
  - assert (l < length t)%nat as Lt by (apply nth_lt in E; exact E). assert (l = length h \/ l = S (length h)) as [->| ->] by lia.
    + destruct (N1 _ _ E).
    + rewrite N2 in E. injection E as <- <-. rewrite A in As. injection As as <-. exact I.
Qed.

(* construct, with everything about the result *)
Lemma construct_sealed h parts xs attrs : closed h -> Forall2 (fun p x => old h p /\ content h p = Some x) parts xs ->
  Forall (fun kv => fst kv <> lit "_bytes") attrs -> NoDup (map fst attrs) ->
  exists h' l fin, construct h parts attrs = Ok (h', l) /\ nth_error h' l = Some (CObj true fin) /\
    (forall k, assoc k fin = assoc k ((lit "_bytes", VB (concat xs)) :: attrs)) /\ closed h' /\
    (forall l, (l < length h)%nat -> nth_error h' l = nth_error h l).
Proof.
  intros Cl F N' ND. unfold construct, new_object.
  destruct (building_iadds h parts xs Cl F _ _ _ (building_new h)) as [h1 [E1 B1]]. rewrite E1. cbn [bind].
  destruct (building_setattrs h attrs N' _ _ _ B1) as [h2 [E2 B2]]. rewrite E2. cbn [bind].
  destruct B2 as [L [A [B [S D]]]]. set (a2 := set_all attrs _) in *.
  assert (content h2 (VRef (Datatypes.S (length h))) = Some ([] ++ concat xs)) as C.
  { unfold content. rewrite B, S. cbn [buffer]. rewrite A. reflexivity. }
  unfold make_immutable. rewrite C. unfold setattr. rewrite B. cbn [bind].
  assert (Datatypes.S (length h) < length h2)%nat as Lt by lia.
  rewrite nth_update, Nat.eqb_refl by exact Lt. cbn [bind].
  set (fin := set_assoc (lit "_bytes") (VB ([] ++ concat xs)) a2) in *.
  assert (nth_error (update (update h2 (Datatypes.S (length h)) (CObj false fin)) (Datatypes.S (length h)) (CObj true fin)) (Datatypes.S (length h)) = Some (CObj true fin)) as Nl.
  { rewrite nth_update, Nat.eqb_refl by (rewrite length_update; lia). reflexivity. }
  assert (forall l, l <> Datatypes.S (length h) -> nth_error (update (update h2 (Datatypes.S (length h)) (CObj false fin)) (Datatypes.S (length h)) (CObj true fin)) l = nth_error h2 l) as No.
  { intros l Nq. rewrite !nth_update by (rewrite ?length_update; lia). destruct (Nat.eqb_spec l (Datatypes.S (length h))); [lia|reflexivity]. }
  eexists _, (Datatypes.S (length h)), fin. split; [reflexivity|]. split; [exact Nl|]. split; [|split].
  - intros k. unfold fin. rewrite assoc_set. cbn [assoc app]. destruct (leqb_spec k (lit "_bytes")) as [|Q]; [reflexivity|].
    unfold a2. rewrite assoc_set_all, assoc_app by exact ND. cbn [assoc]. destruct (leqb_spec k (lit "_bytes")); [contradiction|].
    destruct (assoc k attrs); reflexivity.
  - refine (closed_object h _ fin ([] ++ concat xs) Cl _ _ _ _ Nl).
    + unfold fin. rewrite assoc_set, leqb_refl. reflexivity.
    + intros l Ll. rewrite No by lia. apply D, Ll.
    + rewrite !length_update by (rewrite ?length_update; lia). exact L.
    + intros i a X. rewrite No in X by lia. rewrite A in X. discriminate.
  - intros l Ll. rewrite No by lia. apply D, Ll.
Qed.
Lemma construct_whole h parts xs attrs : closed h -> Forall2 (fun p x => old h p /\ content h p = Some x) parts xs ->
  Forall (fun kv => fst kv <> lit "_bytes" /\ frozen h (snd kv)) attrs -> NoDup (map fst attrs) ->
  exists h' l, construct h parts attrs = Ok (h', l) /\ object h' (VRef l) (concat xs) attrs /\ closed h'.
Proof.
  intros Cl F N ND. destruct (construct_frozen h parts xs attrs Cl F N) as [h' [l [E [Fr _]]]].
  assert (Forall (fun kv => fst kv <> lit "_bytes") attrs) as N' by (eapply Forall_impl; [|exact N]; intros kv [Q _]; exact Q).
  destruct (construct_sealed h parts xs attrs Cl F N' ND) as [h2 [l2 [fin [E2 [Nl [A [C _]]]]]]].
  rewrite E in E2. injection E2 as <- <-. exists h', l. split; [exact E|]. split; [|exact C].
  exists l, fin. split; [reflexivity|]. split; [exact Nl|]. split; [exact A|exact Fr].
Qed.

Lemma object_preserved h h' v b f : preserves h h' -> object h v b f -> object h' v b f.
Proof.
  intros P [l [a [-> [E [A Fr]]]]]. exists l, a. split; [reflexivity|]. split; [apply P, E|]. split; [exact A|]. eapply frozen_preserved; eassumption.
Qed.
Lemma object_frozen h v b f : object h v b f -> frozen h v.
Proof. intros [l [a [_ [_ [_ F]]]]]. exact F. Qed.
Lemma object_content h v b f : object h v b f -> old h v /\ content h v = Some b.
Proof.
  intros [l [a [-> [E [A _]]]]]. split; [cbn [old]; apply nth_lt in E; exact E|]. unfold content. rewrite E, A. cbn [assoc]. rewrite leqb_refl. reflexivity.
Qed.

Section Preserved.
  Context (h h' : heap) (P : preserves h h').
  Lemma outpoint_preserved v o : is_outpoint h v o -> is_outpoint h' v o.
  Proof using P. apply object_preserved, P. Qed.
  Lemma txin_preserved v i : is_txin h v i -> is_txin h' v i.
  Proof using P. intros [o [O B]]. exists o. split; [apply outpoint_preserved, O|apply (object_preserved h), B; exact P]. Qed.
  Lemma txout_preserved v o : is_txout h v o -> is_txout h' v o.
  Proof using P. apply object_preserved, P. Qed.
  Lemma item_preserved v o : is_item h v o -> is_item h' v o.
  Proof using P. apply object_preserved, P. Qed.
  Lemma Forall2_preserved {A} (is : heap -> val -> A -> Prop) vs l : (forall v x, is h v x -> is h' v x) -> Forall2 (is h) vs l -> Forall2 (is h') vs l.
  Proof using. intros K F. induction F; constructor; auto. Qed.
  Lemma witness_preserved v w : is_witness h v w -> is_witness h' v w.
  Proof using P.
    intros [vs [F O]]. exists vs. split; [exact (Forall2_preserved is_item vs _ item_preserved F)|apply (object_preserved h), O; exact P].
  Qed.
  Lemma tx_preserved v t : is_tx h v t -> is_tx h' v t.
  Proof using P.
    intros [ins [outs [wits [Fi [Fo [Fw O]]]]]]. exists ins, outs, wits.
    split; [exact (Forall2_preserved is_txin ins _ txin_preserved Fi)|].
    split; [exact (Forall2_preserved is_txout outs _ txout_preserved Fo)|].
    split; [|apply (object_preserved h), O; exact P].
    destruct (tx_tx_witnesses t) as [ws|]; [|exact Fw]. destruct Fw as [vs [-> F]]. exists vs. split; [reflexivity|].
    exact (Forall2_preserved is_witness vs _ witness_preserved F).
  Qed.
End Preserved.

(** * constructors *)

Lemma check_len_bytes h v b n : content h v = Some b -> check_len h v n = validate_bytes (Some b) (Some n).
Proof. intros E. unfold check_len. rewrite E. reflexivity. Qed.

(* [r] on values, [r'] in the heap *)
Definition agrees {A} (r : res A) (r' : res (heap * nat)) (is : heap -> val -> A -> Prop) : Prop :=
  match r with
  | Ok x => exists h' l, r' = Ok (h', l) /\ is h' (VRef l) x /\ closed h'
  | Err e => r' = Err e
  end.

Ltac frozen_attrs := repeat (constructor; [split; [discriminate|cbn [snd]; first [assumption|constructor]]|]); constructor.
Ltac distinct := repeat (constructor; [cbn [In]; intros X; repeat (destruct X as [X|X]; [discriminate X|]); exact X|]); constructor.

Section Make.
  Context (h : heap) (Cl : closed h).

  Lemma outpoint_agrees a b : agrees (Outpoint (Some a) (Some b)) (new_outpoint h (VB a) (VB b)) is_outpoint.
  Proof using Cl.
    unfold Outpoint, new_outpoint. rewrite !(check_len_bytes h (VB _) _ _ eq_refl). unfold agrees.
    destruct (validate_bytes (Some a) (Some 32)) as [[]|]; [|reflexivity]. cbn [bind].
    destruct (validate_bytes (Some b) (Some 4)) as [[]|]; [|reflexivity]. cbn [bind].
    destruct (construct_whole h [VB a; VB b] [a; b] [(lit "tx_id", VB a); (lit "index", VB b)] Cl) as [h' [l [E [O C]]]].
    - repeat (constructor; [split; [exact I|reflexivity]|]). constructor.
    - frozen_attrs.
    - distinct.
    - exists h', l. split; [exact E|]. split; [|exact C]. unfold is_outpoint. cbn [op_bytes op_tx_id op_index]. cbn [concat] in O. rewrite app_nil_r in O. exact O.
  Qed.

  Lemma txin_agrees o ov s r q : is_outpoint h ov o -> agrees (TxIn o s r q) (new_txin h ov (VB s) (VB r) (VB q)) is_txin.
  Proof using Cl.
    intros O. pose proof (object_content _ _ _ _ O) as [Old Co]. unfold TxIn, new_txin, check_bytes. cbn [content buffer].
    rewrite (check_len_bytes h ov _ _ Co), (check_len_bytes h (VB q) _ _ eq_refl). unfold agrees.
    destruct (validate_bytes (Some (op_bytes o)) (Some 36)) as [[]|]; [|reflexivity]. cbn [bind validate_bytes].
    destruct (guard (negb (zlen q =? 4)) ValueError) as [[]|]; [|reflexivity]. cbn [bind].
    destruct (guard (1650 <? zlen s + zlen r) ValueError) as [[]|]; [|reflexivity]. cbn [bind].
    destruct (VarInt (zlen s + zlen r) None) as [n|]; [|reflexivity]. cbn [bind add buffer].
    destruct (construct_whole h [ov; VB (vi_bytes n); VB s; VB r; VB q] [op_bytes o; vi_bytes n; s; r; q]
      [(lit "outpoint", ov); (lit "stack_script", VB s); (lit "redeem_script", VB r); (lit "script_sig", VB (s ++ r)); (lit "sequence", VB q)] Cl) as [h' [l [E [B C]]]].
    - constructor; [split; assumption|]. repeat (constructor; [split; [exact I|reflexivity]|]). constructor.
    - constructor; [split; [discriminate|exact (object_frozen _ _ _ _ O)]|]. frozen_attrs.
    - distinct.
    - exists h', l. split; [exact E|]. split; [|exact C]. exists ov. cbn [ti_outpoint ti_bytes ti_stack_script ti_redeem_script ti_script_sig ti_sequence].
      split; [eapply outpoint_preserved; [eapply construct_preserves, E|exact O]|]. cbn [concat] in B. rewrite app_nil_r in B. exact B.
  Qed.

  Lemma txout_agrees v s : agrees (TxOut v s) (new_txout h (VB v) (VB s)) is_txout.
  Proof using Cl.
    unfold TxOut, new_txout, check_bytes. cbn [content buffer].
    rewrite (check_len_bytes h (VB v) _ _ eq_refl). unfold agrees.
    destruct (validate_bytes (Some v) (Some 8)) as [[]|]; [|reflexivity]. cbn [bind validate_bytes].
    destruct (VarInt (zlen s) None) as [n|]; [|reflexivity]. cbn [bind].
    destruct (construct_whole h [VB v; VB (vi_bytes n); VB s] [v; vi_bytes n; s] [(lit "value", VB v); (lit "output_script", VB s)] Cl) as [h' [l [E [B C]]]].
    - repeat (constructor; [split; [exact I|reflexivity]|]). constructor.
    - frozen_attrs.
    - distinct.
    - exists h', l. split; [exact E|]. split; [|exact C]. unfold is_txout. cbn [to_bytes_ to_value to_output_script]. cbn [concat] in B. rewrite app_nil_r in B. exact B.
  Qed.

  Lemma item_agrees b : agrees (WitnessStackItem b) (new_item h (VB b)) is_item.
  Proof using Cl.
    unfold WitnessStackItem, new_item, check_bytes. cbn [content buffer validate_bytes bind]. unfold agrees.
    destruct (VarInt (zlen b) None) as [n|]; [|reflexivity]. cbn [bind].
    destruct (construct_whole h [VB (vi_bytes n); VB b] [vi_bytes n; b] [(lit "item", VB b)] Cl) as [h' [l [E [B C]]]].
    - repeat (constructor; [split; [exact I|reflexivity]|]). constructor.
    - frozen_attrs.
    - distinct.
    - exists h', l. split; [exact E|]. split; [|exact C]. unfold is_item. cbn [wi_bytes wi_item]. cbn [concat] in B. rewrite app_nil_r in B. exact B.
  Qed.

  Lemma items_sequence {A} (is : val -> A -> Prop) v l : sequence_of h is v l -> exists vs, items h v = Some vs /\ Forall2 is vs l /\ v <> VNone.
  Proof using.
    intros [vs [[->|[a [-> E]]] F]]; exists vs; (split; [|split; [exact F|discriminate]]); [reflexivity|]. unfold items. rewrite E. reflexivity.
  Qed.
  Lemma zlen_Forall2 {A B} (R : A -> B -> Prop) vs l : Forall2 R vs l -> zlen vs = zlen l.
  Proof using. intros F. unfold zlen. f_equal. induction F; cbn [length]; congruence. Qed.
  Lemma contents_of {A} (is : val -> A -> Prop) (bytes_of : A -> bytes) vs l : (forall v x, is v x -> exists f, object h v (bytes_of x) f) ->
    Forall2 is vs l -> Forall2 (fun p x => old h p /\ content h p = Some x) vs (map bytes_of l) /\ Forall (frozen h) vs.
  Proof using.
    intros K F. split.
    - induction F as [|v x vs l I F IH]; [constructor|]. cbn [map]. constructor; [|exact IH]. destruct (K _ _ I) as [f O]. exact (object_content _ _ _ _ O).
    - induction F as [|v x vs l I F IH]; constructor; [|exact IH]. destruct (K _ _ I) as [f O]. exact (object_frozen _ _ _ _ O).
  Qed.
  Lemma tuple_frozen vs : Forall (frozen h) vs -> frozen h (VTuple vs).
  Proof using. intros F. constructor. rewrite Forall_forall in F. exact F. Qed.

  Lemma witness_agrees st l : sequence_of h (is_item h) st l -> agrees (InputWitness l) (new_witness h st) is_witness.
  Proof using Cl.
    intros Q. destruct (items_sequence _ _ _ Q) as [vs [E [F _]]]. unfold InputWitness, new_witness. rewrite E, (zlen_Forall2 _ _ _ F). unfold agrees.
    destruct (VarInt (zlen l) None) as [n|]; [|reflexivity]. cbn [bind].
    destruct (contents_of (is_item h) wi_bytes vs l) as [Fc Ff]; [intros v x I; eexists; exact I|exact F|].
    destruct (construct_whole h (VB (vi_bytes n) :: vs) (vi_bytes n :: map wi_bytes l) [(lit "stack", VTuple vs)] Cl) as [h' [a [E' [B C]]]].
    - constructor; [split; [exact I|reflexivity]|exact Fc].
    - constructor; [split; [discriminate|apply tuple_frozen, Ff]|constructor].
    - distinct.
    - exists h', a. split; [exact E'|]. split; [|exact C]. exists vs. cbn [wit_stack wit_bytes].
      split; [exact (Forall2_preserved h h' is_item vs l (item_preserved h h' (construct_preserves _ _ _ _ _ E')) F)|exact B].
  Qed.

  Lemma joined_contents vs xs : Forall2 (fun p x => old h p /\ content h p = Some x) vs xs -> joined h vs = Ok (concat xs).
  Proof using. intros F. induction F as [|v x vs xs [_ C] F IH]; [reflexivity|]. cbn [joined concat]. rewrite C. cbn [bind]. rewrite IH. reflexivity. Qed.
  Lemma one b : Forall2 (fun p x => old h p /\ content h p = Some x) [VB b] [b].
  Proof using. constructor; [split; [exact I|reflexivity]|constructor]. Qed.

  Lemma tx_agrees H net v flag vi ins vo outs vw ws lt :
    sequence_of h (is_txin h) vi ins -> sequence_of h (is_txout h) vo outs -> optional_sequence_of h (is_witness h) vw ws ->
    agrees (Tx H net v flag ins outs ws lt) (new_tx H net h (VB v) (optional flag) vi vo vw (VB lt)) is_tx.
  Proof using Cl.
    intros Qi Qo Qw. destruct (items_sequence _ _ _ Qi) as [is [Ei [Fi _]]]. destruct (items_sequence _ _ _ Qo) as [os [Eo [Fo _]]].
    destruct (contents_of (is_txin h) ti_bytes is ins) as [Ci Zi]; [intros x y [o [_ I]]; eexists; exact I|exact Fi|].
    destruct (contents_of (is_txout h) to_bytes_ os outs) as [Co Zo]; [intros x y I; eexists; exact I|exact Fo|].
    unfold Tx, new_tx. rewrite !(check_len_bytes h (VB _) _ _ eq_refl), Ei, Eo, (zlen_Forall2 _ _ _ Fi), (zlen_Forall2 _ _ _ Fo). unfold agrees.
    destruct (validate_bytes (Some v) (Some 4)) as [[]|]; [|reflexivity]. cbn [bind].
    destruct (validate_bytes (Some lt) (Some 4)) as [[]|]; [|reflexivity]. cbn [bind].
    (* the witnesses *)
    assert (exists wl, Forall2 (is_witness h) wl (match ws with Some l => l | None => [] end) /\
      match vw with VNone => Ok (false, []) | _ => match items h vw with Some l => Ok (true, l) | None => Err TypeError end end
      = Ok (match ws with Some _ => true | None => false end, wl)) as [wl [Fw Ew]].
    { destruct ws as [l|]; cbn [optional_sequence_of] in Qw.
      - destruct (items_sequence _ _ _ Qw) as [wl [E [F N]]]. exists wl. split; [exact F|]. rewrite E. destruct vw; try reflexivity. destruct N. reflexivity.
      - subst vw. exists []. split; [constructor|reflexivity]. }
    destruct (contents_of (is_witness h) wit_bytes wl _ ltac:(intros x y [o [_ I]]; eexists; exact I) Fw) as [Cw Zw].
    assert (Forall2 (fun p x => old h p /\ content h p = Some x) [VB lt] [lt]) as Cl' by apply one.
    rewrite Ew.
    assert (forall b : bool, (if (match ws with Some _ => true | None => false end) && negb (zlen wl =? 0)
        then raise_if negb b as ValueError ;; guard (negb (zlen wl =? zlen ins)) ValueError else Ok tt) =
      match ws with Some l => if negb (zlen l =? 0) then raise_if negb b as ValueError ;; guard (negb (zlen l =? zlen ins)) ValueError else Ok tt | None => Ok tt end) as Gw.
    { intros b. destruct ws as [l|]; [|reflexivity]. cbn [andb]. rewrite (zlen_Forall2 _ _ _ Fw). reflexivity. }
    assert (frozen h (if match ws with Some _ => true | None => false end then VTuple wl else VNone)) as Zt by (destruct ws; [apply tuple_frozen, Zw|constructor]).
    assert (forall h', preserves h h' -> Forall2 (is_txin h') is ins /\ Forall2 (is_txout h') os outs /\
      is_optional_tuple (is_witness h') (if match ws with Some _ => true | None => false end then VTuple wl else VNone) ws) as Pres.
    { intros h' P. split; [exact (Forall2_preserved h h' is_txin is ins (txin_preserved h h' P) Fi)|].
      split; [exact (Forall2_preserved h h' is_txout os outs (txout_preserved h h' P) Fo)|].
      destruct ws as [l|]; [|reflexivity]. exists wl. split; [reflexivity|]. exact (Forall2_preserved h h' is_witness wl l (witness_preserved h h' P) Fw). }
    pose proof (tuple_frozen _ Zi) as Zi'. pose proof (tuple_frozen _ Zo) as Zo'.
    set (wb := concat (map wit_bytes (match ws with Some l => l | None => [] end))).
    assert (match ws with Some l => concat (map wit_bytes l) | None => [] end = wb) as Ewb by (unfold wb; destruct ws; reflexivity).
    destruct flag as [f|]; cbn [optional content buffer].
    - destruct (guard (negb (leqb f (SEGWIT_TX_FLAG net))) ValueError) as [[]|]; [|reflexivity]. cbn [bind]. rewrite Gw. cbn [negb].
      match goal with |- context [bind ?x _] => destruct x as [[]|]; [|reflexivity] end. cbn [bind].
      destruct (guard (Z.min (zlen ins) (zlen outs) =? 0) ValueError) as [[]|]; [|reflexivity]. cbn [bind]. unfold no_witness_bytes.
      destruct (VarInt (zlen ins) None) as [n|]; [|reflexivity]. cbn [bind]. destruct (VarInt (zlen outs) None) as [m|]; [|reflexivity]. cbn [bind].
      rewrite Ewb.
      assert (Forall2 (fun p x => old h p /\ content h p = Some x) ([VB v] ++ [VB f] ++ [VB (vi_bytes n)] ++ is ++ [VB (vi_bytes m)] ++ os ++ wl ++ [VB lt])
        ([v] ++ [f] ++ [vi_bytes n] ++ map ti_bytes ins ++ [vi_bytes m] ++ map to_bytes_ outs ++ map wit_bytes (match ws with Some l => l | None => [] end) ++ [lt])) as Cp.
      { repeat (apply Forall2_app; [first [apply one|assumption]|]). exact Cl'. }
      assert (Forall2 (fun p x => old h p /\ content h p = Some x) ([VB v; VB (vi_bytes n)] ++ is ++ [VB (vi_bytes m)] ++ os ++ [VB lt])
        ([v; vi_bytes n] ++ map ti_bytes ins ++ [vi_bytes m] ++ map to_bytes_ outs ++ [lt])) as Cn.
      { apply Forall2_app; [constructor; [split; [exact I|reflexivity]|apply one]|]. repeat (apply Forall2_app; [first [apply one|assumption]|]). exact Cl'. }
      rewrite (joined_contents _ _ Cp), (joined_contents _ _ Cn). cbn [bind buffer].
      assert (concat ([v] ++ [f] ++ [vi_bytes n] ++ map ti_bytes ins ++ [vi_bytes m] ++ map to_bytes_ outs ++ map wit_bytes (match ws with Some l => l | None => [] end) ++ [lt])
        = v ++ f ++ vi_bytes n ++ concat (map ti_bytes ins) ++ vi_bytes m ++ concat (map to_bytes_ outs) ++ wb ++ lt) as Ep.
      { rewrite !concat_app. cbn [concat]. rewrite !app_nil_r. reflexivity. }
      assert (concat ([v; vi_bytes n] ++ map ti_bytes ins ++ [vi_bytes m] ++ map to_bytes_ outs ++ [lt])
        = v ++ vi_bytes n ++ concat (map ti_bytes ins) ++ vi_bytes m ++ concat (map to_bytes_ outs) ++ lt) as Eq.
      { rewrite !concat_app. cbn [concat]. rewrite !app_nil_r, <- !app_assoc. reflexivity. }
      match goal with |- context [construct h ?p ?a] => destruct (construct_whole h p _ a Cl Cp) as [h' [l [E [B C]]]] end.
      + cbn [app]. frozen_attrs. 
      + cbn [app map fst]. distinct.
      + exists h', l. split; [exact E|]. split; [|exact C]. destruct (Pres h' (construct_preserves _ _ _ _ _ E)) as [P1 [P2 P3]].
        eexists _, _, _. cbn [tx_tx_ins tx_tx_outs tx_tx_witnesses tx_bytes tx_version tx_flag tx_lock_time tx_tx_id_le tx_tx_id tx_wtx_id tx_wtx_id_le].
        split; [exact P1|]. split; [exact P2|]. split; [exact P3|]. rewrite Ep, Eq in B. exact B.
    - cbn [bind]. rewrite Gw. cbn [negb].
      match goal with |- context [bind ?x _] => destruct x as [[]|]; [|reflexivity] end. cbn [bind].
      destruct (guard (Z.min (zlen ins) (zlen outs) =? 0) ValueError) as [[]|]; [|reflexivity]. cbn [bind]. unfold no_witness_bytes.
      destruct (VarInt (zlen ins) None) as [n|]; [|reflexivity]. cbn [bind]. destruct (VarInt (zlen outs) None) as [m|]; [|reflexivity]. cbn [bind].
      rewrite Ewb.
      assert (Forall2 (fun p x => old h p /\ content h p = Some x) ([VB v] ++ [] ++ [VB (vi_bytes n)] ++ is ++ [VB (vi_bytes m)] ++ os ++ wl ++ [VB lt])
        ([v] ++ [] ++ [vi_bytes n] ++ map ti_bytes ins ++ [vi_bytes m] ++ map to_bytes_ outs ++ map wit_bytes (match ws with Some l => l | None => [] end) ++ [lt])) as Cp.
      { repeat (apply Forall2_app; [first [apply one|assumption|constructor]|]). exact Cl'. }
      assert (Forall2 (fun p x => old h p /\ content h p = Some x) ([VB v; VB (vi_bytes n)] ++ is ++ [VB (vi_bytes m)] ++ os ++ [VB lt])
        ([v; vi_bytes n] ++ map ti_bytes ins ++ [vi_bytes m] ++ map to_bytes_ outs ++ [lt])) as Cn.
      { apply Forall2_app; [constructor; [split; [exact I|reflexivity]|apply one]|]. repeat (apply Forall2_app; [first [apply one|assumption|constructor]|]). exact Cl'. }
      rewrite (joined_contents _ _ Cp), (joined_contents _ _ Cn). cbn [bind buffer].
      assert (concat ([v] ++ [] ++ [vi_bytes n] ++ map ti_bytes ins ++ [vi_bytes m] ++ map to_bytes_ outs ++ map wit_bytes (match ws with Some l => l | None => [] end) ++ [lt])
        = v ++ [] ++ vi_bytes n ++ concat (map ti_bytes ins) ++ vi_bytes m ++ concat (map to_bytes_ outs) ++ wb ++ lt) as Ep.
      { rewrite !concat_app. cbn [concat]. rewrite !app_nil_r. reflexivity. }
      assert (concat ([v; vi_bytes n] ++ map ti_bytes ins ++ [vi_bytes m] ++ map to_bytes_ outs ++ [lt])
        = v ++ vi_bytes n ++ concat (map ti_bytes ins) ++ vi_bytes m ++ concat (map to_bytes_ outs) ++ lt) as Eq.
      { rewrite !concat_app. cbn [concat]. rewrite !app_nil_r, <- !app_assoc. reflexivity. }
      match goal with |- context [construct h ?p ?a] => destruct (construct_whole h p _ a Cl Cp) as [h' [l [E [B C]]]] end.
      + cbn [app]. frozen_attrs. 
      + cbn [app map fst]. distinct.
      + exists h', l. split; [exact E|]. split; [|exact C]. destruct (Pres h' (construct_preserves _ _ _ _ _ E)) as [P1 [P2 P3]].
        eexists _, _, _. cbn [tx_tx_ins tx_tx_outs tx_tx_witnesses tx_bytes tx_version tx_flag tx_lock_time tx_tx_id_le tx_tx_id tx_wtx_id tx_wtx_id_le].
        split; [exact P1|]. split; [exact P2|]. split; [exact P3|]. rewrite Ep in B. exact B.
  Qed.
End Make.

Lemma iadd_content h v w h' v' a b : content h v = Some a -> content h w = Some b -> iadd h v w = Ok (h', v') -> content h' v' = Some (a ++ b).
Proof.
  intros Ca Cb. assert (forall z, buffer h w = Some z -> z = b) as Bu.
  { intros z. destruct w as [| |x| |l]; try discriminate.
    - cbn [buffer]. cbn [content buffer] in Cb. congruence.
    - cbn [buffer]. unfold content in Cb. destruct (nth_error h l) as [[x|?|? ?]|]; try discriminate. congruence. }
  destruct v as [|n|x|vs|l]; try discriminate Ca.
  - cbn [iadd]. cbn [content buffer] in Ca. injection Ca as ->. destruct (buffer h w) as [z|] eqn:E; [|discriminate]. rewrite (Bu z eq_refl). intros Q. apply Ok_inj in Q. injection Q as <- <-. reflexivity.
  - cbn [iadd]. unfold content in Ca. destruct (nth_error h l) as [[x|?|i attrs]|] eqn:N; try discriminate Ca.
    + injection Ca as ->. destruct (buffer h w) as [z|] eqn:E; [|discriminate]. rewrite (Bu z eq_refl). intros Q. apply Ok_inj in Q. injection Q as <- <-.
      unfold content. rewrite nth_update, Nat.eqb_refl by (apply nth_lt in N; exact N). reflexivity.
    + rewrite Cb. destruct (assoc (lit "_bytes") attrs) as [[| | | |r]|] eqn:As; try discriminate. cbn [buffer] in Ca.
      destruct (nth_error h r) as [[x|?|? ?]|] eqn:Nr; try discriminate Ca. injection Ca as ->. intros Q. apply Ok_inj in Q. injection Q as <- <-.
      assert (r < length h)%nat as Lr by (apply nth_lt in Nr; exact Nr).
      unfold content. rewrite nth_update by exact Lr. destruct (Nat.eqb_spec l r) as [->|D]; [congruence|]. rewrite N, As. cbn [buffer].
      rewrite nth_update, Nat.eqb_refl by exact Lr. reflexivity.
Qed.
