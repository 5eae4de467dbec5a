(* Lemmas about MTx.v: constructors, wire format, parsing *)
From Coq Require Import String.
From Verif Require Import Py LBase MNet MUtils MShared MScript MTx SNum SNet SScript STx LNet LUtils LVarint LScript.
Open Scope list_scope.
Open Scope Z_scope.
Ltac Zify.zify_post_hook ::= idtac.

Ltac norm_count := repeat match goal with
  | |- context [count ?l] => change (count l) with (zlen l)
  | H : context [count ?l] |- _ => change (count l) with (zlen l) in H
  end.

Lemma validate_bytes_Some d n u : validate_bytes (Some d) (Some n) = Ok u <-> zlen d = n.
Proof.
  unfold validate_bytes, guard. destruct (Z.eqb_spec (zlen d) n); cbn; split; intros E; try discriminate; try contradiction.
  - assumption.
  - destruct u; reflexivity.
Qed.
Lemma validate_Some d n : zlen d = n -> validate_bytes (Some d) (Some n) = Ok tt.
Proof. apply validate_bytes_Some. Qed.
Lemma validate_Err d n : zlen d <> n -> validate_bytes (Some d) (Some n) = Err ValueError.
Proof. intros N. unfold validate_bytes, guard. destruct (Z.eqb_spec (zlen d) n); [contradiction|reflexivity]. Qed.

Lemma VarInt_len n : 0 <= n -> VarInt n None = if n <? 2 ^ 64 then Ok {| vi_number := n; vi_bytes := compactsize n |} else Err ValueError.
Proof.
  intros N. destruct (Z.ltb_spec n (2 ^ 64)); [apply VarInt_None; lia|apply VarInt_out_of_range; lia].
Qed.

(** * constructors *)

Lemma Outpoint_spec t i : Outpoint (Some t) (Some i) =
  if (zlen t =? 32) && (zlen i =? 4) then Ok {| op_tx_id := t; op_index := i; op_bytes := t ++ i |} else Err ValueError.
Proof.
  unfold Outpoint, validate_bytes, guard. destruct (zlen t =? 32), (zlen i =? 4); reflexivity.
Qed.

Lemma outpoint_obj_iff o : outpoint_obj o <->
  zlen (op_tx_id o) = 32 /\ zlen (op_index o) = 4 /\ op_bytes o = op_tx_id o ++ op_index o.
Proof.
  unfold outpoint_obj. rewrite Outpoint_spec. destruct o as [t i b]; cbn [op_tx_id op_index op_bytes].
  destruct (Z.eqb_spec (zlen t) 32), (Z.eqb_spec (zlen i) 4); cbn [andb]; split; intros E; try discriminate; try (destruct E as [? [? ?]]; contradiction).
  - apply Ok_inj in E. injection E as <-. auto.
  - destruct E as [_ [_ ->]]. reflexivity.
Qed.

Definition txin_of o s r q : txin :=
  {| ti_outpoint := o; ti_stack_script := s; ti_redeem_script := r; ti_script_sig := s ++ r; ti_sequence := q;
     ti_bytes := op_bytes o ++ compactsize (zlen (s ++ r)) ++ (s ++ r) ++ q |}.

Lemma TxIn_spec o s r q : TxIn o s r q =
  if (zlen (op_bytes o) =? 36) && (zlen q =? 4) && (zlen (s ++ r) <=? 1650) then Ok (txin_of o s r q) else Err ValueError.
Proof.
  unfold TxIn, validate_bytes, guard. rewrite zlen_app. pose proof (zlen_nonneg s). pose proof (zlen_nonneg r).
  destruct (zlen (op_bytes o) =? 36); [|reflexivity]. destruct (zlen q =? 4); [|reflexivity]. cbn [negb andb bind].
  destruct (Z.leb_spec (zlen s + zlen r) 1650) as [L|L].
  - destruct (Z.ltb_spec 1650 (zlen s + zlen r)); [lia|]. cbn [bind].
    rewrite VarInt_None by lia. cbn [bind vi_bytes]. unfold txin_of. rewrite zlen_app, <- !app_assoc. reflexivity.
  - destruct (Z.ltb_spec 1650 (zlen s + zlen r)); [reflexivity|lia].
Qed.

Lemma txin_obj_iff i : txin_obj i <->
  outpoint_obj (ti_outpoint i) /\ zlen (ti_sequence i) = 4 /\ zlen (ti_script_sig i) <= 1650 /\
  i = txin_of (ti_outpoint i) (ti_stack_script i) (ti_redeem_script i) (ti_sequence i).
Proof.
  unfold txin_obj. rewrite TxIn_spec. split.
  - intros [O E]. split; [exact O|].
    destruct (_ =? 36), (Z.eqb_spec (zlen (ti_sequence i)) 4), (Z.leb_spec (zlen (ti_stack_script i ++ ti_redeem_script i)) 1650);
      try discriminate E. apply Ok_inj in E. split; [assumption|]. split; [|symmetry; exact E].
    rewrite <- E. assumption.
  - intros [O [Q [L E]]]. split; [exact O|]. pose proof O as O'. apply outpoint_obj_iff in O'. destruct O' as [O1 [O2 O3]].
    rewrite O3, zlen_app, O1, O2, Q. rewrite E in L. cbn [ti_script_sig txin_of] in L.
    destruct (Z.leb_spec (zlen (ti_stack_script i ++ ti_redeem_script i)) 1650); [|lia].
    cbn [andb Z.add Z.eqb Pos.eqb Pos.add Pos.succ]. rewrite E at 5. reflexivity.
Qed.

Lemma TxOut_spec v s : TxOut v s =
  if (zlen v =? 8) && (zlen s <? 2 ^ 64)
  then Ok {| to_value := v; to_output_script := s; to_bytes_ := v ++ compactsize (zlen s) ++ s |} else Err ValueError.
Proof.
  unfold TxOut, validate_bytes, guard. destruct (zlen v =? 8); [|reflexivity]. cbn [negb bind andb].
  rewrite VarInt_len by apply zlen_nonneg. destruct (zlen s <? 2 ^ 64); reflexivity.
Qed.

Lemma txout_obj_iff o : txout_obj o <->
  zlen (to_value o) = 8 /\ zlen (to_output_script o) < 2 ^ 64 /\
  to_bytes_ o = to_value o ++ compactsize (zlen (to_output_script o)) ++ to_output_script o.
Proof.
  unfold txout_obj. rewrite TxOut_spec. destruct o as [v s b]; cbn [to_value to_output_script to_bytes_].
  destruct (Z.eqb_spec (zlen v) 8), (Z.ltb_spec (zlen s) (2 ^ 64)); cbn [andb]; split; intros E; try discriminate; try (destruct E as [? [? ?]]; lia).
  - apply Ok_inj in E. injection E as <-. auto.
  - destruct E as [_ [_ ->]]. reflexivity.
Qed.

Lemma WitnessStackItem_spec d : WitnessStackItem d =
  if zlen d <? 2 ^ 64 then Ok {| wi_item := d; wi_bytes := compactsize (zlen d) ++ d |} else Err ValueError.
Proof.
  unfold WitnessStackItem, validate_bytes. cbn [bind]. rewrite VarInt_len by apply zlen_nonneg.
  destruct (zlen d <? 2 ^ 64); reflexivity.
Qed.
Lemma witem_obj_iff w : witem_obj w <-> zlen (wi_item w) < 2 ^ 64 /\ wi_bytes w = compactsize (zlen (wi_item w)) ++ wi_item w.
Proof.
  unfold witem_obj. rewrite WitnessStackItem_spec. destruct w as [d b]; cbn [wi_item wi_bytes].
  destruct (Z.ltb_spec (zlen d) (2 ^ 64)); split; intros E; try discriminate; try (destruct E; lia).
  - apply Ok_inj in E. injection E as <-. auto.
  - destruct E as [_ ->]. reflexivity.
Qed.

Lemma InputWitness_spec st : InputWitness st =
  if zlen st <? 2 ^ 64 then Ok {| wit_stack := st; wit_bytes := compactsize (zlen st) ++ concat (map wi_bytes st) |} else Err ValueError.
Proof.
  unfold InputWitness. rewrite VarInt_len by apply zlen_nonneg. destruct (zlen st <? 2 ^ 64); reflexivity.
Qed.
Lemma witness_obj_iff w : witness_obj w <-> Forall witem_obj (wit_stack w) /\ zlen (wit_stack w) < 2 ^ 64 /\
  wit_bytes w = compactsize (zlen (wit_stack w)) ++ concat (map wi_bytes (wit_stack w)).
Proof.
  unfold witness_obj. rewrite InputWitness_spec. destruct w as [st b]; cbn [wit_stack wit_bytes].
  destruct (Z.ltb_spec (zlen st) (2 ^ 64)); split; intros [F E]; try discriminate; try (destruct E; lia); (split; [exact F|]).
  - apply Ok_inj in E. injection E as <-. auto.
  - destruct E as [_ ->]. reflexivity.
Qed.

(** * objects serialize to the wire format *)

Lemma txin_wire i : txin_obj i -> ti_bytes i = input_wire (the_input i) /\ input_ok (the_input i).
Proof.
  intros O. apply txin_obj_iff in O. destruct O as [O [Q [L E]]]. apply outpoint_obj_iff in O. destruct O as [O1 [O2 O3]].
  rewrite E. unfold input_wire, the_input, outpoint_wire, string_wire. 
  cbn [ti_bytes txin_of ti_outpoint ti_script_sig ti_sequence in_txid in_index in_script in_sequence]. norm_spec. rewrite O3. split.
  - rewrite <- !app_assoc. reflexivity.
  - unfold input_ok. cbn [in_txid in_index in_script in_sequence]. norm_spec. repeat split; try assumption.
    rewrite E in L. cbn [ti_script_sig txin_of] in L. lia.
Qed.

Lemma txout_wire o : txout_obj o -> to_bytes_ o = output_wire (the_output o) /\ output_ok (the_output o).
Proof. intros O. apply txout_obj_iff in O. destruct O as [A [B C]]. split; [exact C|split; [exact A|exact B]]. Qed.

Lemma witness_wire w : witness_obj w -> wit_bytes w = stack_wire (the_stack w) /\ stack_ok (the_stack w).
Proof.
  intros O. apply witness_obj_iff in O. destruct O as [F [L E]]. unfold stack_wire, vector_wire, the_stack, stack_ok.
  norm_count. rewrite zlen_map. split; [|split; [exact L|]].
  - rewrite E. f_equal. rewrite map_map. f_equal. apply map_ext_in. intros x I. rewrite Forall_forall in F.
    apply F, witem_obj_iff in I. apply I.
  - apply Forall_map. eapply Forall_impl; [|exact F]. intros x X. apply witem_obj_iff in X. apply X.
Qed.

Lemma map_wire {A B} (P : A -> Prop) (f : A -> bytes) (g : A -> B) (w : B -> bytes) (Q : B -> Prop) l :
  (forall a, P a -> f a = w (g a) /\ Q (g a)) -> Forall P l ->
  concat (map f l) = concat (map w (map g l)) /\ Forall Q (map g l).
Proof.
  intros Hf F. induction F as [|a l Pa F IH]; [split; [reflexivity|constructor]|].
  destruct IH as [I1 I2]. destruct (Hf a Pa) as [E1 E2]. cbn [map concat]. rewrite E1, I1. split; [reflexivity|constructor; assumption].
Qed.

Section Net.
Context (H : hashes).

Definition flag_ok (net : network) (flag : option bytes) : bool :=
  match flag with Some f => leqb f (SEGWIT_TX_FLAG net) | None => true end.
Definition wits_ok (flag : option bytes) (ws : option (list witness)) (n : Z) : bool :=
  match ws with
  | Some ws => (zlen ws =? 0) || (match flag with Some _ => true | None => false end && (zlen ws =? n))
  | None => true
  end.

Definition body flag v ins outs ws lt : bytes :=
  v ++ (match flag with Some f => f | None => [] end) ++ compactsize (zlen ins) ++ concat (map ti_bytes ins)
    ++ compactsize (zlen outs) ++ concat (map to_bytes_ outs)
    ++ (match ws with Some ws => concat (map wit_bytes ws) | None => [] end) ++ lt.

Definition tx_of net v flag ins outs ws lt : tx :=
  let idle := hash256 H net (body None v ins outs None lt) in
  let widle := hash256 H net (body flag v ins outs ws lt) in
  {| tx_version := v; tx_flag := flag; tx_tx_ins := ins; tx_tx_outs := outs; tx_tx_witnesses := ws; tx_lock_time := lt;
     tx_tx_id_le := match flag with Some _ => idle | None => widle end;
     tx_wtx_id_le := match flag with Some _ => Some widle | None => None end;
     tx_tx_id := change_endianness (match flag with Some _ => idle | None => widle end);
     tx_wtx_id := match flag with Some _ => Some (change_endianness widle) | None => None end;
     tx_bytes := body flag v ins outs ws lt |}.

Definition tx_args_ok net (v : bytes) flag (ins : list txin) (outs : list txout) ws (lt : bytes) : bool :=
  (zlen v =? 4) && (zlen lt =? 4) && flag_ok net flag && wits_ok flag ws (zlen ins) &&
  (1 <=? zlen ins) && (zlen ins <? 2 ^ 64) && (1 <=? zlen outs) && (zlen outs <? 2 ^ 64).

Lemma Tx_spec net v flag ins outs ws lt : Tx H net v flag ins outs ws lt =
  if tx_args_ok net v flag ins outs ws lt then Ok (tx_of net v flag ins outs ws lt) else Err ValueError.
Proof.
  unfold Tx, validate_bytes, guard, tx_args_ok. pose proof (zlen_nonneg ins). pose proof (zlen_nonneg outs).
  destruct (zlen v =? 4); [|reflexivity]. destruct (zlen lt =? 4); [|reflexivity]. cbn [negb bind andb].
  assert (match flag with
          | Some f => if negb (leqb f (SEGWIT_TX_FLAG net)) then Err ValueError else Ok tt
          | None => Ok tt end = if flag_ok net flag then Ok tt else Err ValueError) as ->.
  { unfold flag_ok. destruct flag; [destruct leqb; reflexivity|reflexivity]. }
  destruct (flag_ok net flag); [|reflexivity]. cbn [bind andb].
  match goal with |- bind ?x _ = _ => assert (x = if wits_ok flag ws (zlen ins) then Ok tt else Err ValueError) as -> end.
  { unfold wits_ok. destruct ws as [ws|]; [|reflexivity]. destruct (zlen ws =? 0); [reflexivity|]. cbn [negb orb].
    destruct flag; [|reflexivity]. cbn [bind andb]. destruct (zlen ws =? zlen ins); reflexivity. }
  destruct (wits_ok flag ws (zlen ins)); [|reflexivity]. cbn [bind andb].
  destruct (Z.eqb_spec (Z.min (zlen ins) (zlen outs)) 0) as [M|M].
  { cbn [bind]. destruct (Z.leb_spec 1 (zlen ins)); [|reflexivity]. destruct (Z.leb_spec 1 (zlen outs)); [lia|].
    cbn [andb]. rewrite andb_false_r. reflexivity. }
  cbn [bind]. destruct (Z.leb_spec 1 (zlen ins)); [|lia]. destruct (Z.leb_spec 1 (zlen outs)); [|lia]. cbn [andb].
  rewrite !VarInt_len by assumption. destruct (zlen ins <? 2 ^ 64) eqn:L1; [|reflexivity]. cbn [bind andb].
  destruct (zlen outs <? 2 ^ 64) eqn:L2; [|reflexivity]. cbn [bind andb vi_bytes].
  destruct flag as [f|].
  - unfold no_witness_bytes. rewrite !VarInt_len by assumption. rewrite L1, L2. cbn [bind vi_bytes]. reflexivity.
  - reflexivity.
Qed.

Lemma Tx_Ok net v flag ins outs ws lt t : Tx H net v flag ins outs ws lt = Ok t <->
  tx_args_ok net v flag ins outs ws lt = true /\ t = tx_of net v flag ins outs ws lt.
Proof.
  rewrite Tx_spec. destruct (tx_args_ok _ _ _ _ _ _ _).
  - split; [intros E; apply Ok_inj in E; auto|intros [_ ->]; reflexivity].
  - split; [discriminate|intros [E _]; discriminate].
Qed.

Lemma segwit_flag name net : get_network name = Ok net -> SEGWIT_TX_FLAG net = marker_and_flag.
Proof.
  intros En. apply leqb_eq. revert En.
  apply (supported_forall (fun _ n => leqb (SEGWIT_TX_FLAG n) [0; 1])). vm_compute. reflexivity.
Qed.

Lemma tx_obj_iff net t : tx_obj H net t <->
  Forall txin_obj (tx_tx_ins t) /\ Forall txout_obj (tx_tx_outs t) /\
  match tx_tx_witnesses t with Some ws => Forall witness_obj ws | None => True end /\
  tx_args_ok net (tx_version t) (tx_flag t) (tx_tx_ins t) (tx_tx_outs t) (tx_tx_witnesses t) (tx_lock_time t) = true /\
  t = tx_of net (tx_version t) (tx_flag t) (tx_tx_ins t) (tx_tx_outs t) (tx_tx_witnesses t) (tx_lock_time t).
Proof. unfold tx_obj. rewrite Tx_Ok. tauto. Qed.

Lemma body_wire net v flag ins outs ws lt name : get_network name = Ok net ->
  tx_args_ok net v flag ins outs ws lt = true ->
  Forall txin_obj ins -> Forall txout_obj outs -> match ws with Some ws => Forall witness_obj ws | None => True end ->
  let tr := {| t_version := v; t_ins := map the_input ins; t_outs := map the_output outs;
     t_witness := match flag with Some _ => Some (map the_stack (match ws with Some ws => ws | None => [] end)) | None => None end;
     t_lock := lt |} in
  body flag v ins outs ws lt = wire_tx tr /\ transaction_ok tr.
Proof.
  intros En A Fi Fo Fw tr. unfold tx_args_ok in A. rewrite !andb_true_iff in A.
  destruct A as [[[[[[[A1 A2] A3] A4] A5] A6] A7] A8].
  destruct (map_wire _ ti_bytes the_input input_wire input_ok ins txin_wire Fi) as [I1 I2].
  destruct (map_wire _ to_bytes_ the_output output_wire output_ok outs txout_wire Fo) as [O1 O2].
  assert (concat (map wit_bytes (match ws with Some ws => ws | None => [] end)) =
          concat (map stack_wire (map the_stack (match ws with Some ws => ws | None => [] end))) /\
          Forall stack_ok (map the_stack (match ws with Some ws => ws | None => [] end))) as [W1 W2].
  { apply (map_wire witness_obj); [exact witness_wire|]. destruct ws; [exact Fw|constructor]. }
  split.
  - unfold body, wire_tx, tr, vector_wire. cbn [t_version t_ins t_outs t_witness t_lock].
    norm_count. rewrite !zlen_map, I1, O1, <- !app_assoc. f_equal.
    destruct flag as [f|].
    + unfold flag_ok in A3. apply leqb_eq in A3. rewrite A3, (segwit_flag name) by exact En. f_equal. do 4 f_equal.
      rewrite <- W1. destruct ws; reflexivity.
    + cbn [app]. do 4 f_equal. destruct ws as [ws|]; [|reflexivity]. unfold wits_ok in A4.
      cbn [andb] in A4. rewrite orb_false_r in A4. apply Z.eqb_eq, zlen_0 in A4. subst ws. reflexivity.
  - unfold transaction_ok, tr. cbn [t_version t_ins t_outs t_witness t_lock]. norm_count. rewrite !zlen_map. norm_spec.
    repeat split; try lia; try assumption. destruct flag; [exact W2|exact I].
Qed.

Lemma tx_wire name net t : get_network name = Ok net -> tx_obj H net t ->
  tx_bytes t = wire_tx (the_tx t) /\ transaction_ok (the_tx t).
Proof.
  intros En O. apply tx_obj_iff in O. destruct O as [Fi [Fo [Fw [A E]]]].
  destruct (body_wire net _ _ _ _ _ _ name En A Fi Fo Fw) as [B K]. split; [|exact K].
  rewrite E at 1. cbn [tx_bytes tx_of]. exact B.
Qed.
End Net.
