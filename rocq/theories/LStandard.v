(* Lemmas about MStandard.v *)
From Coq Require Import String.
From Verif Require Import Py SNum SNet SHash SScript SAddr STx SStandard MNet MUtils MShared MScript MTx MBase58 MBech32 MCashaddr MAddr MStandard
  LBase LNet LUtils LVarint LScript LTx LTxParse LTxWire LZcashTx LAddr.
Open Scope list_scope.
Open Scope Z_scope.

(** ** Push only *)
Lemma no_op_char (s : str) : filter (fun t => leqb (slice_to t 3) (lit "OP_")) (map (fun c => [c]) s) = [].
Proof. induction s as [|c s IH]; [reflexivity|]. cbn [map filter]. change (slice_to [c] 3) with [c]. destruct (leqb_spec [c] (lit "OP_")) as [E|_]; [discriminate E|exact IH]. Qed.
Lemma is_push_only_spec net b : is_push_only net b = match deserialize net b with Ok _ => Ok true | Err e => Err e end.
Proof. unfold is_push_only. destruct (deserialize net b) as [s|]; [|reflexivity]. cbn [bind]. rewrite no_op_char. reflexivity. Qed.

Lemma standard_inputs_spec name net ins : get_network name = Ok net -> Forall txin_obj ins ->
  Forall (fun i => is_bytes (ti_script_sig i)) ins ->
  (Forall (fun i => ~ refused_script name (ti_script_sig i)) ins -> standard_inputs net ins = true) /\
  (Exists (fun i => refused_script name (ti_script_sig i)) ins -> standard_inputs net ins = false).
Proof.
  intros En O B. induction O as [|i ins Oi O IH]; [split; [reflexivity|intros X; inversion X]|].
  inversion B as [|? ? Bi Bs]; subst. specialize (IH Bs). cbn [standard_inputs]. rewrite is_push_only_spec.
  pose proof Oi as Oi'. apply txin_obj_iff in Oi'. destruct Oi' as [_ [_ [L _]]].
  assert (1650 <? zlen (ti_script_sig i) = false) as ->.
  { destruct (Z.ltb_spec 1650 (zlen (ti_script_sig i))); [lia|reflexivity]. }
  pose proof (refused_iff name net _ En Bi) as R. destruct (deserialize net (ti_script_sig i)) as [s|e].
  - split; [intros F; inversion F; subst; apply IH; assumption|]. intros X. apply IH. inversion X as [? ? Y|? ? Y]; subst; [|exact Y].
    apply R in Y. destruct Y as [e Y]. discriminate.
  - split; [|reflexivity]. intros F. inversion F as [|? ? Y]; subst. destruct Y. apply R. eauto.
Qed.

(** ** Output types *)
Definition has_op (c : Z) (n : str) : bool := existsb (fun o => (fst o =? c) && leqb (snd o) n) bitcoin_opcodes && negb (c =? 168).
Lemma op_in name c n : has_op c n = true -> In (c, n) (opcodes_of name).
Proof.
  unfold has_op. intros X. apply andb_true_iff in X. destruct X as [X N]. apply existsb_exists in X. destruct X as [[c' n'] [I X]].
  cbn [fst snd] in X. apply andb_true_iff in X. destruct X as [X1 X2]. apply Z.eqb_eq in X1. apply leqb_eq in X2. subst c' n'.
  unfold opcodes_of. destruct (in_dec _ _ _); [|exact I]. unfold decred_opcodes. apply in_or_app. left. apply filter_In. split; [exact I|exact N].
Qed.
Lemma op_ok name c n : has_op c n = true -> c <> 171 -> standard_element name (Op c n).
Proof. intros X N. split; [apply op_in, X|exact N]. Qed.
Lemma push_ok name d : all_bytes d -> 1 <= len d <= 75 -> standard_element name (Push Direct d).
Proof. intros B L. split; [exact B|]. split; [lia|]. unfold smallest. destruct (Z.leb_spec (len d) 75); [reflexivity|lia]. Qed.

Lemma split_texts name net es : get_network name = Ok net -> Forall (standard_element name) es ->
  deserialize net (concat (map wire es)) = Ok (join (lit " ") (map text es)) /\ split_ws (join (lit " ") (map text es)) = map text es.
Proof.
  intros En F. split; [apply (deserialize_wires name net es En), (standard_oks name es F)|].
  rewrite split_ws_join.
  - apply filter_all. apply Forall_map. eapply Forall_impl; [|exact F]. intros e X. destruct (text_ne e name net En X) as [N _].
    destruct (text e); [contradiction|reflexivity].
  - apply Forall_map. eapply Forall_impl; [|exact F]. intros e X. apply (text_ne e name net En X).
Qed.

Definition elements (k : payment) (h : bytes) : list element :=
  match k with
  | P2PKH => [Op 118 (lit "OP_DUP"); Op 169 (lit "OP_HASH160"); Push Direct h; Op 136 (lit "OP_EQUALVERIFY"); Op 172 (lit "OP_CHECKSIG")]
  | P2SH => [Op 169 (lit "OP_HASH160"); Push Direct h; Op 135 (lit "OP_EQUAL")]
  | P2WPKH | P2WSH => [Op 0 (lit "OP_0"); Push Direct h]
  end.
Ltac ops := constructor; [first [apply op_ok; [vm_compute; reflexivity|lia]|idtac]|].
Lemma elements_ok name k h : all_bytes h -> len h = hash_len k -> Forall (standard_element name) (elements k h) /\ template k h = concat (map wire (elements k h)).
Proof.
  intros B L. assert (standard_element name (Push Direct h)) as P by (apply push_ok; [exact B|rewrite L; destruct k; cbn; lia]).
  split; [destruct k; cbn [elements]; repeat (constructor; [first [exact P|apply op_ok; [vm_compute; reflexivity|lia]]|]); constructor|].
  destruct k; cbn [elements map wire concat template push]; rewrite L; cbn [hash_len app]; rewrite ?app_nil_r; reflexivity.
Qed.

Section Out.
Variables (H : hashes) (name : str) (net : network).
Hypothesis K : hashes_ok H.
Hypothesis En : get_network name = Ok net.

Lemma template_standard k h o : all_bytes h -> len h = hash_len k -> (is_witness_payment k = true -> In name segwit_names) ->
  MTx.to_output_script o = template k h -> is_standard_output_type H net o = Ok true.
Proof.
  intros B L Sk E. unfold is_standard_output_type. rewrite E. destruct (c13_lemma H name net k h true K En B L Sk) as [s [-> _]]. reflexivity.
Qed.
Lemma template_op_return k h o : all_bytes h -> len h = hash_len k -> MTx.to_output_script o = template k h -> is_op_return net o = Ok false.
Proof.
  intros B L E. unfold is_op_return. rewrite E. destruct (elements_ok name k h B L) as [F ->].
  destruct (split_texts name net _ En F) as [-> X]. cbn [bind]. rewrite X. destruct (le2i _ _ =? 0); [|reflexivity].
  destruct k; reflexivity.
Qed.

(* scripts that do not open like a template *)
Lemma other_script es o : Forall (standard_element name) es -> MTx.to_output_script o = concat (map wire es) ->
  (forall k h, ~ looks_like k h (concat (map wire es))) ->
  is_standard_output_type H net o =
  (let split_script := map text es in
   last <- index split_script (-1) ;;
        p2pk <- (if leqb last (lit "OP_CHECKSIG") && (zlen split_script =? 2)
                 then w <- index split_script 1 ;; is_pubkey_hex w
                 else Ok false) ;;
        if p2pk : bool then Ok true
        else if leqb last (lit "OP_CHECKMULTISIG")
        then w2 <- index split_script (-2) ;;
             if leqb w2 (lit "OP_1") || leqb w2 (lit "OP_2") || leqb w2 (lit "OP_3")
             then standard_multisig split_script w2
             else Ok false
        else Ok false).
Proof.
  intros F E N. destruct (split_texts name net es En F) as [D X]. unfold is_standard_output_type. rewrite E.
  assert (is_bytes (concat (map wire es))) as B by (apply (wires_bytes name net es En), (standard_oks name es F)).
  destruct (c15_cases_lemma H name net (concat (map wire es)) true K En (proj2 (all_bytes_is_bytes _) B)) as [[k [h [_ [_ [Lk _]]]]]|[Ev _]].
  { destruct (N k h Lk). }
  rewrite Ev, D. cbn [bind]. rewrite X. reflexivity.
Qed.

Lemma no_template c r : c <> 118 -> c <> 169 -> c <> 0 -> forall k h, ~ looks_like k h (c :: r).
Proof.
  intros N1 N2 N3 k h X. destruct k; cbn [looks_like template app] in X.
  - destruct X as [a [b X]]. injection X as X _. contradiction.
  - destruct X as [a X]. injection X as X _. contradiction.
  - injection X as X _. contradiction.
  - injection X as X _. contradiction.
Qed.

Lemma op_return_type d o : all_bytes d -> 1 <= len d <= 1000 -> MTx.to_output_script o = 106 :: push (smallest d) d ->
  is_standard_output_type H net o = Ok false.
Proof.
  intros B L E. rewrite (other_script [Op 106 (lit "OP_RETURN"); Push (smallest d) d]).
  - cbn [map text]. change (index [lit "OP_RETURN"; hex d] (-1)) with (Ok (hex d)). cbn [bind].
    assert (hd 0 (hex d) <> 79) as N by (apply hex_head, all_bytes_is_bytes, B).
    rewrite !leqb_false; [reflexivity| |]; intros Q; rewrite Q in N; apply N; reflexivity.
  - constructor; [apply op_ok; [vm_compute; reflexivity|lia]|]. constructor; [|constructor]. repeat split; [exact B|lia|lia].
  - rewrite E. cbn [map wire concat app]. rewrite app_nil_r. reflexivity.
  - cbn [map wire concat app]. apply no_template; lia.
Qed.
Lemma p2pk_type key o : all_bytes key -> pubkey_size key -> MTx.to_output_script o = pay_to_pubkey key -> is_standard_output_type H net o = Err ValueError.
Proof.
  intros B L E. assert (1 <= len key <= 75) as L' by (destruct L; lia). rewrite (other_script [Push Direct key; Op 172 (lit "OP_CHECKSIG")]).
  - reflexivity.
  - constructor; [apply push_ok; assumption|]. constructor; [apply op_ok; [vm_compute; reflexivity|lia]|constructor].
  - exact E.
  - cbn [map wire concat app push]. destruct L as [-> | ->]; apply no_template; lia.
Qed.

Lemma pubkey_hex_true k : all_bytes k -> pubkey_size k -> is_pubkey_hex (hex k) = Ok true.
Proof. intros B L. unfold is_pubkey_hex. rewrite fromhex_hex by (apply all_bytes_is_bytes, B). cbn [bind]. change (zlen k) with (len k). destruct L as [-> | ->]; reflexivity. Qed.

Lemma multisig_type m keys o : 1 <= m <= count keys -> count keys <= 3 -> Forall all_bytes keys -> Forall pubkey_size keys ->
  MTx.to_output_script o = multisig m keys -> is_standard_output_type H net o = Ok true.
Proof.
  intros R L B P E.
  assert (m = 1 \/ m = 2 \/ m = 3) as M by lia.
  assert (count keys = 1 \/ count keys = 2 \/ count keys = 3) as C by lia.
  set (es := [small_int m] ++ map (Push Direct) keys ++ [small_int (count keys); Op 174 (lit "OP_CHECKMULTISIG")]).
  assert (forall n, n = 1 \/ n = 2 \/ n = 3 -> standard_element name (small_int n)) as Si.
  { intros n [->|[->| ->]]; (apply op_ok; [vm_compute; reflexivity|lia]). }
  assert (Forall (standard_element name) es) as F.
  { unfold es. apply Forall_app. split; [constructor; [apply Si, M|constructor]|]. apply Forall_app. split.
    - apply Forall_map. rewrite Forall_forall in *. intros k I. apply push_ok; [apply B, I|]. destruct (P k I); lia.
    - constructor; [apply Si, C|]. constructor; [apply op_ok; [vm_compute; reflexivity|lia]|constructor]. }
  rewrite (other_script es o F E); [|unfold es; destruct M as [->|[->| ->]]; cbn [map wire concat app small_int]; apply no_template; lia].
  assert (forall n, n = 1 \/ n = 2 \/ n = 3 -> text (small_int n) = lit "OP_" ++ [48 + n]) as T.
  { intros n [->|[->| ->]]; reflexivity. }
  unfold es. rewrite !map_app, !map_map. cbn [map]. rewrite !T by assumption. cbn [text].
  assert (forall k, In k keys -> is_pubkey_hex (hex k) = Ok true) as Hk.
  { rewrite Forall_forall in *. intros k I. apply pubkey_hex_true; auto. }
  destruct keys as [|k1 [|k2 [|k3 [|k4 keys]]]]; try (unfold count in C; cbn [length] in C; lia); cbn [map app].
  - change (count [k1]) with 1 in *. assert (m = 1) as -> by lia. cbv -[is_pubkey_hex hex].
    rewrite Hk by (cbn; auto). reflexivity.
  - change (count [k1; k2]) with 2 in *. destruct M as [->|[->| ->]]; [| |lia]; cbv -[is_pubkey_hex hex];
    rewrite !Hk by (cbn; auto); reflexivity.
  - change (count [k1; k2; k3]) with 3 in *. destruct M as [->|[->| ->]]; cbv -[is_pubkey_hex hex];
    rewrite !Hk by (cbn; auto); reflexivity.
Qed.

(** ** Whole transactions *)
Lemma many_outputs t : 2 <= count (tx_tx_outs t) -> check_is_standard H net t <> Ok true.
Proof.
  intros L E. unfold check_is_standard in E. destruct (standard_outputs H net (tx_tx_outs t)) as [[]|]; try discriminate. cbn [bind negb] in E.
  destruct (mapM (is_op_return net) (tx_tx_outs t)) as [l|] eqn:M; [|discriminate]. cbn [bind] in E. apply mapM_length in M.
  unfold count in L. unfold zlen in E. rewrite M in E. destruct (Z.ltb_spec 1 (Z.of_nat (length (tx_tx_outs t)))); [discriminate|lia].
Qed.
Lemma many_outputs_tx t : 2 <= count (tx_tx_outs t) -> check_is_standard_tx H net t <> Ok true.
Proof.
  intros L E. unfold check_is_standard_tx in E. destruct (index _ _); [|discriminate]. cbn [bind] in E.
  destruct (negb _); [discriminate|]. destruct (no_witness t); [|discriminate]. cbn [bind] in E. destruct (_ <? _); [discriminate|].
  destruct (negb _); [discriminate|]. destruct (check_is_standard H net t) as [[]|] eqn:C; try discriminate. apply (many_outputs t L C).
Qed.
Lemma no_witness_wire t : tx_obj H net t -> no_witness t = Ok (wire_tx (stripped (the_tx t))) /\ tx_bytes t = wire_tx (the_tx t).
Proof.
  intros O. destruct (tx_wire H name net t En O) as [W T]. split; [|exact W]. apply tx_obj_iff in O. destruct O as [Fi [Fo [Fw [A E]]]].
  assert (tx_args_ok net (tx_version t) None (tx_tx_ins t) (tx_tx_outs t) None (tx_lock_time t) = true) as A'.
  { unfold tx_args_ok in *. rewrite !andb_true_iff in *. tauto. }
  destruct (body_wire net _ None _ _ None _ name En A' Fi Fo I) as [B _].
  change (body None (tx_version t) (tx_tx_ins t) (tx_tx_outs t) None (tx_lock_time t) = wire_tx (stripped (the_tx t))) in B. rewrite <- B.
  unfold no_witness, no_witness_bytes, body. unfold tx_args_ok in A'. rewrite !andb_true_iff in A'. destruct A' as [[[[[[[_ _] _] _] _] L1] _] L2].
  rewrite !VarInt_len by apply zlen_nonneg. rewrite L1, L2. reflexivity.
Qed.
Lemma size_small t : tx_obj H net t -> check_tx_size_small t = Ok (82 <=? len (wire_tx (stripped (the_tx t)))).
Proof. intros O. unfold check_tx_size_small. destruct (no_witness_wire t O) as [-> _]. reflexivity. Qed.

Lemma tx_cases t v : tx_obj H net t -> hd 0 (tx_version t) = v -> Forall (fun i => all_bytes (ti_script_sig i)) (tx_tx_ins t) ->
  check_is_standard_tx H net t =
  if negb (zmem v [1; 2]) then Ok false else if 400000 <? weight t then Ok false
  else if negb (standard_inputs net (tx_tx_ins t)) then Ok false else check_is_standard H net t.
Proof.
  intros O V B. unfold check_is_standard_tx, weight. destruct (no_witness_wire t O) as [-> W]. rewrite W.
  apply tx_obj_iff in O. destruct O as [_ [_ [_ [A _]]]]. unfold tx_args_ok in A. rewrite !andb_true_iff, Z.eqb_eq in A.
  assert (index (tx_version t) 0 = Ok v) as ->.
  { destruct A as [[[[[[[Lv _] _] _] _] _] _] _]. destruct (tx_version t) as [|x r]; [discriminate|]. cbn [hd] in V. subst x.
    unfold index. rewrite Lv. reflexivity. }
  cbn [bind]. destruct (negb (zmem v [1; 2])); [reflexivity|].
  change (zlen (wire_tx (stripped (the_tx t))) * 3 + zlen (wire_tx (the_tx t))) with (len (wire_tx (stripped (the_tx t))) * 3 + len (wire_tx (the_tx t))).
  rewrite (Z.mul_comm _ 3). unfold MAX_STANDARD_TX_WEIGHT. destruct (400000 <? _); [reflexivity|].
  destruct (negb (standard_inputs net (tx_tx_ins t))); [reflexivity|]. destruct (check_is_standard H net t) as [[]|]; reflexivity.
Qed.

Lemma single_template k h o t : all_bytes h -> len h = hash_len k -> (is_witness_payment k = true -> In name segwit_names) ->
  tx_tx_outs t = [o] -> MTx.to_output_script o = template k h ->
  check_is_standard H net t = Ok ((550 <=? le_value (to_value o)) || match k with P2WPKH => true | _ => false end).
Proof.
  intros B L Sk Eo E. unfold check_is_standard. rewrite Eo. cbn [standard_outputs]. rewrite (template_standard k h o B L Sk E). cbn [bind negb].
  rewrite le2i_le. assert (leqb (slice_to (MTx.to_output_script o) 2) [0; 0x14] = match k with P2WPKH => true | _ => false end) as ->.
  { rewrite E. rewrite slice_to_firstn by lia. destruct k; reflexivity. }
  destruct (Z.ltb_spec (le_value (to_value o)) 550), (Z.leb_spec 550 (le_value (to_value o))); try lia; cbn [andb orb].
  - destruct k; cbn [negb bind]; try reflexivity. cbn [mapM]. rewrite (template_op_return P2WPKH h o B L E). reflexivity.
  - cbn [bind negb mapM]. rewrite (template_op_return k h o B L E). reflexivity.
Qed.
End Out.

(** ** Finality *)
Lemma check_final_exact t height time : 0 <= height -> 0 <= le_value (tx_lock_time t) ->
  ~ Forall (fun i => ti_sequence i = [255; 255; 255; 255]) (tx_tx_ins t) ->
  (le_value (tx_lock_time t) < 500000000 \/ le_value (tx_lock_time t) <> time) ->
  (check_final t height time = true <-> final_at (the_tx t) (height + 1) time).
Proof.
  intros R N Q D. unfold check_final, final_at. rewrite le2i_le. cbn [the_tx t_lock t_ins].
  assert (~ Forall (fun i => in_sequence i = [255; 255; 255; 255]) (map the_input (tx_tx_ins t))) as Q'.
  { intros X. apply Q. apply Forall_map in X. exact X. }
  destruct (Z.leb_spec 500000000 (le_value (tx_lock_time t))), (Z.ltb_spec (le_value (tx_lock_time t)) 500000000); try lia.
  - rewrite Z.leb_le. split; [intros; right; left; lia|]. intros [X|[X|X]]; [lia|lia|contradiction].
  - rewrite Z.leb_le. split; [intros; right; left; lia|]. intros [X|[X|X]]; [lia|lia|contradiction].
Qed.
Lemma check_final_differs t height time : 0 <= height -> 0 <= le_value (tx_lock_time t) ->
  let lock := le_value (tx_lock_time t) in
  let all_final := Forall (fun i => ti_sequence i = [255; 255; 255; 255]) (tx_tx_ins t) in
  (check_final t height time = true /\ ~ final_at (the_tx t) (height + 1) time <->
   500000000 <= lock /\ lock = time /\ ~ all_final) /\
  (check_final t height time = false /\ final_at (the_tx t) (height + 1) time <->
   (if lock <? 500000000 then height else time) < lock /\ all_final).
Proof.
  intros R N lock all_final. unfold check_final, final_at. rewrite le2i_le. cbn [the_tx t_lock t_ins]. fold lock. fold lock in N.
  assert (Forall (fun i => in_sequence i = [255; 255; 255; 255]) (map the_input (tx_tx_ins t)) <-> all_final) as Q.
  { unfold all_final. rewrite Forall_map. reflexivity. }
  rewrite Q. clear Q. clearbody lock all_final.
  destruct (Z.leb_spec 500000000 lock), (Z.ltb_spec lock 500000000); try lia; rewrite Z.leb_le, Z.leb_gt; intuition lia.
Qed.
