(* C91: exactly which Zcash transactions are read as themselves.  [same_overwinter]
   and its Sapling and Sprout versions are in SZcash.v, [exact_parts] is in SZExact.v. *)
From Coq Require Import String.
From Verif Require Import Py LBase MNet MUtils MShared MScript MTx MZcash SNum SNet SHash SScript STx SZcash SStandard SExact SZExact
  LNet LUtils LTx LZcash LZcashTx LSapling LSprout LTxParse LIdem LIdemErr LExact LZExact PTx PZcash PExact.
Open Scope list_scope.
Open Scope Z_scope.

(* Overwinter: besides inputs and outputs, fewer than 253 outputs or no JoinSplits *)
Theorem overwinter_read_itself : forall H name net t, get_network name = Ok net -> overwinter_obj H net t ->
  Forall (fun i => all_bytes (ti_script_sig i)) (ow_tx_ins t) ->
  ((exists t', OverwinterTx_from_bytes H net (ow_bytes t) = Ok t' /\ same_overwinter t t') <->
   exact_parts name (ow_tx_ins t) (ow_tx_outs t) /\ (count (ow_tx_outs t) < 253 \/ ow_tx_joinsplits t = [])).
Proof. intros H name net t En. exact (overwinter_exact H name net En t). Qed.

(* Sapling: also the count of the shielded spends *)
Theorem sapling_read_itself : forall H name net t, get_network name = Ok net -> sapling_obj H net t ->
  Forall (fun i => all_bytes (ti_script_sig i)) (sa_tx_ins t) ->
  ((exists t', SaplingTx_from_bytes H net (sa_bytes t) = Ok t' /\ same_sapling t t') <->
   exact_parts name (sa_tx_ins t) (sa_tx_outs t) /\ readable_size name (count (sa_tx_shielded_spends t)) /\
   (count (sa_tx_outs t) < 253 \/
    (sa_tx_joinsplits t = [] /\ sa_tx_shielded_spends t = [] /\ sa_tx_shielded_outputs t = []))).
Proof. intros H name net t En. exact (sapling_exact H name net En t). Qed.

(* Sprout: version 2 only, and an empty signature must not be followed by anything *)
Theorem sprout_read_itself : forall H name net t rest, get_network name = Ok net -> sprout_obj H net t ->
  Forall (fun i => all_bytes (ti_script_sig i)) (sp_tx_ins t) ->
  ((exists t', SproutTx_from_bytes H net (sp_bytes t ++ rest) = Ok t' /\ same_sprout t t') <->
   exact_parts name (sp_tx_ins t) (sp_tx_outs t) /\ le_value (sp_version t) = 2 /\ (rest = [] \/ sp_joinsplit_sig t <> Some [])).
Proof. intros H name net t rest En. exact (sprout_exact H name net En t rest). Qed.

(* Whatever follows: sufficient, and for inputs and outputs also necessary.  (With
   253 outputs or more and something behind the transaction, the JoinSplits are read
   from the wrong place, and can be the right ones by accident.) *)
Theorem overwinter_read_itself_rest : forall H name net t rest, get_network name = Ok net -> overwinter_obj H net t ->
  Forall (fun i => all_bytes (ti_script_sig i)) (ow_tx_ins t) ->
  (exact_parts name (ow_tx_ins t) (ow_tx_outs t) -> count (ow_tx_outs t) < 253 \/ ow_tx_joinsplits t = [] ->
   exists t', OverwinterTx_from_bytes H net (ow_bytes t ++ rest) = Ok t' /\ overwinter_obj H net t' /\ same_overwinter t t') /\
  (forall t', OverwinterTx_from_bytes H net (ow_bytes t ++ rest) = Ok t' -> same_overwinter t t' -> exact_parts name (ow_tx_ins t) (ow_tx_outs t)).
Proof.
  intros H name net t rest En O B. split.
  - exact (overwinter_exact_rest H name net En t rest O B).
  - intros t' E S. exact (overwinter_exact_inv H name net En t rest t' O B E S).
Qed.
Theorem sapling_read_itself_rest : forall H name net t rest, get_network name = Ok net -> sapling_obj H net t ->
  Forall (fun i => all_bytes (ti_script_sig i)) (sa_tx_ins t) ->
  (exact_parts name (sa_tx_ins t) (sa_tx_outs t) -> readable_size name (count (sa_tx_shielded_spends t)) ->
   count (sa_tx_outs t) < 253 \/ (sa_tx_joinsplits t = [] /\ sa_tx_shielded_spends t = [] /\ sa_tx_shielded_outputs t = []) ->
   exists t', SaplingTx_from_bytes H net (sa_bytes t ++ rest) = Ok t' /\ sapling_obj H net t' /\ same_sapling t t') /\
  (forall t', SaplingTx_from_bytes H net (sa_bytes t ++ rest) = Ok t' -> same_sapling t t' ->
   exact_parts name (sa_tx_ins t) (sa_tx_outs t) /\ readable_size name (count (sa_tx_shielded_spends t))).
Proof.
  intros H name net t rest En O B. split.
  - exact (sapling_exact_rest H name net En t rest O B).
  - intros t' E S. exact (sapling_exact_inv H name net En t rest t' O B E S).
Qed.

(* the condition of C42, C43 and C46 implies this one *)
Theorem parsable_parts_exact : forall name net ins outs, get_network name = Ok net -> Forall txin_obj ins ->
  Forall (fun i => all_bytes (ti_script_sig i)) ins -> parsable_parts name ins outs -> exact_parts name ins outs.
Proof.
  intros name net ins outs En Fi Bs [R1 [R2 [Pi Po]]]. split; [exact R1|]. split; [exact R2|]. split; [|exact Po].
  rewrite Forall_forall in *. intros i I. destruct (Pi i I) as [R K]. split; [exact R|].
  split; [apply (proj1 (txin_obj_iff i) (Fi i I))|]. destruct K as [C|K]; [left; exact C|right].
  destruct (list_eq_dec Z.eq_dec (in_script (the_input i)) []) as [Z|N].
  - left. exists []. split; [constructor|exact Z].
  - apply (survives_iff name net En _ (Bs i I)), (kept_split name net _ En K N).
Qed.

(** * Examples *)

Lemma ex_script_bytes : Forall (fun i => all_bytes (ti_script_sig i)) [PTx.ex_input].
Proof. constructor; [|constructor]. repeat constructor; discriminate. Qed.
Lemma ex_exact : forall name net n, get_network name = Ok net -> ~ 253 <= Z.of_nat n <= 255 -> exact_parts name [PTx.ex_input] (repeat ex_output n).
Proof.
  intros name net n En N. apply (parsable_parts_exact name net); [exact En|apply ex_parts|exact ex_script_bytes|apply ex_parsable, N].
Qed.

(* with a JoinSplit, with shielded parts, and with a JoinSplit in version 2 *)
Example overwinter_itself_ex : forall H, exists t, overwinter_obj H ZcashOverwinterMain t /\ ow_tx_joinsplits t <> [] /\
  exists t', OverwinterTx_from_bytes H ZcashOverwinterMain (ow_bytes t) = Ok t' /\ same_overwinter t t'.
Proof.
  intros H. destruct (ex_overwinter H) as [t [O [E1 [E2 E3]]]]. exists t. split; [exact O|]. split; [rewrite E3; discriminate|].
  apply (overwinter_read_itself H (lit "zcash_overwinter_main") ZcashOverwinterMain t eq_refl O); rewrite E1; [exact ex_script_bytes|].
  rewrite E2. split; [apply (ex_exact (lit "zcash_overwinter_main") ZcashOverwinterMain 1 eq_refl); lia|left; reflexivity].
Qed.
Example sapling_itself_ex : forall H, exists t, sapling_obj H ZcashSaplingMain t /\ sa_tx_shielded_spends t <> [] /\
  exists t', SaplingTx_from_bytes H ZcashSaplingMain (sa_bytes t) = Ok t' /\ same_sapling t t'.
Proof.
  intros H. destruct (ex_sapling H 2%nat ltac:(cbn; auto)) as [t [O [E1 [E2 [E3 _]]]]]. exists t. split; [exact O|]. split; [rewrite E3; discriminate|].
  apply (sapling_read_itself H (lit "zcash_sapling_main") ZcashSaplingMain t eq_refl O); rewrite E1; [exact ex_script_bytes|].
  rewrite E2, E3. split; [apply (ex_exact (lit "zcash_sapling_main") ZcashSaplingMain 2 eq_refl); lia|]. split; [right; unfold count; cbn [length]; lia|left; reflexivity].
Qed.
Example sprout_itself_ex : forall H, exists t, sprout_obj H ZcashSproutMain t /\ sp_tx_joinsplits t <> Some [] /\
  exists t', SproutTx_from_bytes H ZcashSproutMain (sp_bytes t ++ [1; 2; 3]) = Ok t' /\ same_sprout t t'.
Proof.
  intros H. destruct (ex_sprout H 2 ltac:(auto)) as [t [O [V [E1 [E2 [E3 [E4 _]]]]]]]. exists t. split; [exact O|]. split; [rewrite E3; discriminate|].
  apply (sprout_read_itself H (lit "zcash_sprout_main") ZcashSproutMain t _ eq_refl O); rewrite E1; [exact ex_script_bytes|].
  rewrite E2. split; [apply (ex_exact (lit "zcash_sprout_main") ZcashSproutMain 1 eq_refl); lia|auto].
Qed.

(* An Overwinter transaction that is not read as itself, although it has one output:
   the script sig pushes OP_2 in a longer form than needed *)
Definition ex_long_input : txin := txin_of {| op_tx_id := repeat 7 32; op_index := [1; 0; 0; 0]; op_bytes := repeat 7 32 ++ [1; 0; 0; 0] |} [81; 76; 1; 82] [] (repeat 255 4).
Example overwinter_not_itself_ex : forall H, exists t, overwinter_obj H ZcashOverwinterMain t /\ ow_tx_ins t = [ex_long_input] /\
  ~ exists t', OverwinterTx_from_bytes H ZcashOverwinterMain (ow_bytes t) = Ok t' /\ same_overwinter t t'.
Proof.
  intros H. destruct ex_parts as [_ [Fo _]].
  assert (Forall txin_obj [ex_long_input]) as Fi by (constructor; [|constructor]; split; vm_compute; reflexivity).
  destruct (overwinter_accepts H (lit "zcash_overwinter_main") ZcashOverwinterMain [ex_long_input] [ex_output] (repeat 0 4) (repeat 1 4) []
    None None eq_refl Fi Fo) as [A _]; [constructor|].
  destruct A as [t [_ [O [A1 [A2 [_ [_ [A3 _]]]]]]]].
  { split; [left; reflexivity|]. do 4 (split; [vm_compute; (reflexivity || discriminate)|]). split; [intros X; destruct X; reflexivity|].
    split; [left; discriminate|]. vm_compute. discriminate. }
  exists t. split; [exact O|]. split; [exact A1|]. intros X.
  assert (all_bytes [81; 76; 1; 82]) as B by (repeat constructor; discriminate).
  apply (overwinter_read_itself H (lit "zcash_overwinter_main") ZcashOverwinterMain t eq_refl O) in X; [|rewrite A1; constructor; [exact B|constructor]].
  destruct X as [[_ [_ [X _]]] _]. rewrite A1 in X. inversion X as [|? ? [_ [_ Y]] _]; subst. destruct Y as [[Y _]|Y]; [discriminate Y|].
  apply (script_sig_survives (lit "zcash_overwinter_main") ZcashOverwinterMain [81; 76; 1; 82] eq_refl B) in Y. destruct Y as [a [b [P E]]].
  assert (TxIn_parse_script_sig ZcashOverwinterMain [81; 76; 1; 82] = Ok ([81], [1; 82])) as P' by (vm_compute; reflexivity).
  pose proof (eq_trans (eq_sym P) P') as Z. apply Ok_inj in Z. injection Z as -> ->. discriminate E.
Qed.

Print Assumptions overwinter_read_itself.
Print Assumptions sapling_read_itself.
Print Assumptions sprout_read_itself.
Print Assumptions overwinter_read_itself_rest.
Print Assumptions sapling_read_itself_rest.
Print Assumptions parsable_parts_exact.
Print Assumptions overwinter_itself_ex.
Print Assumptions sapling_itself_ex.
Print Assumptions sprout_itself_ex.
Print Assumptions overwinter_not_itself_ex.
