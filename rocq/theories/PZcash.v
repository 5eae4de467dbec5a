(* C42, C43, C46: Zcash transactions of the three formats: what constructors
   accept, how they serialize, and that parsers read it back.  C51: hSig and
   primary inputs.  [overwinter_wire], [overwinter_rules], [same_overwinter] and
   their Sapling and Sprout versions are in SZcash.v. *)
From Coq Require Import String.
From Verif Require Import Py LBase MNet MUtils MShared MScript MTx MZcash SNum SNet SHash SScript STx SSig SZcash LUtils LNet LTx LZcash LZcashTx LSapling LSprout LZcashTop PTx.
Open Scope list_scope.
Open Scope Z_scope.

(** * Constructors *)

Theorem overwinter_accepts : forall H name net ins outs lock expiry js key sig, get_network name = Ok net ->
  Forall txin_obj ins -> Forall txout_obj outs -> Forall (sprout_joinsplit_obj net) js ->
  (overwinter_rules name ins outs lock expiry js key sig ->
   exists t, OverwinterTx H net ins outs lock expiry js key sig = Ok t /\ overwinter_obj H net t /\
     ow_tx_ins t = ins /\ ow_tx_outs t = outs /\ ow_lock_time t = lock /\ ow_expiry_height t = expiry /\
     ow_tx_joinsplits t = js /\ ow_joinsplit_pubkey t = needed js key /\ ow_joinsplit_sig t = needed js sig) /\
  (~ overwinter_rules name ins outs lock expiry js key sig -> OverwinterTx H net ins outs lock expiry js key sig = Err ValueError).
Proof. intros H name net ins outs lock expiry js key sig En. exact (overwinter_ctor H name net En ins outs lock expiry js key sig). Qed.
Print Assumptions overwinter_accepts.

(* a missing binding signature is not a ValueError *)
Theorem sapling_accepts : forall H name net ins outs lock expiry balance spends outputs js key sig binding, get_network name = Ok net ->
  Forall txin_obj ins -> Forall txout_obj outs -> Forall (spend_obj net) spends ->
  Forall (shielded_output_obj net) outputs -> Forall (sapling_joinsplit_obj net) js ->
  let rules := sapling_rules name ins outs lock expiry balance spends outputs js key sig binding in
  let made := SaplingTx H net ins outs lock expiry balance (Some spends) (Some outputs) (Some js) key sig binding in
  (rules ->
   exists t, made = Ok t /\ sapling_obj H net t /\
     sa_tx_ins t = ins /\ sa_tx_outs t = outs /\ sa_lock_time t = lock /\ sa_expiry_height t = expiry /\ sa_value_balance t = balance /\
     sa_tx_shielded_spends t = spends /\ sa_tx_shielded_outputs t = outputs /\
     sa_tx_joinsplits t = js /\ sa_joinsplit_pubkey t = needed js key /\ sa_joinsplit_sig t = needed js sig /\
     sa_binding_sig t = match spends, outputs with [], [] => None | _, _ => binding end) /\
  (~ rules -> made = Err ValueError \/ made = Err TypeError /\ binding = None /\ ~ (spends = [] /\ outputs = [])).
Proof.
  intros H name net ins outs lock expiry balance spends outputs js key sig binding En.
  exact (sapling_ctor H name net En ins outs lock expiry balance spends outputs js key sig binding).
Qed.
Print Assumptions sapling_accepts.

(* nor is a missing JoinSplit signature *)
Theorem sprout_accepts : forall H name net version ins outs lock js key sig, get_network name = Ok net ->
  all_bytes version -> Forall txin_obj ins -> Forall txout_obj outs -> Forall (sprout_joinsplit_obj net) js ->
  let rules := sprout_rules name version ins outs lock js key sig in
  let made := SproutTx H net (Some version) ins outs lock (Some js) key sig in
  (rules ->
   exists t, made = Ok t /\ sprout_obj H net t /\
     sp_version t = version /\ sp_tx_ins t = ins /\ sp_tx_outs t = outs /\ sp_lock_time t = lock /\ sp_tx_joinsplits t = Some js /\
     sp_joinsplit_pubkey t = (if le_value version =? 1 then None else key) /\
     sp_joinsplit_sig t = (if le_value version =? 1 then None else sig)) /\
  (~ rules -> made = Err ValueError \/ made = Err TypeError /\ version = le_bytes 4 2 /\ sig = None).
Proof.
  intros H name net version ins outs lock js key sig En. exact (sprout_ctor H name net En version ins outs lock js key sig).
Qed.
Print Assumptions sprout_accepts.

(* objects: with inputs only; with JoinSplits only *)
Definition ex_sprout_proof : sprout_zkproof :=
  match SproutZkproof ZcashOverwinterMain (repeat 1 33) (repeat 2 33) (repeat 3 65) (repeat 4 33) (repeat 5 33) (repeat 6 33) (repeat 7 33) (repeat 8 33) with
  | Ok p => p | Err _ => Build_sprout_zkproof [] [] [] [] [] [] [] [] [] end.
Definition ex_sprout_joinsplit : sprout_joinsplit :=
  match SproutJoinsplit ZcashOverwinterMain (repeat 0 8) (3 :: repeat 0 7) (repeat 9 32) (repeat 10 64) (repeat 11 64) (repeat 12 32) (repeat 13 32) (repeat 14 64) ex_sprout_proof (repeat 15 1202) with
  | Ok j => j | Err _ => Build_joinsplit _ [] [] [] [] [] [] [] [] ex_sprout_proof [] [] end.
Example ex_sprout_joinsplit_obj : sprout_joinsplit_obj ZcashOverwinterMain ex_sprout_joinsplit /\ sprout_joinsplit_obj ZcashSproutMain ex_sprout_joinsplit.
Proof. repeat split; vm_compute; reflexivity. Qed.
Example ex_parts : Forall txin_obj [ex_input] /\ Forall txout_obj [ex_output] /\ txin_obj ex_input /\ txout_obj ex_output.
Proof. repeat split; repeat constructor; vm_compute; reflexivity. Qed.
Lemma ex_overwinter : forall H, exists t, overwinter_obj H ZcashOverwinterMain t /\ ow_tx_ins t = [ex_input] /\ ow_tx_outs t = [ex_output] /\
  ow_tx_joinsplits t = [ex_sprout_joinsplit].
Proof.
  intros H. destruct ex_parts as [Fi [Fo _]]. destruct ex_sprout_joinsplit_obj as [J _].
  destruct (overwinter_accepts H (lit "zcash_overwinter_main") ZcashOverwinterMain [ex_input] [ex_output] (repeat 0 4) (repeat 1 4) [ex_sprout_joinsplit]
    (Some (repeat 2 32)) (Some (repeat 3 64)) eq_refl Fi Fo) as [A _]; [constructor; [exact J|constructor]|].
  destruct A as [t [_ [O [A1 [A2 [_ [_ [A3 _]]]]]]]]; [|exists t; auto].
  split; [left; reflexivity|]. do 4 (split; [vm_compute; (reflexivity || discriminate)|]). split; [intros _; split; eexists; split; reflexivity|].
  split; [left; discriminate|]. vm_compute. discriminate.
Qed.

(** * Serialization and identifiers *)

Theorem overwinter_format_ok : forall H name net t, get_network name = Ok net -> overwinter_obj H net t ->
  ow_bytes t = overwinter_wire t /\ ow_tx_id_le t = sha256d H (overwinter_wire t) /\ ow_tx_id t = rev (sha256d H (overwinter_wire t)).
Proof. intros H name net t En O. destruct (overwinter_format H name net En t O) as [A [B [C _]]]. auto. Qed.
Print Assumptions overwinter_format_ok.
Theorem sapling_format_ok : forall H name net t, get_network name = Ok net -> sapling_obj H net t ->
  sa_bytes t = sapling_wire t /\ sa_tx_id_le t = sha256d H (sapling_wire t) /\ sa_tx_id t = rev (sha256d H (sapling_wire t)).
Proof. intros H name net t En O. destruct (sapling_format H name net En t O) as [A [B [C _]]]. auto. Qed.
Print Assumptions sapling_format_ok.
Theorem sprout_format_ok : forall H name net t, get_network name = Ok net -> sprout_obj H net t ->
  sp_bytes t = sprout_wire t /\ sp_tx_id_le t = sha256d H (sprout_wire t) /\ sp_tx_id t = rev (sha256d H (sprout_wire t)).
Proof. intros H name net t En O. destruct (sprout_format H name net En t O) as [A [B [C _]]]. auto. Qed.
Print Assumptions sprout_format_ok.

(* C51 *)
Theorem hsigs_and_primary_inputs : forall H name net, get_network name = Ok net ->
  (forall t, overwinter_obj H net t ->
     ow_hsigs t = map (hsig_of H (opt (ow_joinsplit_pubkey t))) (ow_tx_joinsplits t) /\
     ow_primary_inputs t = map (primary_of H (opt (ow_joinsplit_pubkey t))) (ow_tx_joinsplits t)) /\
  (forall t, sapling_obj H net t ->
     sa_hsigs t = map (hsig_of H (opt (sa_joinsplit_pubkey t))) (sa_tx_joinsplits t) /\
     sa_primary_inputs t = map (primary_of H (opt (sa_joinsplit_pubkey t))) (sa_tx_joinsplits t)) /\
  (forall t, sprout_obj H net t ->
     sp_hsigs t = map (hsig_of H (opt (sp_joinsplit_pubkey t))) (opts (sp_tx_joinsplits t)) /\
     sp_primary_inputs t = map (primary_of H (opt (sp_joinsplit_pubkey t))) (opts (sp_tx_joinsplits t))).
Proof.
  intros H name net En. repeat split; intros; try (eapply overwinter_format; eauto); try (eapply sapling_format; eauto); eapply sprout_format; eauto.
Qed.
Print Assumptions hsigs_and_primary_inputs.
(* the objects above have JoinSplits, and transactions that differ in the key only
   have different inputs to the hash *)
Example hsigs_ex : forall H, exists t, overwinter_obj H ZcashOverwinterMain t /\ length (ow_hsigs t) = 1%nat.
Proof.
  intros H. destruct (ex_overwinter H) as [t [O [_ [_ J]]]]. exists t. split; [exact O|].
  destruct (hsigs_and_primary_inputs H (lit "zcash_overwinter_main") _ eq_refl) as [A _]. destruct (A t O) as [-> _]. rewrite J. reflexivity.
Qed.

(** * Parsing one's own serialization *)

(* C42: from_bytes reads back what was serialized, for fewer than 253 outputs, or
   without JoinSplits; trailing bytes are ignored *)
Theorem overwinter_roundtrip_partial : forall H name net t rest, get_network name = Ok net -> overwinter_obj H net t ->
  parsable_parts name (ow_tx_ins t) (ow_tx_outs t) ->
  count (ow_tx_outs t) < 253 \/ ow_tx_joinsplits t = [] ->
  exists t', OverwinterTx_from_bytes H net (ow_bytes t ++ rest) = Ok t' /\ overwinter_obj H net t' /\ same_overwinter t t'.
Proof. intros H name net. exact (overwinter_parse H net name). Qed.
Print Assumptions overwinter_roundtrip_partial.
(* C43 *)
Theorem sapling_roundtrip_partial : forall H name net t rest, get_network name = Ok net -> sapling_obj H net t ->
  parsable_parts name (sa_tx_ins t) (sa_tx_outs t) -> readable_size name (count (sa_tx_shielded_spends t)) ->
  count (sa_tx_outs t) < 253 \/ sa_tx_joinsplits t = [] /\ sa_tx_shielded_spends t = [] /\ sa_tx_shielded_outputs t = [] ->
  exists t', SaplingTx_from_bytes H net (sa_bytes t ++ rest) = Ok t' /\ sapling_obj H net t' /\ same_sapling t t'.
Proof. intros H name net. exact (sapling_parse H net name). Qed.
Print Assumptions sapling_roundtrip_partial.
(* C46: version 2 only *)
Theorem sprout_roundtrip_partial : forall H name net t rest, get_network name = Ok net -> sprout_obj H net t ->
  parsable_parts name (sp_tx_ins t) (sp_tx_outs t) -> le_value (sp_version t) = 2 -> rest = [] \/ sp_joinsplit_sig t <> Some [] ->
  exists t', SproutTx_from_bytes H net (sp_bytes t ++ rest) = Ok t' /\ sprout_obj H net t' /\ same_sprout t t'.
Proof. intros H name net. exact (sprout_parse H net name). Qed.
Print Assumptions sprout_roundtrip_partial.
Lemma ex_parsable : forall name n, ~ 253 <= Z.of_nat n <= 255 ->
  parsable_parts name [ex_input] (repeat ex_output n).
Proof.
  intros name n Hn. assert (readable_size name 1) as R1 by (right; lia). split; [exact R1|].
  split; [right; unfold count; rewrite repeat_length; exact Hn|]. split.
  - constructor; [|constructor]. split; [exact R1|]. right. left. exists [Op 0 (lit "OP_0")]. split; [|reflexivity].
    constructor; [|constructor]. split; [|lia]. unfold opcodes_of. destruct in_dec; vm_compute; left; reflexivity.
  - apply Forall_forall. intros o I. apply repeat_spec in I. subst. vm_compute. reflexivity.
Qed.
Example overwinter_roundtrip_ex : forall H, exists t, overwinter_obj H ZcashOverwinterMain t /\
  parsable_parts (lit "zcash_overwinter_main") (ow_tx_ins t) (ow_tx_outs t) /\ count (ow_tx_outs t) < 253 /\ ow_tx_joinsplits t <> [].
Proof.
  intros H. destruct (ex_overwinter H) as [t [O [E1 [E2 E3]]]]. exists t. split; [exact O|]. rewrite E1, E2, E3.
  split; [apply (ex_parsable _ 1); lia|split; [reflexivity|discriminate]].
Qed.

(* C42, C43: with more outputs and JoinSplits or shielded parts the parser fails:
   it advances by the wrong count *)
Theorem overwinter_many_outputs : forall H name net t, get_network name = Ok net -> overwinter_obj H net t ->
  parsable_parts name (ow_tx_ins t) (ow_tx_outs t) ->
  253 <= count (ow_tx_outs t) -> ow_tx_joinsplits t <> [] ->
  OverwinterTx_from_bytes H net (ow_bytes t) = Err ValueError.
Proof. intros H name net. exact (overwinter_misparse H net name). Qed.
Print Assumptions overwinter_many_outputs.
Theorem sapling_many_outputs : forall H name net t, get_network name = Ok net -> sapling_obj H net t ->
  parsable_parts name (sa_tx_ins t) (sa_tx_outs t) -> readable_size name (count (sa_tx_shielded_spends t)) ->
  253 <= count (sa_tx_outs t) -> ~ (sa_tx_joinsplits t = [] /\ sa_tx_shielded_spends t = [] /\ sa_tx_shielded_outputs t = []) ->
  SaplingTx_from_bytes H net (sa_bytes t) = Err ValueError.
Proof. intros H name net. exact (sapling_misparse H net name). Qed.
Print Assumptions sapling_many_outputs.

Theorem overwinter_roundtrip_refuted : forall H, exists t, overwinter_obj H ZcashOverwinterMain t /\
  OverwinterTx_from_bytes H ZcashOverwinterMain (ow_bytes t) = Err ValueError.
Proof.
  intros H. destruct ex_parts as [Fi [_ [_ Oo]]]. destruct ex_sprout_joinsplit_obj as [J _].
  destruct (overwinter_accepts H (lit "zcash_overwinter_main") ZcashOverwinterMain [ex_input] (repeat ex_output 256) (repeat 0 4) (repeat 1 4) [ex_sprout_joinsplit]
    (Some (repeat 2 32)) (Some (repeat 3 64)) eq_refl Fi) as [A _].
  { apply Forall_forall. intros o I. apply repeat_spec in I. subst. exact Oo. }
  { constructor; [exact J|constructor]. }
  destruct A as [t [_ [O [A1 [A2 [_ [_ [A3 _]]]]]]]].
  { split; [left; reflexivity|]. do 4 (split; [vm_compute; (reflexivity || discriminate)|]). split; [intros _; split; eexists; split; reflexivity|].
    split; [left; discriminate|]. vm_compute. discriminate. }
  exists t. split; [exact O|]. apply (overwinter_many_outputs H (lit "zcash_overwinter_main")); [reflexivity|exact O|rewrite A1, A2; apply ex_parsable; lia|rewrite A2; vm_compute; discriminate|].
  rewrite A3. discriminate.
Qed.
Print Assumptions overwinter_roundtrip_refuted.

Definition ex_sapling_proof : sapling_zkproof :=
  match SaplingZkproof ZcashSaplingMain (repeat 1 48) (repeat 2 96) (repeat 3 48) with Ok p => p | Err _ => Build_sapling_zkproof [] [] [] [] end.
Definition ex_spend : shielded_spend :=
  match SaplingShieldedSpend ZcashSaplingMain (repeat 4 32) (repeat 5 32) (repeat 6 32) (repeat 7 32) ex_sapling_proof (repeat 8 64) with
  | Ok s => s | Err _ => Build_shielded_spend [] [] [] [] ex_sapling_proof [] [] end.
Definition ex_shielded_output : shielded_output :=
  match SaplingShieldedOutput ZcashSaplingMain (repeat 4 32) (repeat 5 32) (repeat 6 32) (repeat 7 580) (repeat 8 80) ex_sapling_proof with
  | Ok s => s | Err _ => Build_shielded_output [] [] [] [] [] ex_sapling_proof [] end.
Example ex_spend_obj : spend_obj ZcashSaplingMain ex_spend /\ shielded_output_obj ZcashSaplingMain ex_shielded_output.
Proof. repeat split; vm_compute; reflexivity. Qed.
Lemma ex_sapling : forall H n, In n [1; 2; 256]%nat -> exists t, sapling_obj H ZcashSaplingMain t /\ sa_tx_ins t = [ex_input] /\ sa_tx_outs t = repeat ex_output n /\
  sa_tx_shielded_spends t = [ex_spend] /\ sa_tx_shielded_outputs t = [ex_shielded_output] /\ sa_tx_joinsplits t = [].
Proof.
  intros H n Hn. destruct ex_parts as [Fi [_ [_ Oo]]]. destruct ex_spend_obj as [S U].
  destruct (sapling_accepts H (lit "zcash_sapling_main") ZcashSaplingMain [ex_input] (repeat ex_output n) (repeat 0 4) (repeat 1 4) (repeat 255 8) [ex_spend] [ex_shielded_output] []
    None None (Some (repeat 3 64)) eq_refl Fi) as [A _].
  { apply Forall_forall. intros o I. apply repeat_spec in I. subst. exact Oo. }
  { constructor; [exact S|constructor]. }
  { constructor; [exact U|constructor]. }
  { constructor. }
  destruct A as [t [_ [O [A1 [A2 [_ [_ [_ [A3 [A4 [A5 _]]]]]]]]]]]; [|exists t; split; [exact O|]; repeat split; assumption].
  split; [left; reflexivity|]. do 4 (split; [vm_compute; (reflexivity || discriminate)|]). split; [discriminate|].
  split; [intros _; eexists; split; reflexivity|]. split; [right; eexists; split; reflexivity|]. split; [vm_compute; discriminate|].
  split; [contradiction|]. split; [left; discriminate|].
  destruct Hn as [<-|[<-|[<-|[]]]]; vm_compute; discriminate.
Qed.
Example sapling_roundtrip_ex : forall H, exists t, sapling_obj H ZcashSaplingMain t /\
  parsable_parts (lit "zcash_sapling_main") (sa_tx_ins t) (sa_tx_outs t) /\ readable_size (lit "zcash_sapling_main") (count (sa_tx_shielded_spends t)) /\
  count (sa_tx_outs t) < 253 /\ sa_tx_shielded_outputs t <> [].
Proof.
  intros H. destruct (ex_sapling H 2%nat ltac:(cbn; auto)) as [t [O [E1 [E2 [E3 [E4 _]]]]]]. exists t. split; [exact O|]. rewrite E1, E2, E3, E4.
  split; [apply ex_parsable; lia|]. split; [right; vm_compute; intros [X _]; apply X; reflexivity|]. split; [reflexivity|discriminate].
Qed.
Theorem sapling_roundtrip_refuted : forall H, exists t, sapling_obj H ZcashSaplingMain t /\
  SaplingTx_from_bytes H ZcashSaplingMain (sa_bytes t) = Err ValueError.
Proof.
  intros H. destruct (ex_sapling H 256%nat ltac:(cbn; auto)) as [t [O [E1 [E2 [E3 [E4 _]]]]]]. exists t. split; [exact O|].
  apply (sapling_many_outputs H (lit "zcash_sapling_main")); [reflexivity|exact O|rewrite E1, E2; apply ex_parsable; lia| |rewrite E2; vm_compute; discriminate|].
  - rewrite E3. right. vm_compute. intros [X _]. apply X. reflexivity.
  - rewrite E3. intros [_ [X _]]. discriminate.
Qed.
Print Assumptions sapling_roundtrip_refuted.

(* C46: a version 1 transaction is never read back, and nothing is ever read as version 1 *)
Theorem sprout_version1 : forall H name net t rest, get_network name = Ok net -> sprout_obj H net t ->
  parsable_parts name (sp_tx_ins t) (sp_tx_outs t) -> le_value (sp_version t) = 1 ->
  SproutTx_from_bytes H net (sp_bytes t ++ rest) = Err TypeError.
Proof. intros H name net. exact (sprout_v1 H net name). Qed.
Print Assumptions sprout_version1.
Theorem sprout_reads_version2 : forall H net s t, SproutTx_from_bytes H net s = Ok t -> le_value (firstn 4 s) = 2.
Proof. intros H net s t E. rewrite <- (sprout_v1_never H net s t E), slice_firstn by lia. reflexivity. Qed.
Print Assumptions sprout_reads_version2.
Lemma ex_sprout : forall H n, (n = 1 \/ n = 2) -> exists t, sprout_obj H ZcashSproutMain t /\ le_value (sp_version t) = n /\ sp_tx_ins t = [ex_input] /\ sp_tx_outs t = [ex_output] /\
  sp_tx_joinsplits t = Some (if n =? 1 then [] else [ex_sprout_joinsplit]) /\ sp_joinsplit_sig t <> Some [] /\ sp_lock_time t = repeat 0 4 /\ sp_version t = le_bytes 4 n /\
  sp_joinsplit_pubkey t = (if n =? 1 then None else Some (repeat 2 32)).
Proof.
  intros H n N. destruct ex_parts as [Fi [Fo _]]. destruct ex_sprout_joinsplit_obj as [_ J].
  destruct (sprout_accepts H (lit "zcash_sprout_main") ZcashSproutMain (le_bytes 4 n) [ex_input] [ex_output] (repeat 0 4) (if n =? 1 then [] else [ex_sprout_joinsplit])
    (Some (repeat 2 32)) (Some (repeat 3 64)) eq_refl) as [A _].
  { apply all_bytes_is_bytes, LScript.le_bytes_is_bytes. }
  { exact Fi. }
  { exact Fo. }
  { destruct N; subst; repeat constructor; apply J. }
  destruct A as [t [_ [O [A1 [A2 [A3 [A4 [A5 [A6 A7]]]]]]]]].
  { split; [left; reflexivity|]. split; [reflexivity|]. split; [|destruct N; subst; vm_compute; discriminate].
    destruct N; subst; [left|right]; (split; [reflexivity|]); (split; [vm_compute; (reflexivity || discriminate)|]); [discriminate|].
    split; [|right]; eexists; split; reflexivity. }
  exists t. split; [exact O|]. rewrite A1, A2, A3, A4, A5, A6, A7. destruct N; subst; repeat split; discriminate.
Qed.
Example sprout_roundtrip_ex : forall H, exists t, sprout_obj H ZcashSproutMain t /\
  parsable_parts (lit "zcash_sprout_main") (sp_tx_ins t) (sp_tx_outs t) /\ le_value (sp_version t) = 2 /\ sp_joinsplit_sig t <> Some [].
Proof.
  intros H. destruct (ex_sprout H 2 ltac:(auto)) as [t [O [V [E1 [E2 [_ [E3 _]]]]]]]. exists t. split; [exact O|]. rewrite E1, E2.
  split; [apply (ex_parsable _ 1); lia|auto].
Qed.
Theorem sprout_roundtrip_refuted : forall H, exists t, sprout_obj H ZcashSproutMain t /\ sp_version t = [1; 0; 0; 0] /\
  SproutTx_from_bytes H ZcashSproutMain (sp_bytes t) = Err TypeError.
Proof.
  intros H. destruct (ex_sprout H 1 ltac:(auto)) as [t [O [V [E1 [E2 [_ [_ [_ [E _]]]]]]]]]. exists t. split; [exact O|]. split; [exact E|].
  rewrite <- (app_nil_r (sp_bytes t)). apply (sprout_version1 H (lit "zcash_sprout_main")); [reflexivity|exact O|rewrite E1, E2; apply (ex_parsable _ 1); lia|exact V].
Qed.
Print Assumptions sprout_roundtrip_refuted.
