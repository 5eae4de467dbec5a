(* C70: which truncated serializations of Zcash transactions are accepted *)
From Coq Require Import String.
From Verif Require Import Py LBase MNet MUtils MShared MScript MTx MZcash SHash SNum SNet STx SZcash STrunc LTx LZcashTx LSapling LSprout LZTrunc PTx PZcash PCopy.
Open Scope list_scope.
Open Scope Z_scope.

(** * Overwinter *)

(* only what ends right behind the expiry height is accepted *)
Theorem overwinter_truncated : forall H name net t p, get_network name = Ok net -> overwinter_obj H net t ->
  parsable_parts name (ow_tx_ins t) (ow_tx_outs t) -> count (ow_tx_outs t) < 253 \/ ow_tx_joinsplits t = [] ->
  cut p (ow_bytes t) ->
  ((exists t', OverwinterTx_from_bytes H net p = Ok t') <->
   ow_tx_ins t <> [] /\
   p = overwinter_header ++ inputs_wire (ow_tx_ins t) ++ outputs_wire (ow_tx_outs t) ++ ow_lock_time t ++ ow_expiry_height t).
Proof.
  intros H name net t p En O P C [q [Q E]]. split.
  - intros [t' T]. exact (Overwinter_cut H name net t p q t' En O P C Q E T).
  - intros [N ->]. destruct (Overwinter_cut_accepted H name net t En O P N) as [t' [T _]]. exists t'. exact T.
Qed.
Print Assumptions overwinter_truncated.

(* and is read as the transaction without its JoinSplits *)
Theorem overwinter_truncated_result : forall H name net t p t', get_network name = Ok net -> overwinter_obj H net t ->
  parsable_parts name (ow_tx_ins t) (ow_tx_outs t) -> count (ow_tx_outs t) < 253 \/ ow_tx_joinsplits t = [] ->
  cut p (ow_bytes t) -> OverwinterTx_from_bytes H net p = Ok t' ->
  overwinter_obj H net t' /\ map the_input (ow_tx_ins t') = map the_input (ow_tx_ins t) /\ ow_tx_outs t' = ow_tx_outs t /\
  ow_lock_time t' = ow_lock_time t /\ ow_expiry_height t' = ow_expiry_height t /\ ow_tx_joinsplits t' = [].
Proof.
  intros H name net t p t' En O P C [q [Q E]] T. destruct (Overwinter_cut H name net t p q t' En O P C Q E T) as [N ->].
  destruct (Overwinter_cut_accepted H name net t En O P N) as [t1 [T1 R]]. assert (t1 = t') as -> by congruence. exact R.
Qed.
Print Assumptions overwinter_truncated_result.

(* a transaction with a JoinSplit, a cut that loses it, and a cut that is refused *)
Example overwinter_truncated_ex : forall H, exists t p p' t', overwinter_obj H ZcashOverwinterMain t /\
  parsable_parts (lit "zcash_overwinter_main") (ow_tx_ins t) (ow_tx_outs t) /\ count (ow_tx_outs t) < 253 /\ ow_tx_joinsplits t <> [] /\
  cut p (ow_bytes t) /\ OverwinterTx_from_bytes H ZcashOverwinterMain p = Ok t' /\ ow_tx_joinsplits t' = [] /\ len p + 1899 = len (ow_bytes t) /\
  cut p' (ow_bytes t) /\ (forall t'', OverwinterTx_from_bytes H ZcashOverwinterMain p' <> Ok t'') /\ len p' + 1 = len (ow_bytes t).
Proof.
  intros H. destruct (ex_overwinter H) as [t [O [E1 [E2 E3]]]].
  assert (parsable_parts (lit "zcash_overwinter_main") (ow_tx_ins t) (ow_tx_outs t)) as P by (rewrite E1, E2; apply (ex_parsable _ 1); lia).
  destruct (Overwinter_cut_accepted H (lit "zcash_overwinter_main") ZcashOverwinterMain t eq_refl O P) as [t' [T [_ [_ [_ [_ [_ J]]]]]]]; [rewrite E1; discriminate|].
  set (q := joinsplits_wire sprout_joinsplit_wire (ow_tx_joinsplits t) (ow_joinsplit_pubkey t) (ow_joinsplit_sig t)).
  assert (ow_bytes t = ow_head t ++ q) as B.
  { rewrite (overwinter_bytes H _ t O). unfold q, overwinter_wire, overwinter_layout, ow_head. rewrite <- !app_assoc. reflexivity. }
  assert (zlen q = 1899) as Lq.
  { destruct (overwinter_keys H _ t O) as [_ K]. destruct K as [K1 K2]; [rewrite E3; discriminate|].
    unfold q, joinsplits_wire. rewrite !zlen_app, K1, K2, E3. reflexivity. }
  exists t, (ow_head t), (ow_head t ++ firstn 1898 q), t'. split; [exact O|]. split; [exact P|]. split; [rewrite E2; reflexivity|]. split; [rewrite E3; discriminate|].
  split; [exists q; split; [intros X; rewrite X in Lq; discriminate|exact B]|]. split; [exact T|]. split; [exact J|].
  split; [change len with (@zlen Z); rewrite B, zlen_app; lia|].
  assert (count (ow_tx_outs t) < 253) as No by (rewrite E2; reflexivity).
  assert (length q = Z.to_nat 1899) as Ln by (unfold zlen in Lq; lia).
  assert (cut (ow_head t ++ firstn 1898 q) (ow_bytes t)) as C.
  { exists (skipn 1898 q). split.
    - intros X. apply (f_equal (@length Z)) in X. rewrite skipn_length, Ln in X. discriminate X.
    - rewrite B, <- app_assoc, firstn_skipn. reflexivity. }
  split; [exact C|]. split.
  - intros t'' T''. destruct (overwinter_truncated H (lit "zcash_overwinter_main") ZcashOverwinterMain t _ eq_refl O P (or_introl No) C) as [A _].
    destruct A as [_ A]; [eauto|]. change (ow_head t ++ firstn 1898 q = ow_head t) in A.
    apply (f_equal zlen) in A. rewrite zlen_app in A. assert (zlen (firstn 1898 q) = 1898); [|lia]. unfold zlen. rewrite firstn_length, Ln. reflexivity.
  - change len with (@zlen Z). rewrite B, !zlen_app, Lq. unfold zlen. rewrite firstn_length, Ln. change (Z.of_nat (Nat.min 1898 (Z.to_nat 1899))) with 1898. lia.
Qed.

(** * Sapling: every truncation is refused *)

Theorem sapling_truncated : forall H name net t p, get_network name = Ok net -> sapling_obj H net t ->
  parsable_parts name (sa_tx_ins t) (sa_tx_outs t) -> readable_size name (count (sa_tx_shielded_spends t)) ->
  count (sa_tx_outs t) < 253 \/ sa_tx_joinsplits t = [] /\ sa_tx_shielded_spends t = [] /\ sa_tx_shielded_outputs t = [] ->
  cut p (sa_bytes t) -> exists e, SaplingTx_from_bytes H net p = Err e.
Proof.
  intros H name net t p En O P R C [q [Q E]]. destruct (SaplingTx_from_bytes H net p) as [t'|e] eqn:T; [|eauto].
  destruct (Sapling_cut H name net t p q t' En O P R C Q E T).
Qed.
Print Assumptions sapling_truncated.
Example sapling_truncated_ex : forall H, exists t p, sapling_obj H ZcashSaplingMain t /\
  parsable_parts (lit "zcash_sapling_main") (sa_tx_ins t) (sa_tx_outs t) /\ readable_size (lit "zcash_sapling_main") (count (sa_tx_shielded_spends t)) /\
  count (sa_tx_outs t) < 253 /\ sa_tx_shielded_spends t <> [] /\ cut p (sa_bytes t).
Proof.
  intros H. destruct ex_parts as [Fi [Fo _]]. destruct ex_spend_obj as [S U].
  set (t := sa_of H ZcashSaplingMain [ex_input] [ex_output] (repeat 0 4) (repeat 1 4) (repeat 255 8) [ex_spend] [ex_shielded_output] [] None None (Some (repeat 3 64))).
  exists t, (removelast (sa_bytes t)). split.
  { split; [exact Fi|]. split; [exact Fo|]. split; [repeat constructor; apply S|]. split; [repeat constructor; apply U|]. split; [constructor|].
    apply SaplingTx_Ok. split; [vm_compute; reflexivity|reflexivity]. }
  split; [apply (ex_parsable _ 1); lia|]. split; [right; cbn; lia|]. split; [reflexivity|]. split; [discriminate|].
  exists [last (sa_bytes t) 0]. split; [discriminate|]. apply app_removelast_last. discriminate.
Qed.

(** * Sprout *)

(* only a version 2 transaction that lacks exactly its signature is accepted *)
Theorem sprout_truncated : forall H name net t p, get_network name = Ok net -> sprout_obj H net t ->
  parsable_parts name (sp_tx_ins t) (sp_tx_outs t) -> cut p (sp_bytes t) ->
  ((exists t', SproutTx_from_bytes H net p = Ok t') <->
   exists sg, sp_joinsplit_sig t = Some sg /\ sp_bytes t = p ++ sg).
Proof.
  intros H name net t p En O P [q [Q E]]. split.
  - intros [t' T]. destruct (Sprout_cut H name net t p q t' En O P Q E T) as [S _]. exists q. split; [exact S|exact E].
  - intros [sg [S E']]. assert (sg = q) as -> by (rewrite E in E'; apply app_inv_head in E'; congruence).
    destruct (Sprout_cut_accepted H name net t p q En O P S Q E) as [t' [T _]]. exists t'. exact T.
Qed.
Print Assumptions sprout_truncated.

(* and is read as the transaction without signature *)
Theorem sprout_truncated_result : forall H name net t p t', get_network name = Ok net -> sprout_obj H net t ->
  parsable_parts name (sp_tx_ins t) (sp_tx_outs t) -> cut p (sp_bytes t) -> SproutTx_from_bytes H net p = Ok t' ->
  sprout_obj H net t' /\ sp_bytes t' = p /\ sp_version t' = sp_version t /\ le_value (sp_version t) = 2 /\
  map the_input (sp_tx_ins t') = map the_input (sp_tx_ins t) /\ sp_tx_outs t' = sp_tx_outs t /\ sp_lock_time t' = sp_lock_time t /\
  sp_tx_joinsplits t' = sp_tx_joinsplits t /\ sp_joinsplit_pubkey t' = sp_joinsplit_pubkey t /\ sp_joinsplit_sig t' = Some [].
Proof.
  intros H name net t p t' En O P [q [Q E]] T. destruct (Sprout_cut H name net t p q t' En O P Q E T) as [S [_ V]].
  destruct (Sprout_cut_accepted H name net t p q En O P S Q E) as [t1 [T1 R]]. assert (t1 = t') as -> by congruence. tauto.
Qed.
Print Assumptions sprout_truncated_result.
Example sprout_truncated_ex : forall H, exists t p t', sprout_obj H ZcashSproutMain t /\ parsable_parts (lit "zcash_sprout_main") (sp_tx_ins t) (sp_tx_outs t) /\
  cut p (sp_bytes t) /\ len p + 64 = len (sp_bytes t) /\ SproutTx_from_bytes H ZcashSproutMain p = Ok t' /\
  sp_joinsplit_sig t = Some (repeat 3 64) /\ sp_joinsplit_sig t' = Some [].
Proof.
  intros H. destruct ex_parts as [Fi [Fo _]]. destruct ex_sprout_joinsplit_obj as [_ J].
  assert (all_bytes [2; 0; 0; 0]) as B by (repeat constructor; lia).
  set (t := sp_of H ZcashSproutMain [2; 0; 0; 0] [ex_input] [ex_output] (repeat 0 4) [ex_sprout_joinsplit] (Some (repeat 2 32)) (Some (repeat 3 64))).
  assert (sprout_obj H ZcashSproutMain t) as O.
  { apply sprout_obj_iff. exists [ex_sprout_joinsplit]. split; [exact B|]. split; [exact Fi|]. split; [exact Fo|]. split; [reflexivity|].
    split; [repeat constructor; apply J|]. split; [vm_compute; reflexivity|reflexivity]. }
  set (p := firstn (length (sp_bytes t) - 64) (sp_bytes t)). assert (sp_bytes t = p ++ repeat 3 64) as E by reflexivity.
  assert (parsable_parts (lit "zcash_sprout_main") (sp_tx_ins t) (sp_tx_outs t)) as P by (apply (ex_parsable _ 1); lia).
  destruct (Sprout_cut_accepted H (lit "zcash_sprout_main") ZcashSproutMain t p (repeat 3 64) eq_refl O P eq_refl) as [t' R]; [discriminate|exact E|].
  exists t, p, t'. split; [exact O|]. split; [exact P|]. split; [exists (repeat 3 64); split; [discriminate|exact E]|].
  split; [rewrite E; change len with (@zlen Z); rewrite zlen_app; reflexivity|]. split; [apply R|]. split; [reflexivity|]. apply R.
Qed.

(* so truncation is not always refused *)
Theorem zcash_truncated_refuted : forall H,
  (exists t p t', overwinter_obj H ZcashOverwinterMain t /\ cut p (ow_bytes t) /\ OverwinterTx_from_bytes H ZcashOverwinterMain p = Ok t') /\
  (exists t p t', sprout_obj H ZcashSproutMain t /\ cut p (sp_bytes t) /\ SproutTx_from_bytes H ZcashSproutMain p = Ok t').
Proof.
  intros H. split.
  - destruct (overwinter_truncated_ex H) as [t [p [_ [t' [O [_ [_ [_ [C [T _]]]]]]]]]]. exists t, p, t'. auto.
  - destruct (sprout_truncated_ex H) as [t [p [t' [O [_ [C [_ [T _]]]]]]]]. exists t, p, t'. auto.
Qed.
Print Assumptions zcash_truncated_refuted.
