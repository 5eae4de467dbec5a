(* C88: parsing what a Zcash parser accepted *)
From Coq Require Import String.
From Verif Require Import Py LBase MNet MUtils MShared MScript MTx MZcash SHash SNum SNet STx SZcash SIdem LTx LTxParse LZcashTx LSapling LSprout LIdem LIdemErr LZIdem PZcash.
Open Scope list_scope.
Open Scope Z_scope.

(* Whatever the bytes that were accepted as an Overwinter transaction, the result is an
   object of the constructor. Its own bytes give the very same object, also with anything
   behind them, unless a script sig has 253 to 255 bytes, or there are JoinSplits and more
   than 252 outputs: then they are refused *)
Theorem overwinter_reparse : forall H name net b t, get_network name = Ok net -> all_bytes b -> OverwinterTx_from_bytes H net b = Ok t ->
  overwinter_obj H net t /\
  (readable_scripts name (map the_input (ow_tx_ins t)) ->
     (count (ow_tx_outs t) < 253 \/ ow_tx_joinsplits t = [] -> forall rest, OverwinterTx_from_bytes H net (ow_bytes t ++ rest) = Ok t) /\
     (253 <= count (ow_tx_outs t) -> ow_tx_joinsplits t <> [] -> OverwinterTx_from_bytes H net (ow_bytes t) = Err ValueError)) /\
  (~ readable_scripts name (map the_input (ow_tx_ins t)) -> forall rest, OverwinterTx_from_bytes H net (ow_bytes t ++ rest) = Err ValueError).
Proof.
  intros H name net b t En B E. destruct (Overwinter_read H name net b t En B E) as [O [_ R]]. split; [exact O|]. split.
  - intros P. split; [intros C rest; apply (Overwinter_again H name net b t rest En B E P C)|].
    intros C J. apply (overwinter_misparse_as H net name t _ En O (R P) C J).
  - intros P rest. apply (Overwinter_refused H name net b t rest En B E P).
Qed.
Print Assumptions overwinter_reparse.

(* The same for Sapling, where any shielded part at all makes the difference *)
Theorem sapling_reparse : forall H name net b t, get_network name = Ok net -> all_bytes b -> SaplingTx_from_bytes H net b = Ok t ->
  let transparent_only := sa_tx_joinsplits t = [] /\ sa_tx_shielded_spends t = [] /\ sa_tx_shielded_outputs t = [] in
  sapling_obj H net t /\
  (readable_scripts name (map the_input (sa_tx_ins t)) ->
     (count (sa_tx_outs t) < 253 \/ transparent_only -> forall rest, SaplingTx_from_bytes H net (sa_bytes t ++ rest) = Ok t) /\
     (253 <= count (sa_tx_outs t) -> ~ transparent_only -> SaplingTx_from_bytes H net (sa_bytes t) = Err ValueError)) /\
  (~ readable_scripts name (map the_input (sa_tx_ins t)) -> forall rest, SaplingTx_from_bytes H net (sa_bytes t ++ rest) = Err ValueError).
Proof.
  intros H name net b t En B E tr. destruct (Sapling_read H name net b t En B E) as [O [Rs [_ R]]]. split; [exact O|]. split.
  - intros P. split; [intros C rest; apply (Sapling_again H name net b t rest En B E P C)|].
    intros C J. apply (sapling_misparse_as H net name t _ En O (R P) Rs C J).
  - intros P rest. apply (Sapling_refused H name net b t rest En B E P).
Qed.
Print Assumptions sapling_reparse.

(* Sprout needs no condition; only the empty signature ends the bytes *)
Theorem sprout_reparse : forall H name net b t, get_network name = Ok net -> all_bytes b -> SproutTx_from_bytes H net b = Ok t ->
  sprout_obj H net t /\ le_value (sp_version t) = 2 /\ SproutTx_from_bytes H net (sp_bytes t) = Ok t /\
  (sp_joinsplit_sig t <> Some [] -> forall rest, SproutTx_from_bytes H net (sp_bytes t ++ rest) = Ok t).
Proof.
  intros H name net b t En B E. destruct (Sprout_read H name net b t En B E) as [O [V _]]. split; [exact O|]. split; [exact V|].
  split; [rewrite <- (app_nil_r (sp_bytes t)); apply (Sprout_again H name net b t [] En B E); auto|].
  intros C rest. apply (Sprout_again H name net b t rest En B E). auto.
Qed.
Print Assumptions sprout_reparse.

(** * Examples *)

(* an input whose script sig is s, and an output *)
Definition raw_input (s : bytes) : bytes := repeat 7 32 ++ [2; 0; 0; 0] ++ compactsize (len s) ++ s ++ [255; 255; 255; 1].
Definition raw_output : bytes := [9; 0; 0; 0; 0; 0; 0; 0; 1; 81].

(* Overwinter: a script sig that is rewritten one byte shorter (so the count of outputs is
   missing and the end of the sequence number is read in its place), and no count of JoinSplits *)
Definition odd_overwinter : bytes :=
  overwinter_header ++ [1] ++ raw_input [81; 76; 1; 82] ++ raw_output ++ [0; 0; 0; 0; 1; 1; 1; 1].
Example overwinter_reparse_ex : forall H, exists t, all_bytes odd_overwinter /\ OverwinterTx_from_bytes H ZcashOverwinterMain odd_overwinter = Ok t /\
  ow_bytes t = overwinter_header ++ [1] ++ raw_input [81; 1; 82] ++ [1] ++ raw_output ++ [0; 0; 0; 0; 1; 1; 1; 1; 0] /\
  readable_scripts (lit "zcash_overwinter_main") (map the_input (ow_tx_ins t)) /\ count (ow_tx_outs t) < 253 /\
  OverwinterTx_from_bytes H ZcashOverwinterMain (ow_bytes t) = Ok t.
Proof.
  intros H. eexists. split; [repeat constructor; discriminate|]. split; [vm_compute; reflexivity|]. split; [vm_compute; reflexivity|].
  split; [constructor; [right; vm_compute; intros [X _]; apply X; reflexivity|constructor]|]. split; vm_compute; reflexivity.
Qed.

(* 256 outputs and a JoinSplit: two more bytes in front of the JoinSplit make the parser accept *)
Definition long_overwinter : bytes :=
  overwinter_header ++ [1] ++ raw_input [81] ++ [253; 0; 1] ++ concat (repeat raw_output 256) ++ [0; 0; 0; 0; 1; 1; 1; 1] ++
  [1; 99; 99] ++ js_bytes ex_sprout_joinsplit ++ repeat 2 32 ++ repeat 3 64.
Definition long_check (ins : list txin) (outs : list txout) : bool :=
  (253 <=? count outs) && forallb (fun i => len (ti_script_sig i) <? 253) ins.
Lemma long_check_readable name ins outs : long_check ins outs = true -> 253 <= count outs /\ readable_scripts name (map the_input ins).
Proof.
  unfold long_check. intros X. apply andb_true_iff in X. destruct X as [X Y]. split; [lia|]. unfold readable_scripts. rewrite Forall_map.
  rewrite forallb_forall in Y. apply Forall_forall. intros i I. right. specialize (Y i I). unfold the_input. cbn [in_script]. lia.
Qed.
Lemma all_bytes_check b : forallb (fun x => (0 <=? x) && (x <? 256)) b = true -> all_bytes b.
Proof. intros F. apply Forall_forall. intros x I. rewrite forallb_forall in F. specialize (F x I). lia. Qed.

Theorem overwinter_reparse_refuted : forall H, exists t, all_bytes long_overwinter /\ OverwinterTx_from_bytes H ZcashOverwinterMain long_overwinter = Ok t /\
  OverwinterTx_from_bytes H ZcashOverwinterMain (ow_bytes t) = Err ValueError.
Proof.
  intros H. assert (all_bytes long_overwinter) as B by (apply all_bytes_check; vm_compute; reflexivity).
  assert (match OverwinterTx_from_bytes H ZcashOverwinterMain long_overwinter with
          | Ok t => long_check (ow_tx_ins t) (ow_tx_outs t) && negb (match ow_tx_joinsplits t with [] => true | _ => false end)
          | Err _ => false end = true) as X by (vm_compute; reflexivity).
  destruct (OverwinterTx_from_bytes H ZcashOverwinterMain long_overwinter) as [t|e] eqn:E; [|discriminate].
  apply andb_true_iff in X. destruct X as [X J]. destruct (long_check_readable (lit "zcash_overwinter_main") _ _ X) as [C R].
  exists t. split; [exact B|]. split; [reflexivity|].
  destruct (overwinter_reparse H (lit "zcash_overwinter_main") _ _ t eq_refl B E) as [_ [Y _]].
  destruct (Y R) as [_ Z]. apply Z; [exact C|]. intros N. rewrite N in J. discriminate.
Qed.
Print Assumptions overwinter_reparse_refuted.

(* Sapling: the same rewriting, with a shielded spend *)
Definition odd_sapling : bytes :=
  sapling_header ++ [1] ++ raw_input [81; 76; 1; 82] ++ raw_output ++ [0; 0; 0; 0; 1; 1; 1; 1] ++ repeat 0 8 ++
  [1] ++ ss_bytes ex_spend ++ [0; 0] ++ repeat 5 64 ++ [66].
Example sapling_reparse_ex : forall H, exists t, all_bytes odd_sapling /\ SaplingTx_from_bytes H ZcashSaplingMain odd_sapling = Ok t /\
  sa_bytes t = sapling_header ++ [1] ++ raw_input [81; 1; 82] ++ [1] ++ raw_output ++ [0; 0; 0; 0; 1; 1; 1; 1] ++ repeat 0 8 ++
    [1] ++ ss_bytes ex_spend ++ [0; 0] ++ repeat 5 64 /\
  readable_scripts (lit "zcash_sapling_main") (map the_input (sa_tx_ins t)) /\ count (sa_tx_outs t) < 253 /\
  SaplingTx_from_bytes H ZcashSaplingMain (sa_bytes t) = Ok t.
Proof.
  intros H. eexists. split; [apply all_bytes_check; vm_compute; reflexivity|]. split; [vm_compute; reflexivity|]. split; [vm_compute; reflexivity|].
  split; [constructor; [right; vm_compute; intros [X _]; apply X; reflexivity|constructor]|]. split; vm_compute; reflexivity.
Qed.
(* 256 outputs and a shielded spend: the two more bytes stand after the count of JoinSplits *)
Definition long_sapling : bytes :=
  sapling_header ++ [1] ++ raw_input [81] ++ [253; 0; 1] ++ concat (repeat raw_output 256) ++ [0; 0; 0; 0; 1; 1; 1; 1] ++ repeat 0 8 ++
  [1] ++ ss_bytes ex_spend ++ [0; 0; 99; 99] ++ repeat 5 64.
Theorem sapling_reparse_refuted : forall H, exists t, all_bytes long_sapling /\ SaplingTx_from_bytes H ZcashSaplingMain long_sapling = Ok t /\
  SaplingTx_from_bytes H ZcashSaplingMain (sa_bytes t) = Err ValueError.
Proof.
  intros H. assert (all_bytes long_sapling) as B by (apply all_bytes_check; vm_compute; reflexivity).
  assert (match SaplingTx_from_bytes H ZcashSaplingMain long_sapling with
          | Ok t => long_check (sa_tx_ins t) (sa_tx_outs t) && negb (match sa_tx_shielded_spends t with [] => true | _ => false end)
          | Err _ => false end = true) as X by (vm_compute; reflexivity).
  destruct (SaplingTx_from_bytes H ZcashSaplingMain long_sapling) as [t|e] eqn:E; [|discriminate].
  apply andb_true_iff in X. destruct X as [X J]. destruct (long_check_readable (lit "zcash_sapling_main") _ _ X) as [C R].
  exists t. split; [exact B|]. split; [reflexivity|].
  destruct (sapling_reparse H (lit "zcash_sapling_main") _ _ t eq_refl B E) as [_ [Y _]].
  destruct (Y R) as [_ Z]. apply Z; [exact C|]. intros [_ [N _]]. rewrite N in J. discriminate.
Qed.
Print Assumptions sapling_reparse_refuted.

(* a script sig of 256 bytes of which the parser makes 255 *)
Definition unreadable_sapling : bytes :=
  sapling_header ++ [1] ++ raw_input (repeat 81 253 ++ [76; 1; 82]) ++ raw_output ++ [0; 0; 0; 0; 1; 1; 1; 1] ++ repeat 0 8 ++ [0; 0; 0].
Example sapling_unreadable_ex : forall H, exists t, SaplingTx_from_bytes H ZcashSaplingMain unreadable_sapling = Ok t /\
  map (fun i => len (ti_script_sig i)) (sa_tx_ins t) = [255] /\ SaplingTx_from_bytes H ZcashSaplingMain (sa_bytes t) = Err ValueError.
Proof. intros H. eexists. split; [vm_compute; reflexivity|]. split; vm_compute; reflexivity. Qed.

(* Sprout: the counts of inputs and of outputs in their long forms, and bytes behind *)
Definition odd_sprout : bytes :=
  [2; 0; 0; 0] ++ [253; 1; 0] ++ raw_input [81] ++ [254; 1; 0; 0; 0] ++ raw_output ++ [0; 0; 0; 0] ++
  [1] ++ js_bytes ex_sprout_joinsplit ++ repeat 2 32 ++ repeat 3 64 ++ [1; 2; 3].
Example sprout_reparse_ex : forall H, exists t, all_bytes odd_sprout /\ SproutTx_from_bytes H ZcashSproutMain odd_sprout = Ok t /\
  sp_bytes t = [2; 0; 0; 0] ++ [1] ++ raw_input [81] ++ [1] ++ raw_output ++ [0; 0; 0; 0] ++
    [1] ++ js_bytes ex_sprout_joinsplit ++ repeat 2 32 ++ repeat 3 64 /\
  sp_joinsplit_sig t <> Some [] /\ SproutTx_from_bytes H ZcashSproutMain (sp_bytes t) = Ok t.
Proof.
  intros H. eexists. split; [apply all_bytes_check; vm_compute; reflexivity|]. split; [vm_compute; reflexivity|]. split; [vm_compute; reflexivity|].
  split; [discriminate|]. vm_compute. reflexivity.
Qed.
