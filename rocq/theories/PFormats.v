(* C95: what the parser of one transaction format makes of the bytes of another.
   [overwinter_header] and [sapling_header] are in SZcash.v. *)
From Coq Require Import String.
From Verif Require Import Py LBase MNet MUtils MShared MScript MTx MZcash SNum SNet SHash SScript STx SZcash SExact SZExact
  LNet LUtils LTx LZcash LZcashTx LSapling LSprout LFormats PTx PZcash PExact PZExact.
Open Scope list_scope.
Open Scope Z_scope.

Lemma head8 (s a b : bytes) : (slice s 0 4 = a /\ slice s 4 8 = b) -> firstn 8 s = a ++ b.
Proof.
  intros [<- <-]. rewrite !slice_firstn by lia. change (Z.to_nat (4 - 0)) with 4%nat. change (Z.to_nat (8 - 4)) with 4%nat.
  change (Z.to_nat 0) with 0%nat. change (Z.to_nat 4) with 4%nat. cbn [skipn].
  do 4 (destruct s as [|? s]; [reflexivity|]). reflexivity.
Qed.
Lemma head8_inv (s a b : bytes) : zlen a = 4 -> zlen b = 4 -> firstn 8 s = a ++ b -> slice s 0 4 = a /\ slice s 4 8 = b.
Proof.
  intros A B E. rewrite <- (firstn_skipn 8 s), E, <- app_assoc. split.
  - apply (slice_app [] a); [reflexivity|lia].
  - apply slice_app; lia.
Qed.

(* Each Zcash format has its own first bytes, and its parser insists on them *)
Theorem header_required : forall H net s,
  (firstn 8 s <> overwinter_header -> OverwinterTx_from_bytes H net s = Err ValueError) /\
  (firstn 8 s <> sapling_header -> SaplingTx_from_bytes H net s = Err ValueError) /\
  (le_value (firstn 4 s) <> 2 -> forall t, SproutTx_from_bytes H net s <> Ok t).
Proof.
  intros H net s. split; [|split].
  - intros N. apply overwinter_refuses. destruct (list_eq_dec Z.eq_dec (slice s 0 4) [3; 0; 0; 128]) as [A|A]; [|auto].
    destruct (list_eq_dec Z.eq_dec (slice s 4 8) [112; 130; 196; 3]) as [B|B]; [|auto]. destruct N. exact (head8 s _ _ (conj A B)).
  - intros N. apply sapling_refuses. destruct (list_eq_dec Z.eq_dec (slice s 0 4) [4; 0; 0; 128]) as [A|A]; [|auto].
    destruct (list_eq_dec Z.eq_dec (slice s 4 8) [133; 32; 47; 137]) as [B|B]; [|auto]. destruct N. exact (head8 s _ _ (conj A B)).
  - intros N t E. apply N. exact (sprout_reads_version2 H net s t E).
Qed.

(* so no byte string is accepted by two of the three, on whatever networks *)
Theorem zcash_formats_disjoint : forall H H' net net' s,
  (forall t t', ~ (SproutTx_from_bytes H net s = Ok t /\ OverwinterTx_from_bytes H' net' s = Ok t')) /\
  (forall t t', ~ (SproutTx_from_bytes H net s = Ok t /\ SaplingTx_from_bytes H' net' s = Ok t')) /\
  (forall t t', ~ (OverwinterTx_from_bytes H net s = Ok t /\ SaplingTx_from_bytes H' net' s = Ok t')).
Proof.
  intros H H' net net' s. split; [|split]; intros t t' [A B].
  - apply sprout_v1_never in A. apply overwinter_head in B. destruct B as [B _]. rewrite B in A. discriminate A.
  - apply sprout_v1_never in A. apply sapling_head in B. destruct B as [B _]. rewrite B in A. discriminate A.
  - apply overwinter_head in A. apply sapling_head in B. destruct A as [A _], B as [B _]. rewrite A in B. discriminate B.
Qed.

(* What the Sprout parser accepts is also accepted as a Bitcoin transaction with the
   same inputs and outputs.  The JoinSplits are lost without notice. *)
Theorem sprout_read_as_bitcoin : forall H name net s t, get_network name = Ok net -> all_bytes s ->
  SproutTx_from_bytes H net s = Ok t -> sp_tx_ins t <> [] -> sp_tx_outs t <> [] ->
  exists u, Tx_from_bytes H net s = Ok u /\ tx_version u = sp_version t /\ tx_flag u = None /\
    tx_tx_ins u = sp_tx_ins t /\ tx_tx_outs u = sp_tx_outs t /\ tx_lock_time u = sp_lock_time t.
Proof.
  intros H name net s t En B E Ni No. apply (sprout_as_tx H name net En s t B E); [|auto].
  destruct (sprout_parts H net s t B E) as [n [m [c1 [c2 [N [I _]]]]]]. exact (no_flag net s n _ _ N I Ni).
Qed.
(* Without inputs or without outputs it is refused, unless marker and flag come next *)
Theorem sprout_refused_as_bitcoin : forall H name net s t, get_network name = Ok net -> all_bytes s ->
  SproutTx_from_bytes H net s = Ok t -> sp_tx_ins t = [] \/ sp_tx_outs t = [] -> firstn 2 (skipn 4 s) <> marker_and_flag ->
  Tx_from_bytes H net s = Err ValueError.
Proof.
  intros H name net s t En B E Z N. apply (sprout_as_tx H name net En s t B E); [|exact Z].
  rewrite slice_firstn by lia. exact N.
Qed.

(* The other way round: a Bitcoin transaction in the original format, with nothing
   behind it, is no Sprout transaction *)
Theorem bitcoin_not_sprout : forall H name net s u t, get_network name = Ok net -> all_bytes s ->
  Tx_from_bytes H net s = Ok u -> tx_flag u = None -> tx_bytes u = s -> SproutTx_from_bytes H net s <> Ok t.
Proof. intros H name net s u t En. exact (tx_not_sprout H name net En s u t). Qed.

(* Tx takes the header for a version and the first byte of the version group id for the
   number of inputs; so everything shorter is refused *)
Theorem overwinter_read_as_bitcoin : forall H name net s u, get_network name = Ok net -> all_bytes s ->
  firstn 8 s = overwinter_header -> Tx_from_bytes H net s = Ok u -> count (tx_tx_ins u) = 112 /\ 4611 <= len s.
Proof.
  intros H name net s u En B E T. apply (head8_inv s [3; 0; 0; 128] [112; 130; 196; 3]) in E; [|reflexivity|reflexivity]. destruct E as [_ E].
  destruct (tx_count H name net En s u 112 B) as [A1 A2]; [lia| |exact T|split; [exact A1|exact A2]].
  rewrite slice_firstn in E |- * by lia. change (Z.to_nat (8 - 4)) with 4%nat in E. change (Z.to_nat (5 - 4)) with 1%nat.
  destruct (skipn (Z.to_nat 4) s) as [|a r]; [discriminate|]. cbn [firstn] in E. injection E as -> _. reflexivity.
Qed.
Theorem sapling_read_as_bitcoin : forall H name net s u, get_network name = Ok net -> all_bytes s ->
  firstn 8 s = sapling_header -> Tx_from_bytes H net s = Ok u -> count (tx_tx_ins u) = 133 /\ 5472 <= len s.
Proof.
  intros H name net s u En B E T. apply (head8_inv s [4; 0; 0; 128] [133; 32; 47; 137]) in E; [|reflexivity|reflexivity]. destruct E as [_ E].
  destruct (tx_count H name net En s u 133 B) as [A1 A2]; [lia| |exact T|split; [exact A1|exact A2]].
  rewrite slice_firstn in E |- * by lia. change (Z.to_nat (8 - 4)) with 4%nat in E. change (Z.to_nat (5 - 4)) with 1%nat.
  destruct (skipn (Z.to_nat 4) s) as [|a r]; [discriminate|]. cbn [firstn] in E. injection E as -> _. reflexivity.
Qed.

(** * Transactions of two formats *)

(* Every Sprout transaction whose inputs and outputs are read as themselves is read as
   the Bitcoin transaction that has them, whatever comes after the lock time *)
Theorem sprout_object_as_bitcoin : forall H name net t rest, get_network name = Ok net -> sprout_obj H net t ->
  Forall (fun i => all_bytes (ti_script_sig i)) (sp_tx_ins t) -> exact_parts name (sp_tx_ins t) (sp_tx_outs t) ->
  sp_tx_ins t <> [] -> sp_tx_outs t <> [] ->
  exists u, Tx_from_bytes H net (sp_bytes t ++ rest) = Ok u /\
    the_tx u = {| t_version := sp_version t; t_ins := map the_input (sp_tx_ins t); t_outs := map the_output (sp_tx_outs t);
                  t_witness := None; t_lock := sp_lock_time t |}.
Proof.
  intros H name net t rest En O Bs [P1 [P2 [P3 P4]]] Ni No.
  destruct (sprout_format_ok H name net t En O) as [W _]. pose proof (sprout_version H net t O) as Sv.
  pose proof O as O'. apply sprout_obj_iff in O'. destruct O' as [js [_ [Fi [Fo [_ [_ [A _]]]]]]].
  unfold sp_args_ok in A. rewrite !andb_true_iff in A. destruct A as [[[[[_ L] _] Li] Lo] _].
  set (T := {| t_version := sp_version t; t_ins := map the_input (sp_tx_ins t); t_outs := map the_output (sp_tx_outs t); t_witness := None; t_lock := sp_lock_time t |}).
  set (tail := if le_value (sp_version t) =? 1 then [] else joinsplits_wire sprout_joinsplit_wire (opts (sp_tx_joinsplits t)) (sp_joinsplit_pubkey t) (sp_joinsplit_sig t)).
  assert (sp_bytes t ++ rest = wire_tx T ++ tail ++ rest) as Wr.
  { rewrite W. unfold sprout_wire, sprout_layout, wire_tx, T. cbn [t_version t_ins t_outs t_witness t_lock]. fold tail.
    unfold inputs_wire, outputs_wire. rewrite <- !app_assoc. reflexivity. }
  assert (forall A (l : list A), l <> [] -> 1 <= zlen l) as Pos.
  { intros A l Nl. destruct l as [|x l]; [contradiction|]. rewrite zlen_cons. pose proof (zlen_nonneg l). lia. }
  pose proof (Pos _ _ Ni) as Pi. pose proof (Pos _ _ No) as Po. unfold zlen in Pi, Po, Li, Lo.
  assert (transaction_ok T) as Ok.
  { unfold transaction_ok, T. cbn [t_version t_ins t_outs t_witness t_lock]. unfold count. rewrite !map_length.
    split; [destruct Sv as [[-> _]|[-> _]]; reflexivity|]. split; [unfold zlen in L; unfold len; lia|]. split; [lia|]. split; [lia|].
    split; [|split; [|exact I]]; rewrite Forall_map; [eapply Forall_impl; [|exact Fi]; intros i Hi; apply (txin_wire i Hi)|].
    eapply Forall_impl; [|exact Fo]. intros o Ho. apply (txout_wire o Ho). }
  assert (exact_tx name T) as Ex.
  { unfold exact_tx, T. cbn [t_version t_ins t_outs t_witness t_lock]. unfold count in *. rewrite !map_length, !Forall_map. auto. }
  destruct (transaction_read_itself H name net T (tail ++ rest) En Ok I) as [_ R]; [unfold T; cbn [t_ins]; rewrite Forall_map; exact Bs|].
  destruct (R Ex) as [u [U1 [U2 _]]]. exists u. rewrite Wr. auto.
Qed.

(* so JoinSplits get lost, and version 1 is no format of its own *)
Theorem sprout_as_bitcoin_refuted : forall H n, n = 1 \/ n = 2 -> exists t u, sprout_obj H ZcashSproutMain t /\ le_value (sp_version t) = n /\
  sp_tx_joinsplits t = Some (if n =? 1 then [] else [ex_sprout_joinsplit]) /\
  Tx_from_bytes H ZcashSproutMain (sp_bytes t) = Ok u /\ t_ins (the_tx u) = map the_input (sp_tx_ins t).
Proof.
  intros H n N. destruct (ex_sprout H n N) as [t [O [V [E1 [E2 [E3 _]]]]]].
  destruct (sprout_object_as_bitcoin H (lit "zcash_sprout_main") ZcashSproutMain t [] eq_refl O) as [u [U1 U2]];
    [rewrite E1; exact ex_script_bytes|rewrite E1, E2; apply (ex_exact (lit "zcash_sprout_main") ZcashSproutMain 1 eq_refl); lia|rewrite E1; discriminate|rewrite E2; discriminate|].
  rewrite app_nil_r in U1. exists t, u. do 4 (split; [assumption|]). rewrite U2. reflexivity.
Qed.

(** ** Crafted transactions *)

(* [n] pieces of [k] bytes *)
Fixpoint pieces (n k : nat) (s : bytes) : list bytes := match n with O => [] | S n => firstn k s :: pieces n k (skipn k s) end.
Definition plain_input (b : bytes) : input :=
  {| in_txid := firstn 32 b; in_index := firstn 4 (skipn 32 b); in_script := []; in_sequence := firstn 4 (skipn 37 b) |}.
(* a Bitcoin transaction of [n] inputs without scripts, read from the bytes s, and one
   output with a script of [k] zeros *)
Definition plain_tx (n k : nat) (s : bytes) : transaction :=
  {| t_version := firstn 4 s; t_ins := map plain_input (pieces n 41 (skipn 5 s));
     t_outs := [{| out_value := repeat 0 8; out_script := repeat 0 k |}]; t_witness := None; t_lock := repeat 0 4 |}.

Lemma plain_read H name net n k s : get_network name = Ok net -> (4 <= length s)%nat -> (1 <= n < 253)%nat -> (k < 252)%nat ->
  forallb (fun b => Nat.eqb (length b) 41) (pieces n 41 (skipn 5 s)) = true ->
  exists u, Tx_from_bytes H net (wire_tx (plain_tx n k s)) = Ok u /\ the_tx u = plain_tx n k s /\ tx_obj H net u /\ tx_bytes u = wire_tx (plain_tx n k s).
Proof.
  intros En L N K F. rewrite forallb_forall in F.
  assert (length (pieces n 41 (skipn 5 s)) = n) as Lp by (generalize (skipn 5 s); clear; induction n as [|n IH]; intros s; cbn [pieces length]; [|rewrite IH]; reflexivity).
  destruct (transaction_read_itself H name net (plain_tx n k s) [] En) as [_ R].
  - unfold transaction_ok, plain_tx, count. cbn [t_version t_ins t_outs t_witness t_lock length]. rewrite map_length, Lp.
    split; [unfold len; rewrite firstn_length; lia|]. split; [reflexivity|]. split; [split; [lia|]; apply Z.lt_trans with 253; [lia|reflexivity]|]. split; [split; [lia|reflexivity]|].
    split; [|split; [constructor; [|constructor]; split; [reflexivity|]; cbn [out_script]; unfold len; rewrite repeat_length; apply Z.lt_trans with 252; [lia|reflexivity]|exact I]]. rewrite Forall_map. apply Forall_forall. intros b Hb. apply F in Hb. apply Nat.eqb_eq in Hb.
    unfold input_ok, plain_input. cbn [in_txid in_index in_script in_sequence]. unfold len. rewrite !firstn_length, !skipn_length, Hb.
    split; [reflexivity|]. split; [reflexivity|]. split; reflexivity.
  - exact I.
  - unfold plain_tx. cbn [t_ins]. rewrite Forall_map. apply Forall_forall. intros b _. constructor.
  - rewrite app_nil_r in R. destruct R as [u R]; [|exists u; exact R].
    unfold exact_tx, plain_tx, count. cbn [t_version t_ins t_outs t_witness t_lock length]. rewrite map_length, Lp.
    split; [right; lia|]. split; [right; lia|]. split; [|split; [constructor; [cbn [out_script]; unfold len; rewrite repeat_length; lia|constructor]|exact I]].
    rewrite Forall_map. apply Forall_forall. intros b _. unfold exact_in, plain_input. cbn [in_script]. split; [right; unfold len; cbn [length]; lia|].
    split; [discriminate|]. right. left. exists []. split; [constructor|reflexivity].
Qed.

Definition zeros (n : nat) : bytes := repeat 0 n.
Definition zero_input : txin := txin_of {| op_tx_id := zeros 32; op_index := zeros 4; op_bytes := zeros 36 |} [] [] (zeros 4).
Definition out_of (script : bytes) : txout :=
  {| to_value := zeros 8; to_output_script := script; to_bytes_ := zeros 8 ++ [len script] ++ script |}.

(* One input; 19 outputs, which Tx reads as inputs.  Its only output starts in the
   last output script. *)
Definition crafted_outs : list txout := repeat (out_of (zeros 237)) 18 ++ [out_of (zeros 109 ++ [1] ++ zeros 8 ++ [5])].
Definition crafted : bytes := [3; 0; 0; 128; 112; 130; 196; 3; 1] ++ ti_bytes zero_input ++ [19] ++ concat (map to_bytes_ crafted_outs) ++ zeros 9.
(* 22 outputs *)
Definition crafted_outs2 : list txout := repeat (out_of (zeros 237)) 21 ++ [out_of (zeros 232 ++ [1] ++ zeros 8 ++ [15])].
Definition crafted2 : bytes := [4; 0; 0; 128; 133; 32; 47; 137; 1] ++ ti_bytes zero_input ++ [22] ++ concat (map to_bytes_ crafted_outs2) ++ zeros 19.

Lemma zero_input_obj : Forall txin_obj [zero_input].
Proof. constructor; [split; vm_compute; reflexivity|constructor]. Qed.
Lemma outs_obj n s : txout_obj (out_of s) -> Forall txout_obj (repeat (out_of (zeros 237)) n ++ [out_of s]).
Proof.
  intros O. apply Forall_app. split; [|constructor; [exact O|constructor]].
  apply Forall_forall. intros o I. apply repeat_spec in I. subst o. vm_compute. reflexivity.
Qed.
Lemma crafted_exact name n s : Z.of_nat n < 200 -> len s < 252 -> exact_parts name [zero_input] (repeat (out_of (zeros 237)) n ++ [out_of s]).
Proof.
  intros N L. split; [right; cbn; lia|]. split; [right; unfold count; rewrite app_length, repeat_length; cbn [length]; lia|]. split.
  - constructor; [|constructor]. split; [right; cbn; lia|]. split; [discriminate|]. right. left. exists []. split; [constructor|reflexivity].
  - apply Forall_app. split; [apply Forall_forall; intros o I; apply repeat_spec in I; subst o; reflexivity|constructor; [exact L|constructor]].
Qed.

(* Two transactions, each read as itself by its own parser, with the same bytes *)
Theorem overwinter_as_bitcoin_refuted : forall H, exists t u, overwinter_obj H ZcashOverwinterMain t /\ tx_obj H ZcashOverwinterMain u /\
  ow_bytes t = tx_bytes u /\ count (ow_tx_ins t) = 1 /\ count (t_ins (the_tx u)) = 112 /\
  (exists t', OverwinterTx_from_bytes H ZcashOverwinterMain (ow_bytes t) = Ok t' /\ same_overwinter t t') /\
  Tx_from_bytes H ZcashOverwinterMain (ow_bytes t) = Ok u.
Proof.
  intros H. pose proof zero_input_obj as Fi. assert (Forall txout_obj crafted_outs) as Fo by (apply outs_obj; vm_compute; reflexivity).
  destruct (overwinter_accepts H (lit "zcash_overwinter_main") ZcashOverwinterMain [zero_input] crafted_outs (zeros 4) (zeros 4) [] None None eq_refl Fi Fo) as [A _]; [constructor|].
  destruct A as [t [_ [O [A1 [A2 [A3 [A4 [A5 [A6 A7]]]]]]]]].
  { split; [left; reflexivity|]. do 4 (split; [vm_compute; (reflexivity || discriminate)|]). split; [intros X; destruct X; reflexivity|].
    split; [left; discriminate|]. vm_compute. discriminate. }
  destruct (overwinter_format_ok H (lit "zcash_overwinter_main") ZcashOverwinterMain t eq_refl O) as [W _].
  assert (ow_bytes t = wire_tx (plain_tx 112 5 crafted)) as Wr.
  { rewrite W. unfold overwinter_wire. rewrite A1, A2, A3, A4, A5, A6, A7. vm_compute. reflexivity. }
  destruct (plain_read H (lit "zcash_overwinter_main") ZcashOverwinterMain 112 5 crafted eq_refl) as [u [U1 [U2 [U3 U4]]]];
    [apply Nat.leb_le; vm_compute; reflexivity|lia|lia|vm_compute; reflexivity|].
  exists t, u. split; [exact O|]. split; [exact U3|]. split; [rewrite U4; exact Wr|]. split; [rewrite A1; reflexivity|].
  split; [rewrite U2; vm_compute; reflexivity|]. split; [|rewrite Wr; exact U1].
  apply (overwinter_read_itself H (lit "zcash_overwinter_main") ZcashOverwinterMain t eq_refl O); rewrite A1; [constructor; constructor|].
  rewrite A2. split; [|left; reflexivity]. apply crafted_exact; [lia|vm_compute; reflexivity].
Qed.
Theorem sapling_as_bitcoin_refuted : forall H, exists t u, sapling_obj H ZcashSaplingMain t /\ tx_obj H ZcashSaplingMain u /\
  sa_bytes t = tx_bytes u /\ count (sa_tx_ins t) = 1 /\ count (t_ins (the_tx u)) = 133 /\
  (exists t', SaplingTx_from_bytes H ZcashSaplingMain (sa_bytes t) = Ok t' /\ same_sapling t t') /\
  Tx_from_bytes H ZcashSaplingMain (sa_bytes t) = Ok u.
Proof.
  intros H. pose proof zero_input_obj as Fi. assert (Forall txout_obj crafted_outs2) as Fo by (apply outs_obj; vm_compute; reflexivity).
  destruct (sapling_accepts H (lit "zcash_sapling_main") ZcashSaplingMain [zero_input] crafted_outs2 (zeros 4) (zeros 4) (zeros 8) [] [] [] None None None eq_refl Fi Fo) as [A _]; [constructor|constructor|constructor|].
  destruct A as [t [_ [O [A1 [A2 [A3 [A4 [A5 [A6 [A7 [A8 [A9 [A10 A11]]]]]]]]]]]]].
  { split; [left; reflexivity|]. do 3 (split; [reflexivity|]). split; [vm_compute; reflexivity|]. split; [reflexivity|].
    split; [intros X; destruct X; auto|]. split; [left; reflexivity|]. split; [vm_compute; discriminate|]. split; [intros X; destruct X; reflexivity|].
    split; [left; discriminate|]. vm_compute. discriminate. }
  destruct (sapling_format_ok H (lit "zcash_sapling_main") ZcashSaplingMain t eq_refl O) as [W _].
  assert (sa_bytes t = wire_tx (plain_tx 133 15 crafted2)) as Wr.
  { rewrite W. unfold sapling_wire. rewrite A1, A2, A3, A4, A5, A6, A7, A8, A9, A10, A11. vm_compute. reflexivity. }
  destruct (plain_read H (lit "zcash_sapling_main") ZcashSaplingMain 133 15 crafted2 eq_refl) as [u [U1 [U2 [U3 U4]]]];
    [apply Nat.leb_le; vm_compute; reflexivity|lia|lia|vm_compute; reflexivity|].
  exists t, u. split; [exact O|]. split; [exact U3|]. split; [rewrite U4; exact Wr|]. split; [rewrite A1; reflexivity|].
  split; [rewrite U2; vm_compute; reflexivity|]. split; [|rewrite Wr; exact U1].
  apply (sapling_read_itself H (lit "zcash_sapling_main") ZcashSaplingMain t eq_refl O); rewrite A1; [constructor; constructor|].
  rewrite A2, A6. split; [apply crafted_exact; [lia|vm_compute; reflexivity]|]. split; [right; cbn; lia|left; reflexivity].
Qed.

(* A segwit transaction whose first input spends a transaction with two zero bytes in
   its identifier.  Sprout sees no input, one output and no JoinSplit. *)
Definition segwit_bytes : bytes := [2; 0; 0; 0; 0; 1; 1] ++ repeat 7 7 ++ [0; 1; 1; 1; 1; 0] ++ repeat 9 19 ++ [0; 0; 0; 0] ++ [0] ++ repeat 255 4 ++
  [1] ++ [5; 0; 0; 0; 0; 0; 0; 0; 22; 0; 20] ++ repeat 1 20 ++ [2; 71] ++ repeat 2 71 ++ [33] ++ repeat 3 33 ++ repeat 0 4.
Definition holds {A} (r : res A) (P : A -> bool) : bool := match r with Ok a => P a | Err _ => false end.
Lemma holds_ok {A} (r : res A) P : holds r P = true -> exists a, r = Ok a /\ P a = true.
Proof. destruct r as [a|]; [|discriminate]. exists a. auto. Qed.
Theorem segwit_as_sprout_refuted : forall H, exists u t, Tx_from_bytes H ZcashSproutMain segwit_bytes = Ok u /\ tx_bytes u = segwit_bytes /\
  count (tx_tx_ins u) = 1 /\ SproutTx_from_bytes H ZcashSproutMain segwit_bytes = Ok t /\ sp_tx_ins t = [] /\ count (sp_tx_outs t) = 1.
Proof.
  intros H.
  assert (holds (Tx_from_bytes H ZcashSproutMain segwit_bytes) (fun u => leqb (tx_bytes u) segwit_bytes && (count (tx_tx_ins u) =? 1)) = true) as A by (vm_compute; reflexivity).
  assert (holds (SproutTx_from_bytes H ZcashSproutMain segwit_bytes) (fun t => (count (sp_tx_ins t) =? 0) && (count (sp_tx_outs t) =? 1)) = true) as B by (vm_compute; reflexivity).
  apply holds_ok in A, B. destruct A as [u [U A]], B as [t [T B]].
  apply andb_true_iff in A, B. destruct A as [A1 A2], B as [B1 B2]. exists u, t. split; [exact U|]. split; [apply leqb_eq; exact A1|].
  split; [lia|]. split; [exact T|]. split; [|lia]. destruct (sp_tx_ins t); [reflexivity|discriminate].
Qed.

(** * Examples *)

(* the hypotheses of the theorems: a Bitcoin transaction of version 2 that is no Sprout
   transaction, and a Sprout transaction without outputs *)
Definition legacy_bytes : bytes := [2; 0; 0; 0; 1] ++ repeat 7 32 ++ [0; 0; 0; 0] ++ [0] ++ repeat 255 4 ++ [1] ++ [5; 0; 0; 0; 0; 0; 0; 0; 1; 81] ++ repeat 0 4.
Example bitcoin_not_sprout_ex : forall H, exists u, Tx_from_bytes H ZcashSproutMain legacy_bytes = Ok u /\ tx_flag u = None /\ tx_bytes u = legacy_bytes.
Proof.
  intros H.
  assert (holds (Tx_from_bytes H ZcashSproutMain legacy_bytes) (fun u => leqb (tx_bytes u) legacy_bytes && (match tx_flag u with None => true | _ => false end)) = true) as A by (vm_compute; reflexivity).
  apply holds_ok in A. destruct A as [u [U A]]. apply andb_true_iff in A. destruct A as [A1 A2].
  exists u. split; [exact U|]. split; [destruct (tx_flag u); [discriminate|reflexivity]|apply leqb_eq; exact A1].
Qed.
Definition no_outputs : bytes := [2; 0; 0; 0; 1] ++ repeat 7 32 ++ [0; 0; 0; 0] ++ [0] ++ repeat 255 4 ++ [0] ++ repeat 0 4 ++ [0] ++ repeat 3 96.
Example sprout_refused_ex : forall H, exists t, SproutTx_from_bytes H ZcashSproutMain no_outputs = Ok t /\ count (sp_tx_ins t) = 1 /\ sp_tx_outs t = [] /\
  all_bytes no_outputs /\ firstn 2 (skipn 4 no_outputs) <> marker_and_flag /\ Tx_from_bytes H ZcashSproutMain no_outputs = Err ValueError.
Proof.
  intros H.
  assert (holds (SproutTx_from_bytes H ZcashSproutMain no_outputs) (fun t => (count (sp_tx_ins t) =? 1) && (count (sp_tx_outs t) =? 0)) = true) as B by (vm_compute; reflexivity).
  assert (all_bytes no_outputs) as By by (apply all_bytes_is_bytes, is_bytesb_ok; vm_compute; reflexivity).
  apply holds_ok in B. destruct B as [t [E B]]. apply andb_true_iff in B. destruct B as [B1 B2].
  assert (sp_tx_outs t = []) as Z by (destruct (sp_tx_outs t); [reflexivity|discriminate]).
  exists t. split; [exact E|]. split; [lia|]. split; [exact Z|]. split; [exact By|]. split; [discriminate|].
  apply (sprout_refused_as_bitcoin H (lit "zcash_sprout_main") ZcashSproutMain no_outputs t eq_refl By E); [right; exact Z|discriminate].
Qed.

Print Assumptions header_required.
Print Assumptions zcash_formats_disjoint.
Print Assumptions sprout_read_as_bitcoin.
Print Assumptions sprout_refused_as_bitcoin.
Print Assumptions bitcoin_not_sprout.
Print Assumptions overwinter_read_as_bitcoin.
Print Assumptions sapling_read_as_bitcoin.
Print Assumptions sprout_object_as_bitcoin.
Print Assumptions sprout_as_bitcoin_refuted.
Print Assumptions overwinter_as_bitcoin_refuted.
Print Assumptions sapling_as_bitcoin_refuted.
Print Assumptions segwit_as_sprout_refuted.
Print Assumptions bitcoin_not_sprout_ex.
Print Assumptions sprout_refused_ex.
