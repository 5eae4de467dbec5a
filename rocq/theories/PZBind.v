(* C85: what a Zcash signature digest commits to, and what it leaves open.  Requests for
   digests and the data they are about ([overwinter_seen], [sapling_seen], [sprout_seen])
   are in SZBind.v; signatures and script sigs are not among that data. *)
From Coq Require Import String.
From Verif Require Import Py MNet MUtils MShared MTx MZcash SNum SNet SHash SScript STx SSig SZcash SZBind LBase LNet LTx LSigBind LZBind LZBind2 PZcash PTx.
Open Scope list_scope.
Open Scope Z_scope.

(* a digest is returned exactly for requests that make sense *)
Theorem zcash_requests : forall H net r,
  (forall t, overwinter_obj H net t -> (exists d, overwinter_request H net t r = Ok d) <-> answerable (ow_tx_ins t) (ow_tx_outs t) r) /\
  (forall t, sapling_obj H net t -> (exists d, sapling_request H net t r = Ok d) <-> answerable (sa_tx_ins t) (sa_tx_outs t) r).
Proof.
  intros H net r. split; intros t O; split.
  - intros [d D]. exact (ow_request_ok H net t r d O D).
  - intros A. eexists. exact (ow_request_top H net t r O A).
  - intros [d D]. exact (sa_request_ok H net t r d O D).
  - intros A. eexists. exact (sa_request_top H net t r O A).
Qed.
Print Assumptions zcash_requests.

(* equal digests are about the same data, whatever the networks of the era, or BLAKE2b
   fails on messages that are named *)
Theorem overwinter_binds : forall H net net' t t' r r' d, hashes_ok H -> overwinter_obj H net t -> overwinter_obj H net' t' ->
  (forall script value, zr_signed r = Some (script, value) -> len script < 2 ^ 64) ->
  (forall script value, zr_signed r' = Some (script, value) -> len script < 2 ^ 64) ->
  overwinter_request H net t r = Ok d -> overwinter_request H net' t' r' = Ok d ->
  blake_collision H (overwinter_hashed H t r ++ overwinter_hashed H t' r') \/ blake_zero H (overwinter_lists t ++ overwinter_lists t') \/
  overwinter_seen t r = overwinter_seen t' r'.
Proof.
  intros H net net' t t' r r' d Hok O O' C C' D D'. destruct (ow_binds H Hok net net' t t' r r' d O O' C C' D D') as [[B|B]|B]; auto.
Qed.
Print Assumptions overwinter_binds.
Theorem sapling_binds : forall H net net' t t' r r' d, hashes_ok H -> sapling_obj H net t -> sapling_obj H net' t' ->
  (forall script value, zr_signed r = Some (script, value) -> len script < 2 ^ 64) ->
  (forall script value, zr_signed r' = Some (script, value) -> len script < 2 ^ 64) ->
  sapling_request H net t r = Ok d -> sapling_request H net' t' r' = Ok d ->
  blake_collision H (sapling_hashed H t r ++ sapling_hashed H t' r') \/ blake_zero H (sapling_lists t ++ sapling_lists t') \/
  sapling_seen t r = sapling_seen t' r'.
Proof.
  intros H net net' t t' r r' d Hok O O' C C' D D'. destruct (sa_binds H Hok net net' t t' r r' d O O' C C' D D') as [[B|B]|B]; auto.
Qed.
Print Assumptions sapling_binds.

(* and requests about the same data have the same digest *)
Theorem overwinter_ignores : forall H net net' t t' r r', overwinter_obj H net t -> overwinter_obj H net' t' ->
  answerable (ow_tx_ins t) (ow_tx_outs t) r -> answerable (ow_tx_ins t') (ow_tx_outs t') r' ->
  overwinter_seen t r = overwinter_seen t' r' -> overwinter_request H net t r = overwinter_request H net' t' r'.
Proof. exact ow_ignores. Qed.
Print Assumptions overwinter_ignores.
Theorem sapling_ignores : forall H net net' t t' r r', sapling_obj H net t -> sapling_obj H net' t' ->
  answerable (sa_tx_ins t) (sa_tx_outs t) r -> answerable (sa_tx_ins t') (sa_tx_outs t') r' ->
  sapling_seen t r = sapling_seen t' r' -> sapling_request H net t r = sapling_request H net' t' r'.
Proof. exact sa_ignores. Qed.
Print Assumptions sapling_ignores.

(* a signature of one era says nothing in the other *)
Theorem zcash_eras : forall H net net' t t' r r' d, overwinter_obj H net t -> sapling_obj H net' t' ->
  overwinter_request H net t r = Ok d -> sapling_request H net' t' r' = Ok d ->
  blake_collision H [overwinter_top H t r; sapling_top H t' r'].
Proof. exact eras_differ. Qed.
Print Assumptions zcash_eras.
(* and no byte string is read as transactions of two eras *)
Theorem zcash_parsers_disjoint : forall H net net' s,
  (forall t t', OverwinterTx_from_bytes H net s = Ok t -> SaplingTx_from_bytes H net' s = Ok t' -> False) /\
  (forall t t', OverwinterTx_from_bytes H net s = Ok t -> SproutTx_from_bytes H net' s = Ok t' -> False) /\
  (forall t t', SaplingTx_from_bytes H net s = Ok t -> SproutTx_from_bytes H net' s = Ok t' -> False).
Proof.
  intros H net net' s. destruct (parsers H net net' net' s) as [A [B C]]. destruct (parsers H net' net net' s) as [_ [B' _]].
  assert (forall h, firstn 8 s = h -> firstn 4 s = firstn 4 h) as F by (intros h <-; rewrite firstn_firstn; reflexivity).
  split; [|split]; intros t t' E E'.
  - apply A in E. apply B in E'. rewrite E in E'. discriminate E'.
  - apply A, F in E. apply C in E'. rewrite E in E'. discriminate E'.
  - apply B', F in E. apply C in E'. rewrite E in E'. discriminate E'.
Qed.
Print Assumptions zcash_parsers_disjoint.

(* the same for Sprout, where only the digest for ALL exists; a transaction without inputs
   is signed as a whole *)
Theorem sprout_binds : forall H name net name' net' t t' n n' code code' d, get_network name = Ok net -> get_network name' = Ok net' ->
  sprout_obj H net t -> sprout_obj H net' t' ->
  (n < length (sp_tx_ins t))%nat \/ sp_tx_ins t = [] -> (n' < length (sp_tx_ins t'))%nat \/ sp_tx_ins t' = [] ->
  readable_size name (len code) -> readable_size name' (len code') -> len code < 2 ^ 64 -> len code' < 2 ^ 64 ->
  sprout_sighash_all H net t (Z.of_nat n) (string_wire code) false = Ok d ->
  sprout_sighash_all H net' t' (Z.of_nat n') (string_wire code') false = Ok d ->
  collision (sha256d H) [sprout_signed n code t ++ le_bytes 4 1; sprout_signed n' code' t' ++ le_bytes 4 1] \/
  sprout_seen t = sprout_seen t' /\ (sp_tx_ins t <> [] -> code = code' /\ (code <> [] -> n = n')).
Proof.
  intros H name net name' net' t t' n n' code code' d En En' O O' P P' R R' C C' D D'.
  rewrite (sprout_request H name net t n code false En O P R C) in D. rewrite (sprout_request H name' net' t' n' code' false En' O' P' R' C') in D'.
  match type of D with (if ?b then _ else _) = _ => destruct b; [|discriminate D] end. match type of D' with (if ?b then _ else _) = _ => destruct b; [|discriminate D'] end.
  rewrite <- D in D'. apply Ok_inj in D'. symmetry in D'.
  apply (same_or_collide _ [sprout_signed n code t ++ le_bytes 4 1; sprout_signed n' code' t' ++ le_bytes 4 1]) in D'; [|left; reflexivity|right; left; reflexivity].
  destruct D' as [E|E]; [right|auto]. apply app_inv_tail in E.
  exact (sprout_message_binds H name net name' net' t t' n n' code code' En En' O O' P P' C C' E).
Qed.
Print Assumptions sprout_binds.
Theorem sprout_ignores : forall H name net name' net' t t' n code anyone, get_network name = Ok net -> get_network name' = Ok net' ->
  sprout_obj H net t -> sprout_obj H net' t' ->
  (n < length (sp_tx_ins t))%nat \/ sp_tx_ins t = [] -> readable_size name (len code) -> readable_size name' (len code) -> len code < 2 ^ 64 ->
  sprout_seen t = sprout_seen t' ->
  sprout_sighash_all H net t (Z.of_nat n) (string_wire code) anyone = sprout_sighash_all H net' t' (Z.of_nat n) (string_wire code) anyone.
Proof.
  intros H name net name' net' t t' n code anyone En En' O O' P R R' C E.
  assert (length (sp_tx_ins t) = length (sp_tx_ins t')) as L.
  { unfold sprout_seen in E. injection E as _ E _ _ _ _. apply (f_equal (@length _)) in E. rewrite !map_length in E. exact E. }
  assert (sprout_place t' n) as P'.
  { destruct P as [P|P]; [left; lia|right]. rewrite P in L. destruct (sp_tx_ins t'); [reflexivity|discriminate L]. }
  rewrite (sprout_request H name net t n code anyone En O P R C), (sprout_request H name' net' t' n code anyone En' O' P' R' C), (sprout_message_ignores t t' n code E).
  destruct (sp_tx_ins t), (sp_tx_ins t'); try discriminate L; reflexivity.
Qed.
Print Assumptions sprout_ignores.

(* transactions that differ in the JoinSplit signature *)
Example overwinter_binds_ex : forall H, exists t t' r d, overwinter_obj H ZcashOverwinterMain t /\ overwinter_obj H ZcashOverwinterMain t' /\
  ow_joinsplit_sig t <> ow_joinsplit_sig t' /\ overwinter_seen t r = overwinter_seen t' r /\ zr_signed r = Some ([118], repeat 9 8) /\
  overwinter_request H ZcashOverwinterMain t r = Ok d /\ overwinter_request H ZcashOverwinterMain t' r = Ok d.
Proof.
  intros H. destruct ex_parts as [Fi [Fo _]]. destruct ex_sprout_joinsplit_obj as [J _].
  assert (forall s, exists t, overwinter_obj H ZcashOverwinterMain t /\ ow_joinsplit_sig t = Some (repeat s 64) /\ ow_tx_ins t = [ex_input] /\ ow_tx_outs t = [ex_output] /\
    ow_lock_time t = repeat 0 4 /\ ow_expiry_height t = repeat 1 4 /\ ow_tx_joinsplits t = [ex_sprout_joinsplit] /\ ow_joinsplit_pubkey t = Some (repeat 2 32)) as X.
  { intros s. destruct (overwinter_accepts H (lit "zcash_overwinter_main") ZcashOverwinterMain [ex_input] [ex_output] (repeat 0 4) (repeat 1 4) [ex_sprout_joinsplit]
      (Some (repeat 2 32)) (Some (repeat s 64)) eq_refl Fi Fo) as [A _]; [constructor; [exact J|constructor]|].
    destruct A as [t [_ [O [A1 [A2 [A3 [A4 [A5 [A6 A7]]]]]]]]]; [|exists t; split; [exact O|]; repeat (split; [assumption|]); assumption].
    split; [left; reflexivity|]. do 4 (split; [vm_compute; (reflexivity || discriminate)|]). split; [intros _; split; eexists; split; reflexivity|].
    split; [left; discriminate|]. vm_compute. discriminate. }
  destruct (X 3) as [t [O [S [A1 [A2 [A3 [A4 [A5 A6]]]]]]]]. destruct (X 4) as [t' [O' [S' [B1 [B2 [B3 [B4 [B5 B6]]]]]]]].
  set (r := {| zr_type := ZSingle; zr_anyone := true; zr_place := 0; zr_signed := Some ([118], repeat 9 8) |}).
  assert (answerable (ow_tx_ins t) (ow_tx_outs t) r /\ answerable (ow_tx_ins t') (ow_tx_outs t') r) as [Q Q'].
  { unfold answerable, r. rewrite A1, A2, B1, B2. cbn. repeat split; intros; try lia; discriminate. }
  assert (overwinter_seen t r = overwinter_seen t' r) as E by (unfold overwinter_seen; rewrite A1, A2, A3, A4, A5, A6, B1, B2, B3, B4, B5, B6; reflexivity).
  destruct (zcash_requests H ZcashOverwinterMain r) as [Z _]. apply Z in Q as D; [|exact O]. destruct D as [d D].
  exists t, t', r, d. split; [exact O|]. split; [exact O'|]. split; [rewrite S, S'; discriminate|]. split; [exact E|]. split; [reflexivity|]. split; [exact D|].
  rewrite <- (overwinter_ignores H _ ZcashOverwinterMain t t' r r O O' Q Q' E). exact D.
Qed.
(* the JoinSplit digest for NONE *)
Example zcash_binds_ex : forall H, exists t d, sapling_obj H ZcashSaplingMain t /\ sa_tx_shielded_spends t <> [] /\
  let r := {| zr_type := ZNone; zr_anyone := false; zr_place := 0; zr_signed := None |} in
  answerable (sa_tx_ins t) (sa_tx_outs t) r /\ sapling_request H ZcashSaplingMain t r = Ok d.
Proof.
  intros H. destruct (ex_sapling H 1%nat ltac:(cbn; auto)) as [t [O [E1 [E2 [E3 _]]]]]. set (r := {| zr_type := ZNone; zr_anyone := false; zr_place := 0; zr_signed := None |}).
  assert (answerable (sa_tx_ins t) (sa_tx_outs t) r) as A by (unfold answerable, r; rewrite E1, E2; cbn; repeat split; intros; try lia; discriminate).
  destruct (zcash_requests H ZcashSaplingMain r) as [_ Z]. apply Z in A as D; [|exact O]. destruct D as [d D]. exists t, d.
  split; [exact O|]. split; [rewrite E3; discriminate|]. split; [exact A|exact D].
Qed.
Example sprout_binds_ex : forall H, exists t, sprout_obj H ZcashSproutMain t /\ (0 < length (sp_tx_ins t))%nat /\ readable_size (lit "zcash_sprout_main") (len [118]) /\
  sprout_sighash_all H ZcashSproutMain t (Z.of_nat 0) (string_wire [118]) false = Ok (sha256d H (sprout_signed 0 [118] t ++ le_bytes 4 1)).
Proof.
  intros H. destruct (ex_sprout H 2 ltac:(auto)) as [t [O [_ [E1 [E2 [E3 [_ [E4 [E5 E6]]]]]]]]]. exists t. split; [exact O|].
  assert (readable_size (lit "zcash_sprout_main") (len [118])) as R by (right; vm_compute; intros [X _]; apply X; reflexivity).
  split; [rewrite E1; cbn; lia|]. split; [exact R|].
  rewrite (sprout_request H (lit "zcash_sprout_main") ZcashSproutMain t 0 [118] false eq_refl O); [|left; rewrite E1; cbn; lia|exact R|reflexivity].
  assert (len (sprout_signed 0 [118] t) <= 100000) as L by (unfold sprout_signed; rewrite E1, E2, E3, E4, E5, E6; vm_compute; discriminate).
  apply Z.leb_le in L. rewrite E1, L. reflexivity.
Qed.
