(* C42, C43, C44: signature digests of Overwinter and Sapling transactions against
   ZIP 143 and ZIP 243; C52: those of Sprout transactions.  The digests [zip143],
   [zip243] and the Sprout message [sprout_signed] are in SZcash.v; hash types are
   ALL, NONE and SINGLE ([ztype]), numbered 1, 2 and 3. *)
From Coq Require Import String.
From Verif Require Import Py LBase MNet MUtils MShared MScript MTx MZcash SNum SNet SHash SScript STx SSig SZcash LUtils LNet LTx LZcash LZcashTx LSapling LSprout LZip LZip243 LZcashTop LZipTop LSproutSig PTx PZcash.
Open Scope list_scope.
Open Scope Z_scope.

(** * sighash *)

(* C42: the ZIP 143 digest for input [n], its script and its value.  Missing:
   NONE without ANYONECANPAY, and SINGLE beyond the outputs *)
Theorem overwinter_sighash_partial : forall H net t ty anyone n i script value, overwinter_obj H net t ->
  nth_error (ow_tx_ins t) n = Some i ->
  (ty = ZSingle -> (n < length (ow_tx_outs t))%nat) -> ty <> ZNone \/ anyone = true ->
  let signed := zip_signed {| si_index := n; si_script := script; si_value := value |} (the_input i) in
  overwinter_sighash H net t (ztype_number ty) (Some value) (Some (string_wire script)) (Z.of_nat n) false anyone =
  Ok (zip143 H ty anyone n signed t).
Proof. exact ow_right. Qed.
Print Assumptions overwinter_sighash_partial.
(* C43: the ZIP 243 digest *)
Theorem sapling_sighash_partial : forall H net t ty anyone n i script value, sapling_obj H net t ->
  nth_error (sa_tx_ins t) n = Some i ->
  (ty = ZSingle -> (n < length (sa_tx_outs t))%nat) -> ty <> ZNone \/ anyone = true ->
  let signed := zip_signed {| si_index := n; si_script := script; si_value := value |} (the_input i) in
  sapling_sighash H net t (ztype_number ty) (Some value) (Z.of_nat n) false (Some (string_wire script)) anyone =
  Ok (zip243 H ty anyone n signed t).
Proof. exact sa_right. Qed.
Print Assumptions sapling_sighash_partial.
(* for the JoinSplit signature no input is signed; script and value are not looked at *)
Theorem overwinter_joinsplit_sighash_partial : forall H net t ty n script value, overwinter_obj H net t ->
  (ty = ZSingle -> (n < length (ow_tx_outs t))%nat) -> ty <> ZNone ->
  overwinter_sighash H net t (ztype_number ty) value script (Z.of_nat n) true false = Ok (zip143 H ty false n [] t).
Proof. intros H net t ty n script value. exact (ow_right_js H net t ty n script value). Qed.
Print Assumptions overwinter_joinsplit_sighash_partial.
Theorem sapling_joinsplit_sighash_partial : forall H net t ty n script value, sapling_obj H net t ->
  (ty = ZSingle -> (n < length (sa_tx_outs t))%nat) -> ty <> ZNone ->
  sapling_sighash H net t (ztype_number ty) value (Z.of_nat n) true script false = Ok (zip243 H ty false n [] t).
Proof. intros H net t ty n script value. exact (sa_right_js H net t ty n script value). Qed.
Print Assumptions sapling_joinsplit_sighash_partial.
(* JoinSplit signatures with ANYONECANPAY are refused, and so are positions without input *)
Theorem zip_sighash_refused : forall H net ty n script value,
  (forall t, overwinter_obj H net t ->
     overwinter_sighash H net t (ztype_number ty) value script (Z.of_nat n) true true = Err ValueError) /\
  (forall t, sapling_obj H net t ->
     sapling_sighash H net t (ztype_number ty) value (Z.of_nat n) true script true = Err ValueError) /\
  (forall t anyone, overwinter_obj H net t -> nth_error (ow_tx_ins t) n = None -> (ty = ZSingle -> (n < length (ow_tx_outs t))%nat) ->
     overwinter_sighash H net t (ztype_number ty) value script (Z.of_nat n) false anyone = Err IndexError) /\
  (forall t anyone, sapling_obj H net t -> nth_error (sa_tx_ins t) n = None -> (ty = ZSingle -> (n < length (sa_tx_outs t))%nat) ->
     sapling_sighash H net t (ztype_number ty) value (Z.of_nat n) false script anyone = Err IndexError).
Proof.
  intros H net ty n script value. split; [|split; [|split]].
  - intros t O. rewrite (overwinter_digest H net t ty true true n _ _ O). reflexivity.
  - intros t O. rewrite (sapling_digest H net t ty true true n _ _ O). reflexivity.
  - intros t anyone. exact (ow_digest_index H net t ty n script value anyone).
  - intros t anyone. exact (sa_digest_index H net t ty n script value anyone).
Qed.
Print Assumptions zip_sighash_refused.
Example zip_sighash_ex : forall H, (exists t, overwinter_obj H ZcashOverwinterMain t /\ nth_error (ow_tx_ins t) 0 = Some ex_input /\ (0 < length (ow_tx_outs t))%nat) /\
  (exists t, sapling_obj H ZcashSaplingMain t /\ nth_error (sa_tx_ins t) 0 = Some ex_input /\ (0 < length (sa_tx_outs t))%nat).
Proof.
  intros H. split; [destruct (ex_overwinter H) as [t [O [E1 [E2 _]]]]|destruct (ex_sapling H 1%nat ltac:(cbn; auto)) as [t [O [E1 [E2 _]]]]];
    exists t; (split; [exact O|]); rewrite E1, E2; (split; [reflexivity|vm_compute; lia]).
Qed.

(* NONE without ANYONECANPAY: the sequence numbers are hashed.  If the result is
   nevertheless that of the ZIP, then a hash is zero or these two messages collide *)
Theorem overwinter_none : forall H net t n i script value, overwinter_obj H net t -> nth_error (ow_tx_ins t) n = Some i ->
  let signed := zip_signed {| si_index := n; si_script := script; si_value := value |} (the_input i) in
  let sequences := personal H "ZcashSequencHash" (concat (map in_sequence (map the_input (ow_tx_ins t)))) in
  let hashed := zip143_with H sequences ZNone false n signed t in
  let result := overwinter_sighash H net t 2 (Some value) (Some (string_wire script)) (Z.of_nat n) false false in
  result = Ok (zip143_hash H hashed) /\
  (result = Ok (zip143 H ZNone false n signed t) ->
   sequences = zero32 \/ collision (zip143_hash H) [hashed; zip143_message H ZNone false n signed t]).
Proof. exact ow_none. Qed.
Print Assumptions overwinter_none.
Theorem sapling_none : forall H net t n i script value, sapling_obj H net t -> nth_error (sa_tx_ins t) n = Some i ->
  let signed := zip_signed {| si_index := n; si_script := script; si_value := value |} (the_input i) in
  let sequences := personal H "ZcashSequencHash" (concat (map in_sequence (map the_input (sa_tx_ins t)))) in
  let hashed := zip243_with H sequences ZNone false n signed t in
  let result := sapling_sighash H net t 2 (Some value) (Z.of_nat n) false (Some (string_wire script)) false in
  result = Ok (zip243_hash H hashed) /\
  (result = Ok (zip243 H ZNone false n signed t) ->
   sequences = zero32 \/ collision (zip243_hash H) [hashed; zip243_message H ZNone false n signed t]).
Proof. exact sa_none. Qed.
Print Assumptions sapling_none.

(* SINGLE beyond the outputs: the ZIPs have a digest, the code an error *)
Theorem zip_single_refuted : forall H net n script value anyone joinsplit,
  (forall t, overwinter_obj H net t -> (length (ow_tx_outs t) <= n)%nat ->
     overwinter_sighash H net t 3 value script (Z.of_nat n) joinsplit anyone =
     Err (if joinsplit && anyone then ValueError else if (n =? length (ow_tx_outs t))%nat then IndexError else NotImplementedError)) /\
  (forall t, sapling_obj H net t -> (length (sa_tx_outs t) <= n)%nat ->
     sapling_sighash H net t 3 value (Z.of_nat n) joinsplit script anyone =
     Err (if joinsplit && anyone then ValueError else if (n =? length (sa_tx_outs t))%nat then IndexError else NotImplementedError)).
Proof.
  intros H net n script value anyone joinsplit. split; intros t.
  - exact (ow_digest_single H net t n script value joinsplit anyone).
  - exact (sa_digest_single H net t n script value joinsplit anyone).
Qed.
Print Assumptions zip_single_refuted.

(** * sighash_all and sighash_single *)

(* C44: the flag has no effect; the result is the digest without ANYONECANPAY.  It
   would be the one with it only if these two messages, which differ, collide *)
Theorem overwinter_anyone_refuted : forall H net t anyone n i script value, overwinter_obj H net t -> nth_error (ow_tx_ins t) n = Some i ->
  let signed := zip_signed {| si_index := n; si_script := script; si_value := value |} (the_input i) in
  let all := overwinter_sighash_all H net t anyone (Some value) (Some (string_wire script)) (Z.of_nat n) false in
  let single := overwinter_sighash_single H net t anyone (Some value) (Some (string_wire script)) (Z.of_nat n) false in
  all = Ok (zip143 H ZAll false n signed t) /\
  (all = Ok (zip143 H ZAll true n signed t) ->
   collision (zip143_hash H) [zip143_message H ZAll false n signed t; zip143_message H ZAll true n signed t]) /\
  ((n < length (ow_tx_outs t))%nat ->
   single = Ok (zip143 H ZSingle false n signed t) /\
   (single = Ok (zip143 H ZSingle true n signed t) ->
    collision (zip143_hash H) [zip143_message H ZSingle false n signed t; zip143_message H ZSingle true n signed t])).
Proof.
  intros H net t anyone n i script value O E signed all single.
  destruct (ow_flag H net t ZAll anyone n i script value O E ltac:(discriminate) ltac:(discriminate)) as [A B]. split; [exact A|]. split; [exact B|].
  intros L. exact (ow_flag H net t ZSingle anyone n i script value O E (fun _ => L) ltac:(discriminate)).
Qed.
Print Assumptions overwinter_anyone_refuted.
Theorem sapling_anyone_refuted : forall H net t anyone n i script value, sapling_obj H net t -> nth_error (sa_tx_ins t) n = Some i ->
  let signed := zip_signed {| si_index := n; si_script := script; si_value := value |} (the_input i) in
  let all := sapling_sighash_all H net t anyone (Some value) (Z.of_nat n) false (Some (string_wire script)) in
  let single := sapling_sighash_single H net t anyone (Some value) (Z.of_nat n) false (Some (string_wire script)) in
  all = Ok (zip243 H ZAll false n signed t) /\
  (all = Ok (zip243 H ZAll true n signed t) ->
   collision (zip243_hash H) [zip243_message H ZAll false n signed t; zip243_message H ZAll true n signed t]) /\
  ((n < length (sa_tx_outs t))%nat ->
   single = Ok (zip243 H ZSingle false n signed t) /\
   (single = Ok (zip243 H ZSingle true n signed t) ->
    collision (zip243_hash H) [zip243_message H ZSingle false n signed t; zip243_message H ZSingle true n signed t])).
Proof.
  intros H net t anyone n i script value O E signed all single.
  destruct (sa_flag H net t ZAll anyone n i script value O E ltac:(discriminate) ltac:(discriminate)) as [A B]. split; [exact A|]. split; [exact B|].
  intros L. exact (sa_flag H net t ZSingle anyone n i script value O E (fun _ => L) ltac:(discriminate)).
Qed.
Print Assumptions sapling_anyone_refuted.
(* that is a difference: with the toy hash, for one input and one output *)
Theorem zcash_digests_refuted : exists t, overwinter_obj toy ZcashOverwinterMain t /\
  let signed := zip_signed {| si_index := 0; si_script := [118]; si_value := repeat 1 8 |} (the_input ex_input) in
  overwinter_sighash_all toy ZcashOverwinterMain t true (Some (repeat 1 8)) (Some [1; 118]) 0 false <> Ok (zip143 toy ZAll true 0 signed t) /\
  overwinter_sighash toy ZcashOverwinterMain t 2 (Some (repeat 1 8)) (Some [1; 118]) 0 false false <> Ok (zip143 toy ZNone false 0 signed t).
Proof.
  destruct ex_parts as [Fi [Fo _]].
  destruct (OverwinterTx toy ZcashOverwinterMain [ex_input] [ex_output] (repeat 0 4) (repeat 1 4) [] None None) as [t|e] eqn:E; [|vm_compute in E; discriminate].
  exists t. vm_compute in E. apply Ok_inj in E. subst t. split; [split; [exact Fi|split; [exact Fo|split; [constructor|vm_compute; reflexivity]]]|].
  split; vm_compute; discriminate.
Qed.
Print Assumptions zcash_digests_refuted.

(** * Sprout *)

(* C52: sighash_all signs the transaction as in Bitcoin, without JoinSplit
   signature; it fails when that is too large *)
Theorem sprout_sighash : forall H name net t n i code anyone, get_network name = Ok net -> sprout_obj H net t ->
  nth_error (sp_tx_ins t) n = Some i -> readable_size name (len code) -> len code < 2 ^ 64 ->
  sprout_sighash_all H net t (Z.of_nat n) (string_wire code) anyone =
  if (len code <=? 1650) && (len (sprout_signed n code t) <=? 100000) && negb anyone
  then Ok (sha256d H (sprout_signed n code t ++ le_bytes 4 1)) else Err ValueError.
Proof. intros H name net t n i code anyone En. exact (sprout_digest H name net En t n i code anyone). Qed.
Print Assumptions sprout_sighash.
(* without inputs any position and any script will do *)
Theorem sprout_sighash_no_inputs : forall H name net t index script anyone, get_network name = Ok net -> sprout_obj H net t ->
  sp_tx_ins t = [] ->
  sprout_sighash_all H net t index script anyone = if anyone then Err ValueError else Ok (sha256d H (sprout_signed 0 [] t ++ le_bytes 4 1)).
Proof. intros H name net t index script anyone En. exact (sprout_digest_none H name net En t index script anyone). Qed.
Print Assumptions sprout_sighash_no_inputs.
(* no digest for a position beyond the inputs, for SINGLE, or for ANYONECANPAY *)
Theorem sprout_sighash_errors : forall H net t, sprout_obj H net t ->
  (forall n script anyone, sp_tx_ins t <> [] -> nth_error (sp_tx_ins t) n = None -> exists e, sprout_sighash_all H net t (Z.of_nat n) script anyone = Err e) /\
  (forall index script anyone, sprout_sighash_single H net t index script anyone = Err ValueError) /\
  (forall index script, exists e, sprout_sighash_all H net t index script true = Err e).
Proof.
  intros H net t O. split; [|split].
  - intros n script anyone. exact (sprout_digest_index H net t n script anyone O).
  - intros index script anyone. exact (sprout_single_refused H net t index script anyone O).
  - intros index script. destruct (sprout_sighash_prep H net t index script) as [c|e] eqn:E.
    + exists ValueError. exact (sprout_acp_refused H net t index script O c E).
    + exists e. unfold sprout_sighash_all. rewrite E. reflexivity.
Qed.
Print Assumptions sprout_sighash_errors.
Example sprout_sighash_ex : forall H, exists t, sprout_obj H ZcashSproutMain t /\ nth_error (sp_tx_ins t) 0 = Some ex_input /\
  readable_size (lit "zcash_sprout_main") (len [118]) /\ len (sprout_signed 0 [118] t) <= 100000 /\
  firstn 42 (sprout_signed 0 [118] t) = [2; 0; 0; 0; 1] ++ repeat 7 32 ++ [1; 0; 0; 0; 1].
Proof.
  intros H. destruct (ex_sprout H 2 ltac:(auto)) as [t [O [_ [E1 [E2 [E3 [_ [E4 [E5 E6]]]]]]]]]. exists t. split; [exact O|].
  unfold sprout_signed. rewrite E1, E2, E3, E4, E5, E6. split; [reflexivity|]. split; [right; vm_compute; intros [X _]; apply X; reflexivity|].
  split; [vm_compute; discriminate|vm_compute; reflexivity].
Qed.
