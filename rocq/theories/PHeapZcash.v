(* C76: objects of the Zcash classes behave as the values of MZcash.v.
   [is_sprout_zkproof] ... [is_sapling_tx] are in SHeapZcash.v, [sequence_of] and
   [optional] in SHeapTx.v; [run] is any sequence of operations of a program
   (MHeap.v); [closed] (LHeap.v) says that the _bytes attributes in the heap refer
   to cells of the heap. *)
From Coq Require Import String.
From Verif Require Import Py SHash LBase MNet MUtils MShared MTx MZcash MHeap MHeapTx MHeapDecred MHeapZcash SHeap SHeapTx SHeapZcash LHeap LHeapTx LHeapDecred LHeapZcash PZSign.
Open Scope list_scope.
Open Scope Z_scope.

(* each constructor, given bytes and objects, returns an object with the fields
   and bytes of the record, or raises the same exception *)
Theorem sprout_zkproof_object : forall net h a a' b b' c c' k i, closed h ->
  match SproutZkproof net a a' b b' c c' k i with
  | Ok z => exists h' l, new_sprout_zkproof net h (VB a) (VB a') (VB b) (VB b') (VB c) (VB c') (VB k) (VB i) = Ok (h', l) /\
              is_sprout_zkproof h' (VRef l) z /\ closed h'
  | Err e => new_sprout_zkproof net h (VB a) (VB a') (VB b) (VB b') (VB c) (VB c') (VB k) (VB i) = Err e
  end.
Proof. intros net h a a' b b' c c' k i Cl. exact (sprout_zkproof_agrees net h Cl a a' b b' c c' k i). Qed.
Print Assumptions sprout_zkproof_object.
Theorem sapling_zkproof_object : forall net h a b c, closed h ->
  match SaplingZkproof net a b c with
  | Ok z => exists h' l, new_sapling_zkproof net h (VB a) (VB b) (VB c) = Ok (h', l) /\ is_sapling_zkproof h' (VRef l) z /\ closed h'
  | Err e => new_sapling_zkproof net h (VB a) (VB b) (VB c) = Err e
  end.
Proof. intros net h a b c Cl. exact (sapling_zkproof_agrees net h Cl a b c). Qed.
Print Assumptions sapling_zkproof_object.
Theorem sprout_joinsplit_object : forall net h old new anchor nulls comms key seed macs v z notes, closed h -> is_sprout_zkproof h v z ->
  match SproutJoinsplit net old new anchor nulls comms key seed macs z notes with
  | Ok j => exists h' l, new_joinsplit net h (VB old) (VB new) (VB anchor) (VB nulls) (VB comms) (VB key) (VB seed) (VB macs) v (VB notes) = Ok (h', l) /\
              is_sprout_joinsplit h' (VRef l) j /\ closed h'
  | Err e => new_joinsplit net h (VB old) (VB new) (VB anchor) (VB nulls) (VB comms) (VB key) (VB seed) (VB macs) v (VB notes) = Err e
  end.
Proof. intros net h a b c d e f g i v z n Cl. exact (sprout_joinsplit_agrees net h Cl a b c d e f g i v z n). Qed.
Print Assumptions sprout_joinsplit_object.
Theorem sapling_joinsplit_object : forall net h old new anchor nulls comms key seed macs v z notes, closed h -> is_sapling_zkproof h v z ->
  match SaplingJoinsplit net old new anchor nulls comms key seed macs z notes with
  | Ok j => exists h' l, new_joinsplit net h (VB old) (VB new) (VB anchor) (VB nulls) (VB comms) (VB key) (VB seed) (VB macs) v (VB notes) = Ok (h', l) /\
              is_sapling_joinsplit h' (VRef l) j /\ closed h'
  | Err e => new_joinsplit net h (VB old) (VB new) (VB anchor) (VB nulls) (VB comms) (VB key) (VB seed) (VB macs) v (VB notes) = Err e
  end.
Proof. intros net h a b c d e f g i v z n Cl. exact (sapling_joinsplit_agrees net h Cl a b c d e f g i v z n). Qed.
Print Assumptions sapling_joinsplit_object.
Theorem shielded_spend_object : forall net h cv anchor null rk v z sig, closed h -> is_sapling_zkproof h v z ->
  match SaplingShieldedSpend net cv anchor null rk z sig with
  | Ok s => exists h' l, new_shielded_spend net h (VB cv) (VB anchor) (VB null) (VB rk) v (VB sig) = Ok (h', l) /\ is_shielded_spend h' (VRef l) s /\ closed h'
  | Err e => new_shielded_spend net h (VB cv) (VB anchor) (VB null) (VB rk) v (VB sig) = Err e
  end.
Proof. intros net h a b c d v z s Cl. exact (shielded_spend_agrees net h Cl a b c d v z s). Qed.
Print Assumptions shielded_spend_object.
Theorem shielded_output_object : forall net h cv cmu key enc out v z, closed h -> is_sapling_zkproof h v z ->
  match SaplingShieldedOutput net cv cmu key enc out z with
  | Ok s => exists h' l, new_shielded_output net h (VB cv) (VB cmu) (VB key) (VB enc) (VB out) v = Ok (h', l) /\ is_shielded_output h' (VRef l) s /\ closed h'
  | Err e => new_shielded_output net h (VB cv) (VB cmu) (VB key) (VB enc) (VB out) v = Err e
  end.
Proof. intros net h a b c d e v z Cl. exact (shielded_output_agrees net h Cl a b c d e v z). Qed.
Print Assumptions shielded_output_object.

Theorem sprout_tx_object : forall H net h version vi ins vo outs lock vj js pubkey sig, closed h ->
  sequence_of h (is_txin h) vi ins -> sequence_of h (is_txout h) vo outs -> optional_sequence_of h (is_sprout_joinsplit h) vj js ->
  match SproutTx H net (Some version) ins outs lock js pubkey sig with
  | Ok t => exists h' l, new_sprout_tx H net h (VB version) vi vo (VB lock) vj (optional pubkey) (optional sig) = Ok (h', l) /\
              is_sprout_tx h' (VRef l) t /\ closed h'
  | Err e => new_sprout_tx H net h (VB version) vi vo (VB lock) vj (optional pubkey) (optional sig) = Err e
  end.
Proof. intros H net h v vi ins vo outs lt vj js pk sg Cl. exact (sprout_agrees H net h Cl v vi ins vo outs lt vj js pk sg). Qed.
Print Assumptions sprout_tx_object.
Theorem overwinter_tx_object : forall H net h vi ins vo outs lock expiry vj js pubkey sig, closed h ->
  sequence_of h (is_txin h) vi ins -> sequence_of h (is_txout h) vo outs -> sequence_of h (is_sprout_joinsplit h) vj js ->
  match OverwinterTx H net ins outs lock expiry js pubkey sig with
  | Ok t => exists h' l, new_overwinter_tx H net h vi vo (VB lock) (VB expiry) vj (optional pubkey) (optional sig) = Ok (h', l) /\
              is_overwinter_tx h' (VRef l) t /\ closed h'
  | Err e => new_overwinter_tx H net h vi vo (VB lock) (VB expiry) vj (optional pubkey) (optional sig) = Err e
  end.
Proof. intros H net h vi ins vo outs lt ex vj js pk sg Cl. exact (overwinter_agrees H net h Cl vi ins vo outs lt ex vj js pk sg). Qed.
Print Assumptions overwinter_tx_object.
Theorem sapling_tx_object : forall H net h vi ins vo outs lock expiry balance vs ss vp so vj js pubkey sig binding, closed h ->
  sequence_of h (is_txin h) vi ins -> sequence_of h (is_txout h) vo outs -> optional_sequence_of h (is_shielded_spend h) vs ss ->
  optional_sequence_of h (is_shielded_output h) vp so -> optional_sequence_of h (is_sapling_joinsplit h) vj js ->
  match SaplingTx H net ins outs lock expiry balance ss so js pubkey sig binding with
  | Ok t => exists h' l,
      new_sapling_tx H net h vi vo (VB lock) (VB expiry) (VB balance) vs vp vj (optional pubkey) (optional sig) (optional binding) = Ok (h', l) /\
      is_sapling_tx h' (VRef l) t /\ closed h'
  | Err e => new_sapling_tx H net h vi vo (VB lock) (VB expiry) (VB balance) vs vp vj (optional pubkey) (optional sig) (optional binding) = Err e
  end.
Proof.
  intros H net h vi ins vo outs lt ex bal vs ss vp so vj js pk sg bs Cl.
  exact (sapling_agrees H net h Cl vi ins vo outs lt ex bal vs ss vp so vj js pk sg bs).
Qed.
Print Assumptions sapling_tx_object.

(* whatever a program does afterwards - to the lists it passed, to other objects
   or to this one - the object stays that transaction or part *)
Theorem zcash_tx_forever : forall h v ops,
  (forall t, is_sprout_tx h v t -> is_sprout_tx (run h ops) v t) /\
  (forall t, is_overwinter_tx h v t -> is_overwinter_tx (run h ops) v t) /\
  (forall t, is_sapling_tx h v t -> is_sapling_tx (run h ops) v t).
Proof.
  intros h v ops. pose proof (run_preserves ops h) as P.
  split; [|split]; intros t; [apply sprout_tx_preserved|apply overwinter_tx_preserved|apply sapling_tx_preserved]; exact P.
Qed.
Print Assumptions zcash_tx_forever.
Theorem zcash_part_forever : forall h v ops,
  (forall z, is_sprout_zkproof h v z -> is_sprout_zkproof (run h ops) v z) /\
  (forall z, is_sapling_zkproof h v z -> is_sapling_zkproof (run h ops) v z) /\
  (forall j, is_sprout_joinsplit h v j -> is_sprout_joinsplit (run h ops) v j) /\
  (forall j, is_sapling_joinsplit h v j -> is_sapling_joinsplit (run h ops) v j) /\
  (forall s, is_shielded_spend h v s -> is_shielded_spend (run h ops) v s) /\
  (forall s, is_shielded_output h v s -> is_shielded_output (run h ops) v s).
Proof.
  intros h v ops. pose proof (run_preserves ops h) as P.
  split; [|split; [|split; [|split; [|split]]]]; intros x;
    [apply sprout_zkproof_preserved|apply sapling_zkproof_preserved|apply sprout_joinsplit_preserved|apply sapling_joinsplit_preserved
    |apply shielded_spend_preserved|apply shielded_output_preserved]; exact P.
Qed.
Print Assumptions zcash_part_forever.

(* copy, with arguments or without, and calculate_fee agree with the value model *)
Theorem sprout_copy_object : forall H net h l t version ai oi ao oo lock aj oj pubkey sig, closed h -> is_sprout_tx h (VRef l) t ->
  optional_sequence_of h (is_txin h) ai oi -> optional_sequence_of h (is_txout h) ao oo -> optional_sequence_of h (is_sprout_joinsplit h) aj oj ->
  match SproutTx_copy H net t version oi oo lock oj pubkey sig with
  | Ok c => exists h' l', sprout_copy H net h l (optional version) ai ao (optional lock) aj (optional pubkey) (optional sig) = Ok (h', l') /\
              is_sprout_tx h' (VRef l') c /\ closed h'
  | Err e => sprout_copy H net h l (optional version) ai ao (optional lock) aj (optional pubkey) (optional sig) = Err e
  end.
Proof. intros H net h l t v ai oi ao oo lt aj oj pk sg Cl. exact (sprout_copy_agrees H net h Cl l t v ai ao aj oi oo oj lt pk sg). Qed.
Print Assumptions sprout_copy_object.
Theorem overwinter_copy_object : forall H net h l t ai oi ao oo lock expiry aj oj pubkey sig, closed h -> is_overwinter_tx h (VRef l) t ->
  optional_sequence_of h (is_txin h) ai oi -> optional_sequence_of h (is_txout h) ao oo -> optional_sequence_of h (is_sprout_joinsplit h) aj oj ->
  match OverwinterTx_copy H net t oi oo lock expiry oj pubkey sig with
  | Ok c => exists h' l', overwinter_copy H net h l ai ao (optional lock) (optional expiry) aj (optional pubkey) (optional sig) = Ok (h', l') /\
              is_overwinter_tx h' (VRef l') c /\ closed h'
  | Err e => overwinter_copy H net h l ai ao (optional lock) (optional expiry) aj (optional pubkey) (optional sig) = Err e
  end.
Proof. intros H net h l t ai oi ao oo lt ex aj oj pk sg Cl. exact (overwinter_copy_agrees H net h Cl l t ai ao aj oi oo oj lt ex pk sg). Qed.
Print Assumptions overwinter_copy_object.
Theorem sapling_copy_object : forall H net h l t ai oi ao oo lock expiry balance vs os vp op aj oj pubkey sig binding, closed h -> is_sapling_tx h (VRef l) t ->
  optional_sequence_of h (is_txin h) ai oi -> optional_sequence_of h (is_txout h) ao oo -> optional_sequence_of h (is_shielded_spend h) vs os ->
  optional_sequence_of h (is_shielded_output h) vp op -> optional_sequence_of h (is_sapling_joinsplit h) aj oj ->
  match SaplingTx_copy H net t oi oo lock expiry balance os op oj pubkey sig binding with
  | Ok c => exists h' l',
      sapling_copy H net h l ai ao (optional lock) (optional expiry) (optional balance) vs vp aj (optional pubkey) (optional sig) (optional binding) = Ok (h', l') /\
      is_sapling_tx h' (VRef l') c /\ closed h'
  | Err e => sapling_copy H net h l ai ao (optional lock) (optional expiry) (optional balance) vs vp aj (optional pubkey) (optional sig) (optional binding) = Err e
  end.
Proof.
  intros H net h l t ai oi ao oo lt ex bal vs os vp op aj oj pk sg bs Cl.
  exact (sapling_copy_agrees H net h Cl l t ai ao vs vp aj oi oo os op oj lt ex bal pk sg bs).
Qed.
Print Assumptions sapling_copy_object.
Theorem zcash_fee_object : forall h l values,
  (forall t, is_sprout_tx h (VRef l) t -> zcash_calculate_fee h l values = sprout_calculate_fee t values) /\
  (forall t, is_overwinter_tx h (VRef l) t -> zcash_calculate_fee h l values = Ok (overwinter_calculate_fee t values)) /\
  (forall t, is_sapling_tx h (VRef l) t -> sapling_fee h l values = Ok (sapling_calculate_fee t values)).
Proof. intros h l values. split; [|split]; intros t; [apply sprout_fee|apply overwinter_fee|apply sapling_fee_agrees]. Qed.
Print Assumptions zcash_fee_object.

(* a Sapling transaction with one input, output, spend and joinsplit from lists,
   which are then emptied *)
Definition sapling_object_ex : res (heap * nat * nat * nat) :=
  ' (h, o) <- new_outpoint [] (VB (zrepeat 7 32)) (VB [1; 2; 3; 4]) ;;
  ' (h, i) <- new_txin h (VRef o) (VB [0x51]) (VB []) (VB [9; 9; 9; 9]) ;;
  ' (h, p) <- new_txout h (VB [3; 0; 0; 0; 0; 0; 0; 0]) (VB [0x52]) ;;
  ' (h, z) <- new_sapling_zkproof ZcashSaplingMain h (VB (zrepeat 1 48)) (VB (zrepeat 2 96)) (VB (zrepeat 3 48)) ;;
  ' (h, s) <- new_shielded_spend ZcashSaplingMain h (VB (zrepeat 4 32)) (VB (zrepeat 5 32)) (VB (zrepeat 6 32)) (VB (zrepeat 7 32)) (VRef z) (VB (zrepeat 8 64)) ;;
  ' (h, j) <- new_joinsplit ZcashSaplingMain h (VB (zrepeat 0 8)) (VB [5; 0; 0; 0; 0; 0; 0; 0]) (VB (zrepeat 1 32)) (VB (zrepeat 2 64)) (VB (zrepeat 3 64))
                (VB (zrepeat 4 32)) (VB (zrepeat 5 32)) (VB (zrepeat 6 64)) (VRef z) (VB (zrepeat 9 1202)) ;;
  let h := h ++ [CList [VRef i]; CList [VRef p]; CList [VRef s]; CList []; CList [VRef j]] in
  let n := (length h - 5)%nat in
  ' (h, l) <- new_sapling_tx small ZcashSaplingMain h (VRef n) (VRef (1 + n)) (VB (zrepeat 0 4)) (VB (zrepeat 0 4)) (VB (2 :: zrepeat 0 7))
                (VRef (2 + n)) (VRef (3 + n)) (VRef (4 + n)) (VB (zrepeat 1 32)) (VB (zrepeat 2 64)) (VB (zrepeat 3 64)) ;;
  Ok (h, l, n, j).
Example sapling_object_run :
  match sapling_object_ex with
  | Ok (h, l, n, j) =>
      let h' := run h [OMutateList (4 + n) []; OMutateList n []; OAttrIadd l (lit "tx_joinsplits") (VTuple [VNone]); OSetattr l (lit "hsigs") (VB [])] in
      items h' (VRef (4 + n)) = Some [] /\ getattr h' l (lit "tx_joinsplits") = Ok (VTuple [VRef j]) /\
      getattr h' l (lit "hsigs") = Ok (VTuple [VB (blake2b small (zrepeat 5 32 ++ zrepeat 2 64 ++ zrepeat 1 32) 32 (lit "ZcashComputehSig"))]) /\
      content h' (VRef l) = content h (VRef l) /\ option_map zlen (content h (VRef l)) = Some 2323 /\
      sapling_fee h' l [10] = Ok 14
  | Err _ => False
  end.
Proof. vm_compute. repeat split. Qed.

(* a Sprout transaction of version 1 given None for the joinsplits fails with
   TypeError, and one of version 2 without joinsplits works *)
Definition sprout_object_ex (version : bytes) (with_list : bool) : res (heap * nat) :=
  ' (h, o) <- new_outpoint [] (VB (zrepeat 7 32)) (VB [1; 2; 3; 4]) ;;
  ' (h, i) <- new_txin h (VRef o) (VB [0x51]) (VB []) (VB [9; 9; 9; 9]) ;;
  ' (h, p) <- new_txout h (VB [3; 0; 0; 0; 0; 0; 0; 0]) (VB [0x52]) ;;
  new_sprout_tx small ZcashSproutMain h (VB version) (VTuple [VRef i]) (VTuple [VRef p]) (VB (zrepeat 0 4))
    (if with_list then VTuple [] else VNone) (VB (zrepeat 1 32)) (VB []).
Example sprout_object_run :
  sprout_object_ex [1; 0; 0; 0] false = Err TypeError /\
  match sprout_object_ex [2; 0; 0; 0] true with
  | Ok (h, l) => getattr h l (lit "hsigs") = Ok (VTuple []) /\ option_map zlen (content h (VRef l)) = Some 95 /\
      match sprout_copy small ZcashSproutMain h l VNone VNone VNone (VB [1; 0; 0; 0]) VNone VNone VNone with
      | Ok (h', c) => getattr h' c (lit "lock_time") = Ok (VB [1; 0; 0; 0]) | Err _ => False end
  | Err _ => False
  end.
Proof. vm_compute. repeat split. Qed.

(* an Overwinter transaction without joinsplits: the key given is dropped *)
Definition overwinter_object_ex : res (heap * nat) :=
  ' (h, o) <- new_outpoint [] (VB (zrepeat 7 32)) (VB [1; 2; 3; 4]) ;;
  ' (h, i) <- new_txin h (VRef o) (VB [0x51]) (VB []) (VB [9; 9; 9; 9]) ;;
  ' (h, p) <- new_txout h (VB [3; 0; 0; 0; 0; 0; 0; 0]) (VB [0x52]) ;;
  new_overwinter_tx small ZcashOverwinterMain h (VTuple [VRef i]) (VTuple [VRef p]) (VB (zrepeat 0 4)) (VB (zrepeat 0 4))
    (VTuple []) (VB (zrepeat 1 32)) VNone.
Example overwinter_object_run :
  match overwinter_object_ex with
  | Ok (h, l) => getattr h l (lit "joinsplit_pubkey") = Ok VNone /\ getattr h l (lit "tx_joinsplits") = Ok (VTuple []) /\
      zcash_calculate_fee h l [10] = Ok 7
  | Err _ => False
  end.
Proof. vm_compute. repeat split. Qed.
