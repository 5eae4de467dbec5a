(* What a Zcash signature digest speaks about *)
From Coq Require Import String.
From Verif Require Import Py SNum SNet SHash SScript STx SSig SZcash MNet MUtils MShared MTx MZcash.
Open Scope list_scope.
Open Scope Z_scope.

(* a request for a digest: for the input at a place, with the script and the value it
   spends, or (None) for the JoinSplit signature *)
Record zrequest := { zr_type : ztype; zr_anyone : bool; zr_place : nat; zr_signed : option (bytes * bytes) }.
Definition is_input (r : zrequest) : bool := match zr_signed r with Some _ => true | None => false end.
Definition overwinter_request H net t r : res bytes :=
  overwinter_sighash H net t (ztype_number (zr_type r)) (option_map snd (zr_signed r))
    (option_map (fun s => string_wire (fst s)) (zr_signed r)) (Z.of_nat (zr_place r)) (negb (is_input r)) (zr_anyone r).
Definition sapling_request H net t r : res bytes :=
  sapling_sighash H net t (ztype_number (zr_type r)) (option_map snd (zr_signed r)) (Z.of_nat (zr_place r)) (negb (is_input r))
    (option_map (fun s => string_wire (fst s)) (zr_signed r)) (zr_anyone r).

(* requests that make sense for a transaction with these inputs and outputs *)
Definition answerable (ins : list txin) (outs : list txout) (r : zrequest) : Prop :=
  (is_input r = true -> (zr_place r < length ins)%nat) /\
  (is_input r = false -> zr_anyone r = false) /\
  (zr_type r = ZSingle -> (zr_place r < length outs)%nat).

(** * the data that a request is about *)
Definition seen_outpoints (r : zrequest) (ins : list txin) : option (list (bytes * bytes)) :=
  if zr_anyone r then None else Some (map (fun i => (in_txid i, in_index i)) (map the_input ins)).
(* ZIP 143 and ZIP 243 say ALL only; the code also covers them for NONE *)
Definition seen_sequences (r : zrequest) (ins : list txin) : option (list bytes) :=
  match zr_type r, zr_anyone r with
  | ZSingle, _ | _, true => None
  | _, _ => Some (map in_sequence (map the_input ins))
  end.
Definition seen_outputs (r : zrequest) (outs : list txout) : list output :=
  match zr_type r with
  | ZAll => map the_output outs
  | ZNone => []
  | ZSingle => firstn 1 (skipn (zr_place r) (map the_output outs))
  end.
(* outpoint, sequence number, script and value *)
Definition seen_input (r : zrequest) (ins : list txin) : option (bytes * bytes * bytes * bytes * bytes) :=
  match zr_signed r, nth_error (map the_input ins) (zr_place r) with
  | Some (script, value), Some i => Some (in_txid i, in_index i, in_sequence i, script, value)
  | _, _ => None
  end.
(* a Spend description without its signature *)
Definition unsigned_spend (s : shielded_spend) : bytes * bytes * bytes * bytes * sapling_zkproof :=
  (ss_cv s, ss_anchor s, ss_nullifier s, ss_rk s, ss_zkproof s).

Record zseen (J : Type) := {
  seen_type : ztype * bool; seen_spent : option (list (bytes * bytes)); seen_seqs : option (list bytes); seen_outs : list output;
  seen_joinsplits : list J; seen_key : option bytes; seen_lock : bytes; seen_expiry : bytes; seen_balance : bytes;
  seen_spends : list (bytes * bytes * bytes * bytes * sapling_zkproof); seen_shielded : list shielded_output;
  seen_signed : option (bytes * bytes * bytes * bytes * bytes) }.
(* not among it: script sigs, the JoinSplit signature *)
Definition overwinter_seen (t : overwinter_tx) (r : zrequest) : zseen sprout_joinsplit :=
  {| seen_type := (zr_type r, zr_anyone r); seen_spent := seen_outpoints r (ow_tx_ins t);
     seen_seqs := seen_sequences r (ow_tx_ins t); seen_outs := seen_outputs r (ow_tx_outs t);
     seen_joinsplits := ow_tx_joinsplits t; seen_key := ow_joinsplit_pubkey t; seen_lock := ow_lock_time t;
     seen_expiry := ow_expiry_height t; seen_balance := []; seen_spends := []; seen_shielded := [];
     seen_signed := seen_input r (ow_tx_ins t) |}.
(* not among it: script sigs, the JoinSplit, Spend and binding signatures *)
Definition sapling_seen (t : sapling_tx) (r : zrequest) : zseen sapling_joinsplit :=
  {| seen_type := (zr_type r, zr_anyone r); seen_spent := seen_outpoints r (sa_tx_ins t);
     seen_seqs := seen_sequences r (sa_tx_ins t); seen_outs := seen_outputs r (sa_tx_outs t);
     seen_joinsplits := sa_tx_joinsplits t; seen_key := sa_joinsplit_pubkey t; seen_lock := sa_lock_time t;
     seen_expiry := sa_expiry_height t; seen_balance := sa_value_balance t;
     seen_spends := map unsigned_spend (sa_tx_shielded_spends t); seen_shielded := sa_tx_shielded_outputs t;
     seen_signed := seen_input r (sa_tx_ins t) |}.

(** * what is hashed for it: personalization and message *)
Definition blake_of (H : hashes) (m : bytes * bytes) : bytes := h_blake2b H (fst m) 32 (snd m).
Definition outpoints_message (ins : list txin) := (lit "ZcashPrevoutHash", concat (map outpoint_wire (map the_input ins))).
Definition sequences_message (ins : list txin) := (lit "ZcashSequencHash", concat (map in_sequence (map the_input ins))).
Definition outputs_message (l : list output) := (lit "ZcashOutputsHash", concat (map output_wire l)).
Definition joinsplits_message {A} (w : A -> bytes) (l : list A) (key : option bytes) :=
  (lit "ZcashJSplitsHash", concat (map w l) ++ opt key).
Definition spends_message (l : list shielded_spend) := (lit "ZcashSSpendsHash", concat (map spend_body_wire l)).
Definition shielded_message (l : list shielded_output) := (lit "ZcashSOutputHash", concat (map shielded_output_wire l)).
Definition sequences_hash H r ins := match seen_sequences r ins with Some _ => blake_of H (sequences_message ins) | None => zero32 end.
Definition signed_part (r : zrequest) (ins : list txin) : bytes :=
  match seen_input r ins with
  | Some (txid, index, sequence, script, value) => txid ++ index ++ string_wire script ++ value ++ sequence
  | None => []
  end.
Definition overwinter_top H t r :=
  (lit "ZcashSigHash" ++ le_bytes 4 0x5ba81b19,
   zip143_with H (sequences_hash H r (ow_tx_ins t)) (zr_type r) (zr_anyone r) (zr_place r) (signed_part r (ow_tx_ins t)) t).
Definition sapling_top H t r :=
  (lit "ZcashSigHash" ++ le_bytes 4 0x76b809bb,
   zip243_with H (sequences_hash H r (sa_tx_ins t)) (zr_type r) (zr_anyone r) (zr_place r) (signed_part r (sa_tx_ins t)) t).
(* the lists that are hashed only when they are not empty: an empty list counts as 32 zeros *)
Definition overwinter_lists (t : overwinter_tx) :=
  match ow_tx_joinsplits t with [] => [] | l => [joinsplits_message sprout_joinsplit_wire l (ow_joinsplit_pubkey t)] end.
Definition sapling_lists (t : sapling_tx) :=
  match sa_tx_joinsplits t with [] => [] | l => [joinsplits_message sapling_joinsplit_wire l (sa_joinsplit_pubkey t)] end ++
  match sa_tx_shielded_spends t with [] => [] | l => [spends_message l] end ++
  match sa_tx_shielded_outputs t with [] => [] | l => [shielded_message l] end.
Definition overwinter_hashed H t r :=
  overwinter_top H t r :: outpoints_message (ow_tx_ins t) :: sequences_message (ow_tx_ins t) ::
  outputs_message (seen_outputs r (ow_tx_outs t)) :: overwinter_lists t.
Definition sapling_hashed H t r :=
  sapling_top H t r :: outpoints_message (sa_tx_ins t) :: sequences_message (sa_tx_ins t) ::
  outputs_message (seen_outputs r (sa_tx_outs t)) :: sapling_lists t.

(* BLAKE2b fails: two of the messages collide, or a list hashes to the 32 zeros of the empty one *)
Definition blake_collision (H : hashes) (l : list (bytes * bytes)) : Prop :=
  exists a b, In a l /\ In b l /\ a <> b /\ blake_of H a = blake_of H b.
Definition blake_zero (H : hashes) (l : list (bytes * bytes)) : Prop := exists a, In a l /\ blake_of H a = zero32.

(** * Sprout *)
(* not among it: script sigs, the JoinSplit signature *)
Definition sprout_seen (t : sprout_tx) :=
  (sp_version t, map (fun i => (in_txid i, in_index i, in_sequence i)) (map the_input (sp_tx_ins t)), map the_output (sp_tx_outs t),
   sp_lock_time t, sp_tx_joinsplits t, sp_joinsplit_pubkey t).
