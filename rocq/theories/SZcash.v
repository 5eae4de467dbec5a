(* Zcash transactions on the wire: the Sprout, Overwinter and Sapling formats
   (Zcash protocol specification, section 7), and their signature digests
   (ZIP 143, ZIP 243).  Fields are read from the model's objects; the byte strings
   that the model stores next to them are not used. *)
From Coq Require Import String.
From Verif Require Import Py SNum SNet SHash SScript STx SSig MNet MUtils MShared MTx MZcash.
Open Scope list_scope.
Open Scope Z_scope.

Definition sprout_names : list str :=
  map lit ["zcash_sprout_main"; "zcash_sprout_test"; "zcash_sprout_reg"]%string.
Definition overwinter_names : list str :=
  map lit ["zcash_overwinter_main"; "zcash_overwinter_test"; "zcash_overwinter_reg"]%string.
Definition sapling_names : list str :=
  map lit ["zcash_sapling_main"; "zcash_sapling_test"; "zcash_sapling_reg"]%string.
Definition zcash_names : list str := sprout_names ++ overwinter_names ++ sapling_names.

(** * Parts: fields in order, each with its width *)

Definition layout := list (bytes * Z).
Definition fields_wire (l : layout) : bytes := concat (map fst l).
Definition widths_ok (l : layout) : Prop := Forall (fun f => len (fst f) = snd f) l.
Definition width (l : layout) : Z := fold_right Z.add 0 (map snd l).

(* BCTV14 proof *)
Definition sprout_proof_fields (p : sprout_zkproof) : layout :=
  [(zk_pi_sub_a p, 33); (zk_pi_prime_sub_a p, 33); (zk_pi_sub_b p, 65); (zk_pi_prime_sub_b p, 33);
   (zk_pi_sub_c p, 33); (zk_pi_prime_sub_c p, 33); (zk_pi_sub_k p, 33); (zk_pi_sub_h p, 33)].
(* Groth16 proof *)
Definition sapling_proof_fields (p : sapling_zkproof) : layout :=
  [(szk_pi_sub_a p, 48); (szk_pi_sub_b p, 96); (szk_pi_sub_c p, 48)].
Definition sprout_proof_wire p := fields_wire (sprout_proof_fields p).
Definition sapling_proof_wire p := fields_wire (sapling_proof_fields p).

(* JoinSplit descriptions differ in the proof only *)
Definition joinsplit_fields {P} (proof : P -> bytes * Z) (j : joinsplit P) : layout :=
  [(js_vpub_old j, 8); (js_vpub_new j, 8); (js_anchor j, 32); (js_nullifiers j, 64); (js_commitments j, 64);
   (js_ephemeral_key j, 32); (js_random_seed j, 32); (js_vmacs j, 64); proof (js_zkproof j); (js_encoded_notes j, 1202)].
Definition sprout_joinsplit_fields : sprout_joinsplit -> layout := joinsplit_fields (fun p => (sprout_proof_wire p, 296)).
Definition sapling_joinsplit_fields : sapling_joinsplit -> layout := joinsplit_fields (fun p => (sapling_proof_wire p, 192)).
(* value goes in or out, not both *)
Definition one_way {P} (j : joinsplit P) : Prop := le_value (js_vpub_old j) = 0 \/ le_value (js_vpub_new j) = 0.

(* a Spend description; the signature comes last *)
Definition spend_body_fields (s : shielded_spend) : layout :=
  [(ss_cv s, 32); (ss_anchor s, 32); (ss_nullifier s, 32); (ss_rk s, 32); (sapling_proof_wire (ss_zkproof s), 192)].
Definition spend_fields (s : shielded_spend) : layout := spend_body_fields s ++ [(ss_spend_auth_sig s, 64)].
(* an Output description *)
Definition output_fields (o : shielded_output) : layout :=
  [(so_cv o, 32); (so_cmu o, 32); (so_ephemeral_key o, 32); (so_enc_ciphertext o, 580); (so_out_ciphertext o, 80);
   (sapling_proof_wire (so_zkproof o), 192)].

Definition sprout_joinsplit_wire j := fields_wire (sprout_joinsplit_fields j).
Definition sapling_joinsplit_wire j := fields_wire (sapling_joinsplit_fields j).
Definition spend_wire s := fields_wire (spend_fields s).
Definition spend_body_wire s := fields_wire (spend_body_fields s).
Definition shielded_output_wire o := fields_wire (output_fields o).

(* what the JoinSplit constructors check, besides the proof *)
Definition joinsplit_rules (name : str) (vpub_old vpub_new anchor nullifiers commitments key seed vmacs notes : bytes) : Prop :=
  In name zcash_names /\ (le_value vpub_old = 0 \/ le_value vpub_new = 0) /\
  widths_ok [(vpub_old, 8); (vpub_new, 8); (anchor, 32); (nullifiers, 64); (commitments, 64); (key, 32); (seed, 32);
             (vmacs, 64); (notes, 1202)].

(* objects are what constructors return *)
Section Objects.
  Context (H : hashes) (net : network).
  Definition sprout_proof_obj (p : sprout_zkproof) : Prop :=
    SproutZkproof net (zk_pi_sub_a p) (zk_pi_prime_sub_a p) (zk_pi_sub_b p) (zk_pi_prime_sub_b p)
      (zk_pi_sub_c p) (zk_pi_prime_sub_c p) (zk_pi_sub_k p) (zk_pi_sub_h p) = Ok p.
  Definition sapling_proof_obj (p : sapling_zkproof) : Prop :=
    SaplingZkproof net (szk_pi_sub_a p) (szk_pi_sub_b p) (szk_pi_sub_c p) = Ok p.
  Definition sprout_joinsplit_obj (j : sprout_joinsplit) : Prop :=
    sprout_proof_obj (js_zkproof j) /\
    SproutJoinsplit net (js_vpub_old j) (js_vpub_new j) (js_anchor j) (js_nullifiers j) (js_commitments j)
      (js_ephemeral_key j) (js_random_seed j) (js_vmacs j) (js_zkproof j) (js_encoded_notes j) = Ok j.
  Definition sapling_joinsplit_obj (j : sapling_joinsplit) : Prop :=
    sapling_proof_obj (js_zkproof j) /\
    SaplingJoinsplit net (js_vpub_old j) (js_vpub_new j) (js_anchor j) (js_nullifiers j) (js_commitments j)
      (js_ephemeral_key j) (js_random_seed j) (js_vmacs j) (js_zkproof j) (js_encoded_notes j) = Ok j.
  Definition spend_obj (s : shielded_spend) : Prop :=
    sapling_proof_obj (ss_zkproof s) /\
    SaplingShieldedSpend net (ss_cv s) (ss_anchor s) (ss_nullifier s) (ss_rk s) (ss_zkproof s) (ss_spend_auth_sig s) = Ok s.
  Definition shielded_output_obj (o : shielded_output) : Prop :=
    sapling_proof_obj (so_zkproof o) /\
    SaplingShieldedOutput net (so_cv o) (so_cmu o) (so_ephemeral_key o) (so_enc_ciphertext o) (so_out_ciphertext o) (so_zkproof o) = Ok o.

  Definition sprout_obj (t : sprout_tx) : Prop :=
    all_bytes (sp_version t) /\ Forall txin_obj (sp_tx_ins t) /\ Forall txout_obj (sp_tx_outs t) /\
    match sp_tx_joinsplits t with Some l => Forall sprout_joinsplit_obj l | None => True end /\
    SproutTx H net (Some (sp_version t)) (sp_tx_ins t) (sp_tx_outs t) (sp_lock_time t) (sp_tx_joinsplits t)
      (sp_joinsplit_pubkey t) (sp_joinsplit_sig t) = Ok t.
  Definition overwinter_obj (t : overwinter_tx) : Prop :=
    Forall txin_obj (ow_tx_ins t) /\ Forall txout_obj (ow_tx_outs t) /\ Forall sprout_joinsplit_obj (ow_tx_joinsplits t) /\
    OverwinterTx H net (ow_tx_ins t) (ow_tx_outs t) (ow_lock_time t) (ow_expiry_height t) (ow_tx_joinsplits t)
      (ow_joinsplit_pubkey t) (ow_joinsplit_sig t) = Ok t.
  Definition sapling_obj (t : sapling_tx) : Prop :=
    Forall txin_obj (sa_tx_ins t) /\ Forall txout_obj (sa_tx_outs t) /\ Forall spend_obj (sa_tx_shielded_spends t) /\
    Forall shielded_output_obj (sa_tx_shielded_outputs t) /\ Forall sapling_joinsplit_obj (sa_tx_joinsplits t) /\
    SaplingTx H net (sa_tx_ins t) (sa_tx_outs t) (sa_lock_time t) (sa_expiry_height t) (sa_value_balance t)
      (Some (sa_tx_shielded_spends t)) (Some (sa_tx_shielded_outputs t)) (Some (sa_tx_joinsplits t))
      (sa_joinsplit_pubkey t) (sa_joinsplit_sig t) (sa_binding_sig t) = Ok t.
End Objects.

(** * Transactions *)

(* an absent field takes no space *)
Definition opt (b : option bytes) : bytes := match b with Some b => b | None => [] end.
Definition opts {A} (l : option (list A)) : list A := match l with Some l => l | None => [] end.

Definition inputs_wire (l : list txin) : bytes := vector_wire input_wire (map the_input l).
Definition outputs_wire (l : list txout) : bytes := vector_wire output_wire (map the_output l).
(* key and signature follow the JoinSplits *)
Definition joinsplits_wire {A} (w : A -> bytes) (l : list A) (key sig : option bytes) : bytes :=
  vector_wire w l ++ opt key ++ opt sig.

(* version 1 stops after the lock time *)
Definition sprout_layout (version : bytes) ins outs (lock : bytes) (js : list sprout_joinsplit) (key sig : option bytes) : bytes :=
  version ++ inputs_wire ins ++ outputs_wire outs ++ lock ++
  (if le_value version =? 1 then [] else joinsplits_wire sprout_joinsplit_wire js key sig).
Definition sprout_wire (t : sprout_tx) : bytes :=
  sprout_layout (sp_version t) (sp_tx_ins t) (sp_tx_outs t) (sp_lock_time t) (opts (sp_tx_joinsplits t))
    (sp_joinsplit_pubkey t) (sp_joinsplit_sig t).

(* nVersion 3 with the overwintered bit set; the version group id *)
Definition overwinter_header : bytes := le_bytes 4 (2 ^ 31 + 3) ++ le_bytes 4 0x03C48270.
Definition overwinter_layout ins outs (lock expiry : bytes) (js : list sprout_joinsplit) (key sig : option bytes) : bytes :=
  overwinter_header ++ inputs_wire ins ++ outputs_wire outs ++ lock ++ expiry ++
  joinsplits_wire sprout_joinsplit_wire js key sig.
Definition overwinter_wire (t : overwinter_tx) : bytes :=
  overwinter_layout (ow_tx_ins t) (ow_tx_outs t) (ow_lock_time t) (ow_expiry_height t) (ow_tx_joinsplits t)
    (ow_joinsplit_pubkey t) (ow_joinsplit_sig t).

Definition sapling_header : bytes := le_bytes 4 (2 ^ 31 + 4) ++ le_bytes 4 0x892F2085.
Definition sapling_layout ins outs (lock expiry balance : bytes) (spends : list shielded_spend) (outputs : list shielded_output)
  (js : list sapling_joinsplit) (key sig binding : option bytes) : bytes :=
  sapling_header ++ inputs_wire ins ++ outputs_wire outs ++ lock ++ expiry ++ balance ++
  vector_wire spend_wire spends ++ vector_wire shielded_output_wire outputs ++
  joinsplits_wire sapling_joinsplit_wire js key sig ++ opt binding.
Definition sapling_wire (t : sapling_tx) : bytes :=
  sapling_layout (sa_tx_ins t) (sa_tx_outs t) (sa_lock_time t) (sa_expiry_height t) (sa_value_balance t)
    (sa_tx_shielded_spends t) (sa_tx_shielded_outputs t) (sa_tx_joinsplits t)
    (sa_joinsplit_pubkey t) (sa_joinsplit_sig t) (sa_binding_sig t).

(** * The rules that constructors enforce *)

Definition has_width (x : option bytes) (w : Z) : Prop := exists b, x = Some b /\ len b = w.
(* dropped when there is nothing it belongs to *)
Definition needed {A} (l : list A) (x : option bytes) : option bytes := match l with [] => None | _ => x end.

(* a version 1 transaction has no JoinSplits; a version 2 transaction always has
   key and signature, but the signature may be empty *)
Definition sprout_rules (name : str) (version : bytes) (ins : list txin) (outs : list txout) (lock : bytes)
  (js : list sprout_joinsplit) (key sig : option bytes) : Prop :=
  In name sprout_names /\ len lock = 4 /\
  (version = le_bytes 4 1 /\ js = [] /\ ins <> [] \/
   version = le_bytes 4 2 /\ count js <= 5 /\ has_width key 32 /\ (sig = Some [] \/ has_width sig 64)) /\
  len (sprout_layout version ins outs lock js key sig) <= 100000.

Definition overwinter_rules (name : str) (ins : list txin) (outs : list txout) (lock expiry : bytes)
  (js : list sprout_joinsplit) (key sig : option bytes) : Prop :=
  In name overwinter_names /\ len lock = 4 /\ len expiry = 4 /\ le_value expiry < 500000000 /\
  count js <= 5 /\ (js <> [] -> has_width key 32 /\ has_width sig 64) /\ (ins <> [] \/ js <> []) /\
  len (overwinter_layout ins outs lock expiry js (needed js key) (needed js sig)) <= 100000.

Definition sapling_rules (name : str) (ins : list txin) (outs : list txout) (lock expiry balance : bytes)
  (spends : list shielded_spend) (outputs : list shielded_output) (js : list sapling_joinsplit)
  (key sig binding : option bytes) : Prop :=
  let shielded := ~ (spends = [] /\ outputs = []) in
  In name sapling_names /\ len lock = 4 /\ len expiry = 4 /\ len balance = 8 /\ le_value expiry < 500000000 /\
  (spends = [] -> outputs = [] -> balance = repeat 0 8) /\
  (shielded -> has_width binding 64) /\ (binding = None \/ has_width binding 64) /\
  count js <= 5 /\ (js <> [] -> has_width key 32 /\ has_width sig 64) /\ (ins <> [] \/ spends <> [] \/ js <> []) /\
  len (sapling_layout ins outs lock expiry balance spends outputs js (needed js key) (needed js sig)
         (match spends, outputs with [], [] => None | _, _ => binding end)) <= 100000.

(* what the parsers can read back of the transparent part, see C24 *)
Definition parsable_parts (net_name : str) (ins : list txin) (outs : list txout) : Prop :=
  readable_size net_name (count ins) /\ readable_size net_name (count outs) /\
  Forall (fun i => parsable_in net_name (the_input i)) ins /\ Forall (fun o => len (to_output_script o) < 252) outs.

(* equal transactions: same byte string and same fields, except that script sigs
   may be divided differently between stack script and redeem script *)
Definition same_sprout (t t' : sprout_tx) : Prop :=
  sp_bytes t' = sp_bytes t /\ sp_tx_id t' = sp_tx_id t /\ sp_version t' = sp_version t /\
  map the_input (sp_tx_ins t') = map the_input (sp_tx_ins t) /\ sp_tx_outs t' = sp_tx_outs t /\
  sp_lock_time t' = sp_lock_time t /\ sp_tx_joinsplits t' = sp_tx_joinsplits t /\
  sp_joinsplit_pubkey t' = sp_joinsplit_pubkey t /\ sp_joinsplit_sig t' = sp_joinsplit_sig t /\
  sp_hsigs t' = sp_hsigs t /\ sp_primary_inputs t' = sp_primary_inputs t.
Definition same_overwinter (t t' : overwinter_tx) : Prop :=
  ow_bytes t' = ow_bytes t /\ ow_tx_id t' = ow_tx_id t /\
  map the_input (ow_tx_ins t') = map the_input (ow_tx_ins t) /\ ow_tx_outs t' = ow_tx_outs t /\
  ow_lock_time t' = ow_lock_time t /\ ow_expiry_height t' = ow_expiry_height t /\ ow_tx_joinsplits t' = ow_tx_joinsplits t /\
  ow_joinsplit_pubkey t' = ow_joinsplit_pubkey t /\ ow_joinsplit_sig t' = ow_joinsplit_sig t /\
  ow_hsigs t' = ow_hsigs t /\ ow_primary_inputs t' = ow_primary_inputs t.
Definition same_sapling (t t' : sapling_tx) : Prop :=
  sa_bytes t' = sa_bytes t /\ sa_tx_id t' = sa_tx_id t /\
  map the_input (sa_tx_ins t') = map the_input (sa_tx_ins t) /\ sa_tx_outs t' = sa_tx_outs t /\
  sa_lock_time t' = sa_lock_time t /\ sa_expiry_height t' = sa_expiry_height t /\ sa_value_balance t' = sa_value_balance t /\
  sa_tx_shielded_spends t' = sa_tx_shielded_spends t /\ sa_tx_shielded_outputs t' = sa_tx_shielded_outputs t /\
  sa_tx_joinsplits t' = sa_tx_joinsplits t /\
  sa_joinsplit_pubkey t' = sa_joinsplit_pubkey t /\ sa_joinsplit_sig t' = sa_joinsplit_sig t /\
  sa_binding_sig t' = sa_binding_sig t /\ sa_hsigs t' = sa_hsigs t /\ sa_primary_inputs t' = sa_primary_inputs t.

(** * hSig and primary inputs (protocol specification, sections 4.15.1 and 4.15.5, as byte strings) *)
Definition hsig_of (H : hashes) {P} (key : bytes) (j : joinsplit P) : bytes :=
  h_blake2b H (lit "ZcashComputehSig") 32 (js_random_seed j ++ js_nullifiers j ++ key).
Definition primary_of (H : hashes) {P} (key : bytes) (j : joinsplit P) : bytes :=
  js_anchor j ++ js_nullifiers j ++ js_commitments j ++ js_vpub_old j ++ js_vpub_new j ++ hsig_of H key j ++ js_vmacs j.

(** * The Sprout signature digest: as Bitcoin's, without the JoinSplit signature *)
Definition sprout_signed (n : nat) (code : bytes) (t : sprout_tx) : bytes :=
  let ins := map the_input (sp_tx_ins t) in
  sp_version t ++
  vector_wire input_wire (map (with_script []) (firstn n ins) ++ map (with_script code) (firstn 1 (skipn n ins)) ++
                          map (with_script []) (skipn (S n) ins)) ++
  outputs_wire (sp_tx_outs t) ++ sp_lock_time t ++
  (if le_value (sp_version t) =? 1 then []
   else joinsplits_wire sprout_joinsplit_wire (opts (sp_tx_joinsplits t)) (sp_joinsplit_pubkey t) None).

(** * Signature digests: ZIP 143 and ZIP 243 *)

(* the hash type as a number: ALL 1, NONE 2, SINGLE 3, plus 0x80 for ANYONECANPAY *)
Inductive ztype := ZAll | ZNone | ZSingle.
Definition ztype_number (ty : ztype) : Z := match ty with ZAll => 1 | ZNone => 2 | ZSingle => 3 end.

(* the input that is signed, with position, script and the value it spends; no
   input is signed when the digest is for the JoinSplit signature *)
Record signed_input := { si_index : nat; si_script : bytes; si_value : bytes }.

Section Digest.
  Context (H : hashes).
  Definition personal (p : string) (m : bytes) : bytes := h_blake2b H (lit p) 32 m.
  Definition zero32 : bytes := repeat 0 32.

  Definition zip_prevouts (anyone : bool) (ins : list txin) : bytes :=
    if anyone then zero32 else personal "ZcashPrevoutHash" (concat (map outpoint_wire (map the_input ins))).
  Definition zip_sequence (ty : ztype) (anyone : bool) (ins : list txin) : bytes :=
    match ty, anyone with
    | ZAll, false => personal "ZcashSequencHash" (concat (map in_sequence (map the_input ins)))
    | _, _ => zero32
    end.
  (* [n] is the position of the signed input *)
  Definition zip_outputs (ty : ztype) (n : nat) (outs : list txout) : bytes :=
    match ty with
    | ZAll => personal "ZcashOutputsHash" (concat (map output_wire (map the_output outs)))
    | ZSingle => match nth_error outs n with
                 | Some o => personal "ZcashOutputsHash" (output_wire (the_output o))
                 | None => zero32
                 end
    | ZNone => zero32
    end.
  Definition zip_joinsplits {A} (w : A -> bytes) (l : list A) (key : option bytes) : bytes :=
    match l with [] => zero32 | _ => personal "ZcashJSplitsHash" (concat (map w l) ++ opt key) end.
  Definition zip_spends (l : list shielded_spend) : bytes :=
    match l with [] => zero32 | _ => personal "ZcashSSpendsHash" (concat (map spend_body_wire l)) end.
  Definition zip_shielded_outputs (l : list shielded_output) : bytes :=
    match l with [] => zero32 | _ => personal "ZcashSOutputHash" (concat (map shielded_output_wire l)) end.
  (* [i] is the input at the given position *)
  Definition zip_signed (s : signed_input) (i : input) : bytes :=
    outpoint_wire i ++ string_wire (si_script s) ++ si_value s ++ in_sequence i.
  Definition zip_type (ty : ztype) (anyone : bool) : bytes :=
    le_bytes 4 (ztype_number ty + if anyone then 128 else 0).

  (* with the hash of the sequence numbers left open *)
  Definition zip143_with (sequence : bytes) (ty : ztype) (anyone : bool) (n : nat) (signed : bytes) (t : overwinter_tx) : bytes :=
    overwinter_header ++ zip_prevouts anyone (ow_tx_ins t) ++ sequence ++ zip_outputs ty n (ow_tx_outs t) ++
    zip_joinsplits sprout_joinsplit_wire (ow_tx_joinsplits t) (ow_joinsplit_pubkey t) ++
    ow_lock_time t ++ ow_expiry_height t ++ zip_type ty anyone ++ signed.
  Definition zip143_message (ty : ztype) (anyone : bool) (n : nat) (signed : bytes) (t : overwinter_tx) : bytes :=
    zip143_with (zip_sequence ty anyone (ow_tx_ins t)) ty anyone n signed t.
  Definition zip143_hash (m : bytes) : bytes := h_blake2b H (lit "ZcashSigHash" ++ le_bytes 4 0x5ba81b19) 32 m.
  Definition zip143 ty anyone n signed t : bytes := zip143_hash (zip143_message ty anyone n signed t).

  Definition zip243_with (sequence : bytes) (ty : ztype) (anyone : bool) (n : nat) (signed : bytes) (t : sapling_tx) : bytes :=
    sapling_header ++ zip_prevouts anyone (sa_tx_ins t) ++ sequence ++ zip_outputs ty n (sa_tx_outs t) ++
    zip_joinsplits sapling_joinsplit_wire (sa_tx_joinsplits t) (sa_joinsplit_pubkey t) ++
    zip_spends (sa_tx_shielded_spends t) ++ zip_shielded_outputs (sa_tx_shielded_outputs t) ++
    sa_lock_time t ++ sa_expiry_height t ++ sa_value_balance t ++ zip_type ty anyone ++ signed.
  Definition zip243_message (ty : ztype) (anyone : bool) (n : nat) (signed : bytes) (t : sapling_tx) : bytes :=
    zip243_with (zip_sequence ty anyone (sa_tx_ins t)) ty anyone n signed t.
  Definition zip243_hash (m : bytes) : bytes := h_blake2b H (lit "ZcashSigHash" ++ le_bytes 4 0x76b809bb) 32 m.
  Definition zip243 ty anyone n signed t : bytes := zip243_hash (zip243_message ty anyone n signed t).
End Digest.
