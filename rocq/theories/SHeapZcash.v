(* C76: when a heap object is a given Zcash transaction or part of one.  The
   records (sprout_zkproof, joinsplit, ...) are those of MZcash.v. *)
From Coq Require Import String.
From Verif Require Import Py MTx MZcash MHeap SHeap SHeapTx.
Open Scope list_scope.
Open Scope Z_scope.

Definition is_sprout_zkproof (h : heap) (v : val) (z : sprout_zkproof) : Prop :=
  object h v (zk_bytes z)
    [(lit "pi_sub_a", VB (zk_pi_sub_a z)); (lit "pi_prime_sub_a", VB (zk_pi_prime_sub_a z));
     (lit "pi_sub_b", VB (zk_pi_sub_b z)); (lit "pi_prime_sub_b", VB (zk_pi_prime_sub_b z));
     (lit "pi_sub_c", VB (zk_pi_sub_c z)); (lit "pi_prime_sub_c", VB (zk_pi_prime_sub_c z));
     (lit "pi_sub_k", VB (zk_pi_sub_k z)); (lit "pi_sub_h", VB (zk_pi_sub_h z))].

Definition is_sapling_zkproof (h : heap) (v : val) (z : sapling_zkproof) : Prop :=
  object h v (szk_bytes z)
    [(lit "pi_sub_a", VB (szk_pi_sub_a z)); (lit "pi_sub_b", VB (szk_pi_sub_b z));
     (lit "pi_sub_c", VB (szk_pi_sub_c z))].

Definition is_joinsplit {P} (is_proof : heap -> val -> P -> Prop) (h : heap) (v : val) (j : joinsplit P) : Prop :=
  exists p, is_proof h p (js_zkproof j) /\
    object h v (js_bytes j)
      [(lit "vpub_old", VB (js_vpub_old j)); (lit "vpub_new", VB (js_vpub_new j)); (lit "anchor", VB (js_anchor j));
       (lit "nullifiers", VB (js_nullifiers j)); (lit "commitments", VB (js_commitments j));
       (lit "ephemeral_key", VB (js_ephemeral_key j)); (lit "random_seed", VB (js_random_seed j));
       (lit "vmacs", VB (js_vmacs j)); (lit "zkproof", p); (lit "encoded_notes", VB (js_encoded_notes j))].

Definition is_sprout_joinsplit := is_joinsplit is_sprout_zkproof.
Definition is_sapling_joinsplit := is_joinsplit is_sapling_zkproof.

Definition is_shielded_spend (h : heap) (v : val) (s : shielded_spend) : Prop :=
  exists p, is_sapling_zkproof h p (ss_zkproof s) /\
    object h v (ss_bytes s)
      [(lit "cv", VB (ss_cv s)); (lit "anchor", VB (ss_anchor s)); (lit "nullifier", VB (ss_nullifier s));
       (lit "rk", VB (ss_rk s)); (lit "zkproof", p); (lit "spend_auth_sig", VB (ss_spend_auth_sig s))].

Definition is_shielded_output (h : heap) (v : val) (s : shielded_output) : Prop :=
  exists p, is_sapling_zkproof h p (so_zkproof s) /\
    object h v (so_bytes s)
      [(lit "cv", VB (so_cv s)); (lit "cmu", VB (so_cmu s)); (lit "ephemeral_key", VB (so_ephemeral_key s));
       (lit "enc_ciphertext", VB (so_enc_ciphertext s)); (lit "out_ciphertext", VB (so_out_ciphertext s));
       (lit "zkproof", p)].

Definition is_sprout_tx (h : heap) (v : val) (t : sprout_tx) : Prop :=
  exists ins outs js l, Forall2 (is_txin h) ins (sp_tx_ins t) /\ Forall2 (is_txout h) outs (sp_tx_outs t) /\
    sp_tx_joinsplits t = Some l /\ Forall2 (is_sprout_joinsplit h) js l /\
    object h v (sp_bytes t)
      [(lit "version", VB (sp_version t)); (lit "tx_ins", VTuple ins); (lit "tx_outs", VTuple outs);
       (lit "tx_joinsplits", VTuple js); (lit "lock_time", VB (sp_lock_time t));
       (lit "joinsplit_pubkey", optional (sp_joinsplit_pubkey t)); (lit "joinsplit_sig", optional (sp_joinsplit_sig t));
       (lit "hsigs", VTuple (map VB (sp_hsigs t))); (lit "primary_inputs", VTuple (map VB (sp_primary_inputs t)));
       (lit "tx_id_le", VB (sp_tx_id_le t)); (lit "tx_id", VB (sp_tx_id t))].

Definition is_overwinter_tx (h : heap) (v : val) (t : overwinter_tx) : Prop :=
  exists ins outs js, Forall2 (is_txin h) ins (ow_tx_ins t) /\ Forall2 (is_txout h) outs (ow_tx_outs t) /\
    Forall2 (is_sprout_joinsplit h) js (ow_tx_joinsplits t) /\
    object h v (ow_bytes t)
      [(lit "header", VB (ow_header t)); (lit "group_id", VB (ow_group_id t)); (lit "version", VB (ow_version t));
       (lit "tx_ins", VTuple ins); (lit "tx_outs", VTuple outs); (lit "lock_time", VB (ow_lock_time t));
       (lit "expiry_height", VB (ow_expiry_height t)); (lit "tx_joinsplits", VTuple js);
       (lit "joinsplit_pubkey", optional (ow_joinsplit_pubkey t)); (lit "joinsplit_sig", optional (ow_joinsplit_sig t));
       (lit "hsigs", VTuple (map VB (ow_hsigs t))); (lit "primary_inputs", VTuple (map VB (ow_primary_inputs t)));
       (lit "tx_id_le", VB (ow_tx_id_le t)); (lit "tx_id", VB (ow_tx_id t))].

Definition is_sapling_tx (h : heap) (v : val) (t : sapling_tx) : Prop :=
  exists ins outs spends outputs js,
    Forall2 (is_txin h) ins (sa_tx_ins t) /\ Forall2 (is_txout h) outs (sa_tx_outs t) /\
    Forall2 (is_shielded_spend h) spends (sa_tx_shielded_spends t) /\
    Forall2 (is_shielded_output h) outputs (sa_tx_shielded_outputs t) /\
    Forall2 (is_sapling_joinsplit h) js (sa_tx_joinsplits t) /\
    object h v (sa_bytes t)
      [(lit "binding_sig", optional (sa_binding_sig t));
       (lit "header", VB (sa_header t)); (lit "group_id", VB (sa_group_id t));
       (lit "tx_ins", VTuple ins); (lit "tx_outs", VTuple outs); (lit "lock_time", VB (sa_lock_time t));
       (lit "expiry_height", VB (sa_expiry_height t)); (lit "value_balance", VB (sa_value_balance t));
       (lit "tx_shielded_spends", VTuple spends); (lit "tx_shielded_outputs", VTuple outputs);
       (lit "tx_joinsplits", VTuple js);
       (lit "joinsplit_pubkey", optional (sa_joinsplit_pubkey t)); (lit "joinsplit_sig", optional (sa_joinsplit_sig t));
       (lit "hsigs", VTuple (map VB (sa_hsigs t))); (lit "primary_inputs", VTuple (map VB (sa_primary_inputs t)));
       (lit "tx_id_le", VB (sa_tx_id_le t)); (lit "tx_id", VB (sa_tx_id t))].
