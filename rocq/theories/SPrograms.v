(* What the example programs are given, and what their missing helpers could be *)
From Coq Require Import String.
From Verif Require Import Py SNum SNet SHash SScript SBase58 SBech32 SAddr STx SSign MNet MUtils MAddr MBuilder MPrograms.
Open Scope list_scope.
Open Scope Z_scope.

(* the output belongs to the key: its address is the key's *)
Definition owns (H : hashes) (net : network) (key : bytes) (p : prevout) : Prop :=
  make_p2pkh_address H net key = Ok (Some (pr_address p)) /\
  (exists id, all_bytes id /\ len id = 32 /\ pr_tx_id p = hex id) /\ 0 <= pr_index p < 2 ^ 32 /\ 0 <= pr_value p < 2 ^ 64.
Definition previous (H : hashes) (name : str) (key : bytes) (p : prevout) : output :=
  {| out_value := le_bytes 8 (pr_value p); out_script := template P2PKH (key_hash H name key) |}.
Definition usable_key (key : bytes) : Prop := all_bytes key /\ 1 <= len key <= 520.

(* signs every digest, and writes the hash type ALL behind the signature *)
Definition signer (W : world) (key : bytes) (sign : bytes -> str) : Prop :=
  forall d, exists signature, sign d = hex (signature ++ [1]) /\ ecdsa W key d signature = Some true /\
    all_bytes signature /\ len signature <= 519 /\ len signature <> 19.

(* the input spends the output *)
Definition refers_to (p : prevout) (i : input) : Prop :=
  exists id, pr_tx_id p = hex id /\ in_txid i = rev id /\ in_index i = le_bytes 4 (pr_index p) /\ in_sequence i = le_bytes 4 0xfffffffe.

(* simple.p2sh_input, made from what tx_builder.py has *)
Definition p2sh_input (net : network) (sequence : Z) (outpoint : any_outpoint) (stack_script redeem_script : str) : res any_in :=
  script_sig <- make_script_sig net stack_script redeem_script ;; make_legacy_input net outpoint script_sig [] sequence.

(* the segwit address of the key's hash is at the same time a Base58Check string *)
Definition ambiguous (H : hashes) (name : str) (net : network) (key : bytes) : Prop :=
  exists s hrp p, BECH32_HRP net = Some hrp /\ segwit_address hrp 0 (key_hash H name key) s /\ base58check_of H name p s.
