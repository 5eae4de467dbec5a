(* Which transparent inputs a Zcash network accepts: the Script interpreter of SInterp.v
   without segregated witness, with signatures checked against the digests of ZIP 143
   (Overwinter), ZIP 243 (Sapling) or the original algorithm over a transaction with
   JoinSplits (Sprout).  Proofs and JoinSplit signatures are not looked at. *)
From Verif Require Import Py MNet MUtils MScript MTx MZcash MBuilder SNum SNet SHash SScript SAddr STx SSig SZcash SInterp SSign.
Open Scope list_scope.
Open Scope Z_scope.

Definition ztype_byte (ty : ztype) (anyone : bool) : Z := ztype_number ty + if anyone then 128 else 0.
Definition zhash_type (b : Z) : option (ztype * bool) :=
  if b =? 1 then Some (ZAll, false) else if b =? 2 then Some (ZNone, false) else if b =? 3 then Some (ZSingle, false)
  else if b =? 129 then Some (ZAll, true) else if b =? 130 then Some (ZNone, true) else if b =? 131 then Some (ZSingle, true)
  else None.

(* the transparent part *)
Definition transparent_part (ins : list txin) (outs : list txout) (lock : bytes) : transaction :=
  {| t_version := []; t_ins := map the_input ins; t_outs := map the_output outs; t_lock := lock; t_witness := None |}.

Section Zcash.
Context (W : world) (H : hashes) (name : str).

Definition overwinter_network_digest (t : overwinter_tx) (n : nat) (i : input) (value code : bytes) (b : Z) : option bytes :=
  match zhash_type b with
  | Some (ty, anyone) => Some (zip143 H ty anyone n (zip_signed {| si_index := n; si_script := code; si_value := value |} i) t)
  | None => Some (other_digest W code b)
  end.
Definition sapling_network_digest (t : sapling_tx) (n : nat) (i : input) (value code : bytes) (b : Z) : option bytes :=
  match zhash_type b with
  | Some (ty, anyone) => Some (zip243 H ty anyone n (zip_signed {| si_index := n; si_script := code; si_value := value |} i) t)
  | None => Some (other_digest W code b)
  end.
Definition sprout_network_digest (t : sprout_tx) (n : nat) (i : input) (value code : bytes) (b : Z) : option bytes :=
  match zhash_type b with
  | Some (ZAll, false) => Some (sha256d H (sprout_signed n code t ++ le_bytes 4 1))
  | _ => Some (other_digest W code b)
  end.

(* does input n spend an output with this value and script? *)
Definition zcash_accepted (digest : nat -> input -> bytes -> bytes -> Z -> option bytes) (T : transaction) (n : nat) (value script : bytes) : bool :=
  match nth_error (t_ins T) n with
  | None => false
  | Some i =>
      let code := fst (signed_script false script (in_script i) []) in
      spends (signing W H name (digest n i value) false T i code) false (in_script i) script []
  end.
Definition overwinter_accepted (t : overwinter_tx) : nat -> bytes -> bytes -> bool :=
  zcash_accepted (overwinter_network_digest t) (transparent_part (ow_tx_ins t) (ow_tx_outs t) (ow_lock_time t)).
Definition sapling_accepted (t : sapling_tx) : nat -> bytes -> bytes -> bool :=
  zcash_accepted (sapling_network_digest t) (transparent_part (sa_tx_ins t) (sa_tx_outs t) (sa_lock_time t)).
Definition sprout_accepted (t : sprout_tx) : nat -> bytes -> bytes -> bool :=
  zcash_accepted (sprout_network_digest t) (transparent_part (sp_tx_ins t) (sp_tx_outs t) (sp_lock_time t)).

(* all inputs spend the listed outputs *)
Definition accepts_all (verdict : nat -> bytes -> bytes -> bool) (spent : list output) : Prop :=
  forall n o, nth_error spent n = Some o -> verdict n (out_value o) (out_script o) = true.
End Zcash.

(** * Wallets *)

(* a digest method of the library: position, script code with its length, value, hash type *)
Definition digester := Z -> bytes -> bytes -> ztype -> bool -> res bytes.
Definition overwinter_digester (H : hashes) (net : network) (t : overwinter_tx) : digester :=
  fun index code value ty anyone => overwinter_sighash H net t (ztype_number ty) (Some value) (Some code) index false anyone.
Definition sapling_digester (H : hashes) (net : network) (t : sapling_tx) : digester :=
  fun index code value ty anyone => sapling_sighash H net t (ztype_number ty) (Some value) index false (Some code) anyone.
Definition sprout_digester (H : hashes) (net : network) (t : sprout_tx) : digester :=
  fun index code value ty anyone =>
    match ty with
    | ZAll => sprout_sighash_all H net t index code anyone
    | ZSingle => sprout_sighash_single H net t index code anyone
    | ZNone => Err NotImplementedError
    end.

(* input i' is input number n, with a signature for the P2PKH output o in its script sig *)
Definition zcash_signed_input (W : world) (H : hashes) (net : network) (digest : digester) (n : nat) (i : txin) (o : output) (i' : txin) : Prop :=
  exists key signature ty anyone d text sig,
    make_p2pkh_output_script H net key = Ok (out_script o) /\
    digest (Z.of_nat n) (string_wire (out_script o)) (out_value o) ty anyone = Ok d /\
    (ty = ZNone -> anyone = true) /\
    ecdsa W key d signature = Some true /\
    all_bytes signature /\ len signature <= 519 /\ len signature <> 19 /\ all_bytes key /\ 1 <= len key <= 520 /\
    words [hex (signature ++ [ztype_byte ty anyone]); hex key] text /\
    serialize net text = Ok sig /\ ti_redeem_script i = [] /\
    TxIn_copy i None (Some sig) None None = Ok i'.

(* transactions that differ only in script sigs *)
Definition overwinter_resigned (t t' : overwinter_tx) : Prop :=
  Forall2 same_signed (map the_input (ow_tx_ins t)) (map the_input (ow_tx_ins t')) /\ ow_tx_outs t = ow_tx_outs t' /\
  ow_lock_time t = ow_lock_time t' /\ ow_expiry_height t = ow_expiry_height t' /\
  ow_tx_joinsplits t = ow_tx_joinsplits t' /\ ow_joinsplit_pubkey t = ow_joinsplit_pubkey t'.
Definition sapling_resigned (t t' : sapling_tx) : Prop :=
  Forall2 same_signed (map the_input (sa_tx_ins t)) (map the_input (sa_tx_ins t')) /\ sa_tx_outs t = sa_tx_outs t' /\
  sa_lock_time t = sa_lock_time t' /\ sa_expiry_height t = sa_expiry_height t' /\ sa_value_balance t = sa_value_balance t' /\
  sa_tx_shielded_spends t = sa_tx_shielded_spends t' /\ sa_tx_shielded_outputs t = sa_tx_shielded_outputs t' /\
  sa_tx_joinsplits t = sa_tx_joinsplits t' /\ sa_joinsplit_pubkey t = sa_joinsplit_pubkey t'.
Definition sprout_resigned (t t' : sprout_tx) : Prop :=
  Forall2 same_signed (map the_input (sp_tx_ins t)) (map the_input (sp_tx_ins t')) /\ sp_version t = sp_version t' /\
  sp_tx_outs t = sp_tx_outs t' /\ sp_lock_time t = sp_lock_time t' /\
  opts (sp_tx_joinsplits t) = opts (sp_tx_joinsplits t') /\ sp_joinsplit_pubkey t = sp_joinsplit_pubkey t'.
