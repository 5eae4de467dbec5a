(* Which inputs Decred accepts (dcrd's blockchain and txscript packages): the Script
   interpreter of SInterp.v without segregated witness, with BLAKE-256 in the place of
   SHA-256 (opcode 168 is OP_BLAKE256, and OP_HASH160 hashes with it), and with signatures
   checked against Decred's digests.  The outputs spent have script version 0 and are in
   the regular tree.  Decred's limits on scripts are wider than those of SInterp.v. *)
From Verif Require Import Py MNet MUtils MScript MTx MDecred MBuilder SNum SNet SHash SScript SAddr STx SSig SDecred SInterp SSign.
Open Scope list_scope.
Open Scope Z_scope.

(* an output that is spent, with the block that it is in and its transaction's place there *)
Record dcoin := { dc_value : bytes; dc_height : bytes; dc_index : bytes; dc_script : bytes }.

Section Decred.
Context (W : world) (H : hashes).

(* CalcSignatureHash; there is no digest of SINGLE without an output at the index *)
Definition decred_network_digest (t : dtransaction) (n : nat) (code : bytes) (b : Z) : option bytes :=
  match hash_type b with
  | Some (ty, anyone) =>
      match ty, nth_error (d_outs t) n with
      | Single, None => None
      | _, _ => Some (h_blake256 H (dpreimage (h_blake256 H) ty anyone n code t))
      end
  | None => Some (other_digest W code b)
  end.
Definition decred_check (digest_of : bytes -> Z -> option bytes) (code sig key : bytes) : option bool :=
  match sig with
  | [] => Some false
  | _ => match digest_of code (last sig 0) with
         | Some d => ecdsa W key d (removelast sig)
         | None => None
         end
  end.
Definition decred_context (t : dtransaction) (i : dinput) (n : nat) (code : bytes) : context :=
  {| cx_locktime := le_value (d_lock t); cx_sequence := le_value (di_sequence i);
     cx_checksig := decred_check (decred_network_digest t n) code; cx_other := other_opcode W;
     cx_sha256 := h_blake256 H; cx_rmd160 := h_rmd160 H |}.

(* does input n of t spend this coin?  Its witness has to repeat the coin's value and place *)
Definition decred_accepted (t : dtransaction) (n : nat) (c : dcoin) : bool :=
  match nth_error (d_ins t) n, nth_error (d_spends t) n with
  | Some i, Some s =>
      same (ds_value s) (dc_value c) && same (ds_height s) (dc_height c) && same (ds_index s) (dc_index c) &&
      spends (decred_context t i n (fst (signed_script false (dc_script c) (ds_script s) []))) false (ds_script s) (dc_script c) []
  | _, _ => false
  end.
(* one witness for each input, and all inputs spend the listed coins *)
Definition decred_all_accepted (t : dtransaction) (coins : list dcoin) : Prop :=
  length (d_spends t) = length (d_ins t) /\ length coins = length (d_ins t) /\
  forall n c, nth_error coins n = Some c -> decred_accepted t n c = true.
End Decred.

(* a context that hashes as Decred does *)
Definition decred_hashing (H : hashes) (cx : context) : Prop := cx_sha256 cx = h_blake256 H /\ cx_rmd160 cx = h_rmd160 H.

(* the same but for the witnesses *)
Definition same_prefix (t t' : dtransaction) : Prop :=
  d_version t = d_version t' /\ d_ins t = d_ins t' /\ d_outs t = d_outs t' /\ d_lock t = d_lock t' /\ d_expiry t = d_expiry t'.
(* when the library's digest is Decred's: C47 *)
Definition decred_right (ty : sigtype) (anyone : bool) (n k : nat) : Prop :=
  (anyone = true -> k = 1%nat) /\ (ty = Single -> S n = k).
(* a signature under a key is valid for one digest at most *)
Definition one_digest (W : world) : Prop :=
  forall key sig d d', ecdsa W key d sig = Some true -> ecdsa W key d' sig = Some true -> d = d'.

(* w' is witness number n of t, which repeats what is known about the P2PKH coin c, with a
   signature for it in its script sig *)
Definition decred_signed_witness (W : world) (H : hashes) (net : network) (t : dtx) (n : nat) (c : dcoin) (w w' : dwitness) : Prop :=
  exists key signature ty anyone d text sig,
    make_p2pkh_output_script H net key = Ok (dc_script c) /\
    ddigest H ty net t (Z.of_nat n) (Some (dc_script c)) anyone = Ok d /\
    decred_right ty anyone n (length (dtx_tx_ins t)) /\
    ecdsa W key d signature = Some true /\
    all_bytes signature /\ len signature <= 519 /\ all_bytes key /\ 1 <= len key <= 520 /\
    words [hex (signature ++ [type_number ty anyone]); hex key] text /\
    serialize net text = Ok sig /\
    dw_value w = dc_value c /\ dw_height w = dc_height c /\ dw_index w = dc_index c /\
    DecredInputWitness_copy net w None None None (Some sig) (Some []) = Ok w'.
