(* Which inputs a network accepts: the Script interpreter of SInterp.v with signatures
   checked against the network's signature hash (Bitcoin Core's SignatureHash and
   GenericTransactionSignatureChecker, BIP143, and its variant with a fork id).
   Elliptic curves are a parameter, as are the remaining hash types and opcodes.
   OP_CODESEPARATOR is among the latter: script codes are whole scripts. *)
From Verif Require Import Py MNet MUtils MScript MTx MBuilder SNum SNet SHash SScript SAddr STx SSig SInterp.
Open Scope list_scope.
Open Scope Z_scope.

(** * Script codes *)

Fixpoint starts (p s : bytes) : bool :=
  match p, s with
  | [], _ => true
  | a :: p', b :: s' => (a =? b) && starts p' s'
  | _, _ => false
  end.

(* FindAndDelete: without the given bytes, wherever an instruction starts with them *)
Fixpoint erase_from (fuel : nat) (p s : bytes) : bytes :=
  match fuel with
  | O => s
  | S f =>
      if starts p s then erase_from f p (skipn (length p) s)
      else match next s with
           | Some (_, r) => firstn (length s - length r) s ++ erase_from f p r
           | None => s
           end
  end.
Definition erase (p s : bytes) : bytes := erase_from (length s) p s.

(* the script whose code is signed, and whether it is a witness script *)
Definition signed_program (p : bytes) (wit : list bytes) : bytes :=
  if len p =? 20 then pay_to_hash p else last wit [].
Definition last_push (sig : bytes) : bytes :=
  match decode sig with
  | Some is => match last is (IOp 0) with IPush d => d | IOp _ => [] end
  | None => []
  end.
Definition signed_script (segwit : bool) (script sig : bytes) (wit : list bytes) : bytes * bool :=
  let prog s := if segwit then program s else None in
  match prog script with
  | Some (_, p) => (signed_program p wit, true)
  | None =>
      if is_p2sh script
      then match prog (last_push sig) with
           | Some (_, p) => (signed_program p wit, true)
           | None => (last_push sig, false)
           end
      else (script, false)
  end.

(** * Digests *)

(* the hash types that the library knows *)
Definition hash_type (b : Z) : option (sigtype * bool) :=
  if b =? 1 then Some (All, false) else if b =? 3 then Some (Single, false)
  else if b =? 129 then Some (All, true) else if b =? 131 then Some (Single, true) else None.

Definition network_fork_id (name : str) : option Z :=
  match List.find (fun p => same (fst p) name) fork_ids with
  | Some (_, id) => Some id
  | None => None
  end.
(* the byte at the end of a signature *)
Definition type_byte (name : str) (ty : sigtype) (anyone : bool) : Z :=
  type_number ty anyone + (if network_fork_id name then 64 else 0).

(* the digest of SINGLE without an output at the index, in the original algorithm *)
Definition one : bytes := 1 :: repeat 0 31.

(* parts that are not modelled *)
Record world := {
  (* ECDSA: key, digest, signature without the hash type; None if the encoding is refused *)
  ecdsa : bytes -> bytes -> bytes -> option bool;
  (* digests for other hash types, from the script code and the byte *)
  other_digest : bytes -> Z -> bytes;
  other_opcode : Z -> list bytes * list bytes -> option (list bytes * list bytes)
}.

Section Network.
Context (W : world) (H : hashes) (name : str).

(* the digest for input i, which is number n; None if the network refuses the hash type *)
Definition network_digest (witness : bool) (t : transaction) (n : nat) (i : input) (value code : bytes) (b : Z) : option bytes :=
  let hash := double_hash H name in
  match network_fork_id name with
  | Some id =>
      if Z.testbit b 6
      then match hash_type (b - 64) with
           | Some (ty, anyone) => Some (hash (forkid_preimage hash id ty anyone n i code value t))
           | None => Some (other_digest W code b)
           end
      else None
  | None =>
      match hash_type b with
      | Some (ty, anyone) =>
          Some (if witness then hash (bip143_preimage hash ty anyone n i code value t)
                else match ty, nth_error (t_outs t) n with
                     | Single, None => one
                     | _, _ => hash (legacy_preimage ty anyone n code t)
                     end)
      | None => Some (other_digest W code b)
      end
  end.

(* a signature is followed by its hash type; the original algorithm erases the
   signature from the script code *)
Definition check (digest_of : bytes -> Z -> option bytes) (witness : bool) (code sig key : bytes) : option bool :=
  match sig with
  | [] => Some false
  | _ =>
      let code' := if witness then code else match network_fork_id name with Some _ => code | None => erase (push (smallest sig) sig) code end in
      match digest_of code' (last sig 0) with
      | Some d => ecdsa W key d (removelast sig)
      | None => None
      end
  end.

Definition signing (digest_of : bytes -> Z -> option bytes) (witness : bool) (t : transaction) (i : input) (code : bytes) : context :=
  {| cx_locktime := le_value (t_lock t); cx_sequence := le_value (in_sequence i);
     cx_checksig := check digest_of witness code; cx_other := other_opcode W;
     cx_sha256 := h_sha256 H; cx_rmd160 := h_rmd160 H |}.

Definition has_segwit : bool := existsb (same name) segwit_names.
Definition witness_of (t : transaction) (n : nat) : list bytes :=
  match t_witness t with Some ws => nth n ws [] | None => [] end.

(* does input n of t spend an output with this value and script? *)
Definition accepted (t : transaction) (n : nat) (value script : bytes) : bool :=
  match nth_error (t_ins t) n with
  | None => false
  | Some i =>
      let (code, witness) := signed_script has_segwit script (in_script i) (witness_of t n) in
      spends (signing (network_digest witness t n i value) witness t i code) has_segwit (in_script i) script (witness_of t n)
  end.

(* all inputs spend the listed outputs *)
Definition all_accepted (t : transaction) (spent : list output) : Prop :=
  length spent = length (t_ins t) /\
  forall n o, nth_error spent n = Some o -> accepted t n (out_value o) (out_script o) = true.

(** * The same with the library's digests *)

(* computed from the object t *)
Definition library_digest (net : network) (t : tx) (n : nat) (value code : bytes) (b : Z) : option bytes :=
  let forked := match network_fork_id name with Some _ => true | None => false end in
  if forked && negb (Z.testbit b 6) then None
  else match hash_type (if forked then b - 64 else b) with
       | Some (ty, anyone) =>
           match digest H ty net t (Z.of_nat n) (string_wire code) (Some value) anyone with Ok d => Some d | Err _ => None end
       | None => Some (other_digest W code b)
       end.
End Network.

(* transactions that differ only in script sigs and witnesses *)
Definition same_unsigned (t t' : transaction) : Prop :=
  t_version t = t_version t' /\ t_lock t = t_lock t' /\ t_outs t = t_outs t' /\ Forall2 same_signed (t_ins t) (t_ins t').

(* when the object t uses the signature hash that the network expects of an input of this
   kind, and is given the value v that is spent *)
Definition right_kind (name : str) (t : tx) (witness : bool) (value : option bytes) (v : bytes) : Prop :=
  (exists id, In (name, id) fork_ids /\ value = Some v) \/
  (no_fork_id name /\ if witness then ~ plain t /\ value = Some v else plain t).

(** * Wallets *)

(* input i' is input n of t with a signature for the P2PKH output o in its script sig *)
Definition p2pkh_signed_input (W : world) (H : hashes) (name : str) (net : network) (t : tx) (n : nat) (i : txin) (o : output) (i' : txin) : Prop :=
  exists key signature ty anyone d text sig,
    make_p2pkh_output_script H net key = Ok (out_script o) /\
    digest H ty net t (Z.of_nat n) (string_wire (out_script o)) (Some (out_value o)) anyone = Ok d /\
    (ty = Single -> no_fork_id name -> S n = length (tx_tx_ins t)) /\
    ecdsa W key d signature = Some true /\
    all_bytes signature /\ len signature <= 519 /\ len signature <> 19 /\ all_bytes key /\ 1 <= len key <= 520 /\
    words [hex (signature ++ [type_byte name ty anyone]); hex key] text /\
    serialize net text = Ok sig /\ ti_redeem_script i = [] /\
    TxIn_copy i None (Some sig) None None = Ok i'.

(* w is a witness for input n of t, which spends the P2WPKH output o; the script code is
   the P2PKH script of the key *)
Definition p2wpkh_signed_witness (W : world) (H : hashes) (name : str) (net : network) (t : tx) (n : nat) (o : output) (w : witness) : Prop :=
  exists key signature ty anyone d code,
    make_p2wpkh_output_script H net key = Ok (out_script o) /\ make_p2pkh_output_script H net key = Ok code /\
    digest H ty net t (Z.of_nat n) (string_wire code) (Some (out_value o)) anyone = Ok d /\
    ecdsa W key d signature = Some true /\ len signature <= 519 /\ len key <= 520 /\ truthy (key_hash H name key) = true /\
    make_witness [signature ++ [type_byte name ty anyone]; key] = Ok w.
