(* Signature digests of Bitcoin: the original algorithm, BIP143, and the
   replay-protected variant of BIP143 with a fork id *)
From Coq Require Import String.
From Verif Require Import Py SNum SNet STx MNet MUtils MShared MTx.
Open Scope list_scope.
Open Scope Z_scope.

Inductive sigtype := All | Single.
(* SIGHASH_ALL = 1, SIGHASH_SINGLE = 3, SIGHASH_ANYONECANPAY = 0x80 *)
Definition type_number (ty : sigtype) (anyone : bool) : Z :=
  (match ty with All => 1 | Single => 3 end) + (if anyone then 128 else 0).

(** * The original algorithm *)

Definition with_script (code : bytes) (i : input) : input :=
  {| in_txid := in_txid i; in_index := in_index i; in_script := code; in_sequence := in_sequence i |}.
Definition with_sequence (q : bytes) (i : input) : input :=
  {| in_txid := in_txid i; in_index := in_index i; in_script := in_script i; in_sequence := q |}.

(* the inputs that are not signed *)
Definition other_input (ty : sigtype) (i : input) : input :=
  match ty with
  | All => with_script [] i
  | Single => with_sequence [0; 0; 0; 0] (with_script [] i)
  end.

Definition null_output : output := {| out_value := repeat 255 8; out_script := [] |}.

Definition legacy_tx (ty : sigtype) (anyone : bool) (n : nat) (code : bytes) (t : transaction) : transaction :=
  let signed := map (with_script code) (firstn 1 (skipn n (t_ins t))) in
  {| t_version := t_version t;
     t_ins := if anyone then signed
              else map (other_input ty) (firstn n (t_ins t)) ++ signed ++ map (other_input ty) (skipn (S n) (t_ins t));
     t_outs := match ty with
               | All => t_outs t
               | Single => repeat null_output n ++ firstn 1 (skipn n (t_outs t))
               end;
     t_witness := None;
     t_lock := t_lock t |}.

Definition legacy_preimage ty anyone n code t : bytes :=
  wire_tx (legacy_tx ty anyone n code t) ++ le_bytes 4 (type_number ty anyone).

(** * BIP143 *)

Definition zeros : bytes := repeat 0 32.

(* everything but the hash type; [i] is the signed input, [n] its position *)
Definition bip143_body (hash : bytes -> bytes) ty (anyone : bool) (n : nat) (i : input)
  (code value : bytes) (t : transaction) : bytes :=
  t_version t ++
  (if anyone then zeros else hash (concat (map outpoint_wire (t_ins t)))) ++
  (if anyone then zeros else match ty with Single => zeros | All => hash (concat (map in_sequence (t_ins t))) end) ++
  outpoint_wire i ++ string_wire code ++ value ++ in_sequence i ++
  match ty with
  | All => hash (concat (map output_wire (t_outs t)))
  | Single => match nth_error (t_outs t) n with Some o => hash (output_wire o) | None => zeros end
  end ++
  t_lock t.

Definition bip143_preimage hash ty anyone n i code value t : bytes :=
  bip143_body hash ty anyone n i code value t ++ le_bytes 4 (type_number ty anyone).

(* SIGHASH_FORKID = 0x40, and the fork id in the upper 24 bits *)
Definition forkid_preimage hash id ty anyone n i code value t : bytes :=
  bip143_body hash ty anyone n i code value t ++ le_bytes 4 (id * 256 + 64 + type_number ty anyone).

(** * What the library hashes with the original algorithm *)

(* with SINGLE it makes as many outputs as there are inputs, see legacy_single_exact *)
Definition single_outs (k n : nat) (outs : list output) : list output :=
  repeat null_output n ++ firstn 1 (skipn n outs) ++ repeat null_output (k - S n).
Definition single_tx (anyone : bool) (n : nat) (code : bytes) (t : transaction) : transaction :=
  {| t_version := t_version t; t_ins := t_ins (legacy_tx Single anyone n code t);
     t_outs := single_outs (length (t_ins t)) n (t_outs t); t_witness := None; t_lock := t_lock t |}.
Definition lib_tx ty anyone n code t : transaction :=
  match ty with All => legacy_tx All anyone n code t | Single => single_tx anyone n code t end.
Definition lib_preimage ty anyone n code t : bytes :=
  wire_tx (lib_tx ty anyone n code t) ++ le_bytes 4 (type_number ty anyone).

(** * Collisions *)

(* two different ones among the given messages have the same hash; the messages are
   named because some collision exists for every hash function *)
Definition collision (hash : bytes -> bytes) (messages : list bytes) : Prop :=
  exists a b, In a messages /\ In b messages /\ a <> b /\ hash a = hash b.
(* what BIP143 hashes besides the preimage itself *)
Definition bip143_parts (t : transaction) : list bytes :=
  concat (map outpoint_wire (t_ins t)) :: concat (map in_sequence (t_ins t)) ::
  concat (map output_wire (t_outs t)) :: map output_wire (t_outs t).

(** * What a hash type promises to cover *)

(* two signing requests agree on everything the hash type covers *)
Definition same_signed (i i' : input) : Prop :=
  in_txid i = in_txid i' /\ in_index i = in_index i' /\ in_sequence i = in_sequence i'.
Definition covered_same ty (anyone : bool) (n : nat) (t : transaction) (n' : nat) (t' : transaction) : Prop :=
  t_version t = t_version t' /\ t_lock t = t_lock t' /\
  (anyone = false -> map outpoint_wire (t_ins t) = map outpoint_wire (t_ins t')) /\
  (anyone = false -> ty = All -> map in_sequence (t_ins t) = map in_sequence (t_ins t')) /\
  (ty = All -> t_outs t = t_outs t') /\
  (ty = Single -> nth_error (t_outs t) n = nth_error (t_outs t') n').

(** * The model's objects *)

(* neither flag nor witness list: not a segwit transaction *)
Definition plain (t : tx) : Prop := tx_flag t = None /\ tx_tx_witnesses t = None.

(* the call for a hash type *)
Definition digest (H : hashes) ty (net : network) (t : tx) (n : Z) (script : bytes) (value : option bytes) (anyone : bool) : res bytes :=
  match ty with
  | All => sighash_all H net t n script value anyone
  | Single => sighash_single H net t n script value anyone
  end.
