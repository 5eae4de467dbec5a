(* The programs in riemann/examples, as functions of the constants at their top and of the
   signatures that are made elsewhere.  What they print is what the functions return.
   prep_tx_for_signing.py is not a Python program (line 20 is not an expression) and is
   not modelled. *)
From Coq Require Import String.
From Verif Require Import Py MNet MUtils MShared MScript MTx MZcash MBase58 MBech32 MCashaddr MAddr MBuilder MClass MExamples.
Open Scope list_scope.
Open Scope Z_scope.

(* module.name, for a name that may be missing;
   p2pkh_op_return.py:60, sapling_htlc_example.py:69-74 *)
Definition member {A} (x : option A) : res A := match x with Some a => Ok a | None => Err AttributeError end.

(* the addresses of these programs come from the functions that make them.  Without one
   (None) the calls below raise TypeError; make_pkh_address_hash and the theorems beside
   it say that there always is one; p2pkh_op_return.py:22, 27, sapling_htlc_example.py:53 *)
Definition present (x : option str) : res str := match x with Some s => Ok s | None => Err TypeError end.

(* the names that the programs use and that riemann/simple.py does not have: its functions
   are output, outpoint, unsigned_input, unsigned_legacy_tx and unsigned_witness_tx *)
Definition simple_p2pkh_input : option (any_outpoint -> str -> str -> Z -> res any_in) := None.
(* sapling_htlc_example.py:69 *)
Definition simple_empty_outpoint : option (res any_outpoint) := None.
(* sapling_htlc_example.py:70-77 *)
Definition simple_p2sh_input : option (any_outpoint -> str -> str -> res any_in) := None.

Section Programs.
  Context (H : hashes) (net : network).

  (** * sapling_example.py *)

  (* sapling_example.py:8-9, 20-21, 35, 39: an output that is spent *)
  Record prevout := { pr_address : str; pr_tx_id : str; pr_index : Z; pr_value : Z }.

  (* sapling_example.py:14-15 *)
  Definition script_code_of (p : prevout) : res bytes :=
    s <- to_output_script H net (pr_address p) ;; Ok (0x19 :: s).

  (* sapling_example.py:20-21 *)
  Definition input_of (p : prevout) : res any_in :=
    o <- simple_outpoint net (pr_tx_id p) (pr_index p) None ;; simple_unsigned_input net o None.

  (* sapling_example.py:50-51, 54-55: '{} {}'.format(sig, pubkey) *)
  Definition signed_in (i : txin) (sig pubkey : str) : res txin :=
    s <- serialize net (sig ++ lit " " ++ pubkey) ;; TxIn_copy i None (Some s) None None.

  (* sapling_example.py:8-61.  [unsigned] is the call of line 29; [sign1] and [sign2] are
     what happens elsewhere (lines 41-46).  On this network the methods used below exist
     for Sapling transactions and ordinary inputs only. *)
  Definition sapling_example_with (unsigned : list any_in -> list any_out -> res any_tx)
    (p1 p2 : prevout) (value : Z) (address : str)
    (pubkey1 pubkey2 : str) (sign1 sign2 : bytes -> str) : res str :=
    c1 <- script_code_of p1 ;;
    c2 <- script_code_of p2 ;;
    i1 <- input_of p1 ;;
    i2 <- input_of p2 ;;
    o <- simple_output H net value address ;;
    t <- unsigned [i1; i2] [o] ;;
    match t, i1, i2 with
    | AnySaplingTx t, AnyIn i1, AnyIn i2 =>
        v1 <- i2le_padded (pr_value p1) 8 ;;
        d1 <- sapling_sighash_all H net t false (Some v1) 0 false (Some c1) ;;
        v2 <- i2le_padded (pr_value p2) 8 ;;
        d2 <- sapling_sighash_all H net t false (Some v2) 1 false (Some c2) ;;
        s1 <- signed_in i1 (sign1 d1) pubkey1 ;;
        s2 <- signed_in i2 (sign2 d2) pubkey2 ;;
        t' <- SaplingTx_copy H net t (Some [s1; s2]) None None None None None None None None None None ;;
        Ok (hex (sa_bytes t'))
    | _, _, _ => Err AttributeError
    end.
  (* sapling_example.py:29 as it is *)
  Definition sapling_example :=
    sapling_example_with (fun ins outs => simple_unsigned_legacy_tx H net ins outs None None None None None None).
  (* sapling_example.py:29 with the lists that the constructor wants *)
  Definition sapling_example_repaired :=
    sapling_example_with (fun ins outs => make_tx H net 2 ins outs 0 (Some 0) 0 (Some []) (Some []) NoWits (Some []) None None None).

  (** * sapling_tx_parsing.py *)

  (* v[0] for a tuple; sapling_tx_parsing.py:15-16 *)
  Definition first_item (v : pv) : res pv :=
    match v with
    | PTuple (x :: _) | PList (x :: _) => Ok x
    | PTuple [] | PList [] => Err IndexError
    | _ => Err TypeError
    end.

  (* sapling.py:431-471 with one keyword argument, which may be anything but None *)
  Definition copy_with_expiry (self expiry_height : pv) : res pv :=
    i <- attribute self (lit "tx_ins") ;; o <- attribute self (lit "tx_outs") ;;
    l <- attribute self (lit "lock_time") ;; b <- attribute self (lit "value_balance") ;;
    s <- attribute self (lit "tx_shielded_spends") ;; u <- attribute self (lit "tx_shielded_outputs") ;;
    j <- attribute self (lit "tx_joinsplits") ;; k <- attribute self (lit "joinsplit_pubkey") ;;
    g <- attribute self (lit "joinsplit_sig") ;; n <- attribute self (lit "binding_sig") ;;
    call_SaplingTx H net i o l expiry_height b s u j k g n.

  (* sapling_tx_parsing.py:14-19, on the object that line 11 makes; the copy is returned,
     lines 21-28 print it and a digest of it *)
  Definition sapling_tx_parsing (sapling_tx : pv) : res pv :=
    e <- attribute sapling_tx (lit "expiry_height") ;; _ <- le_integer e ;;
    u <- attribute sapling_tx (lit "tx_shielded_outputs") ;; u0 <- first_item u ;; _ <- attribute u0 (lit "enc_ciphertext") ;;
    j <- attribute sapling_tx (lit "tx_joinsplits") ;; j0 <- first_item j ;;
    z <- attribute j0 (lit "zkproof") ;; _ <- attribute z (lit "pi_sub_c") ;;
    copy_with_expiry sapling_tx (PInt 77).

  (** * p2pkh_op_return.py *)

  (* p2pkh_op_return.py:22-58: the transaction and the digest that is signed *)
  Definition op_return_unsigned (version sequence lock_time : Z) (sender_pubkey receiver_pubkey tx_id : str)
    (index sender_value fee : Z) (note : bytes) : res (any_outpoint * any_tx * bytes) :=
    k <- fromhex sender_pubkey ;; a <- make_p2wpkh_address H net k ;; sender_addr <- present a ;;
    k' <- fromhex receiver_pubkey ;; a' <- make_p2wpkh_address H net k' ;; receiver_addr <- present a' ;;
    sender_outpoint <- simple_outpoint net tx_id index None ;;
    sender_input <- simple_unsigned_input net sender_outpoint (Some sequence) ;;
    sender_output <- simple_output H net (sender_value - fee) receiver_addr ;;
    op_return_output <- make_op_return_output net note ;;
    t <- simple_unsigned_legacy_tx H net [sender_input] [sender_output; op_return_output]
           (Some version) (Some lock_time) None None None None ;;
    script <- to_output_script H net sender_addr ;;
    match t with
    | AnyTx u => d <- sighash_all H net u 0 script None false ;; Ok (sender_outpoint, t, d)
    | _ => Err AttributeError
    end.
  (* p2pkh_op_return.py:60-69; [p2pkh_input] is simple.p2pkh_input *)
  Definition op_return_with (p2pkh_input : option (any_outpoint -> str -> str -> Z -> res any_in))
    (version sequence lock_time : Z) (sender_pubkey receiver_pubkey tx_id : str)
    (index sender_value fee : Z) (note : bytes) (sign : bytes -> str) : res tx :=
    ' (o, t, d) <- op_return_unsigned version sequence lock_time sender_pubkey receiver_pubkey tx_id index sender_value fee note ;;
    f <- member p2pkh_input ;;
    i <- f o (sign d) sender_pubkey sequence ;;
    match t, i with
    | AnyTx t, AnyIn i => Tx_copy H net t None None (Some [i]) None None None
    | _, _ => Err ValueError
    end.
  (* p2pkh_op_return.py:22-69 *)
  Definition op_return_program := op_return_with simple_p2pkh_input.

  (** * sapling_htlc_example.py *)

  (* sapling_htlc_example.py:31-56: redeem script, address and the output that pays it *)
  Definition htlc_payment (secret pk_execute pk_refund timeout : str) (value : Z) : res (str * str * any_out) :=
    s <- fromhex secret ;; k0 <- fromhex pk_execute ;; k1 <- fromhex pk_refund ;;
    let redeem := htlc_redeem_script (hex (sha256 H s)) (hex (hash160 H net k0)) timeout (hex (hash160 H net k1)) in
    a <- make_sh_address H net redeem false true ;; address <- present a ;;
    o <- simple_output H net value address ;;
    Ok (redeem, address, o).
  (* sapling_htlc_example.py:58-77: the inputs that take the output *)
  Definition htlc_example_with (empty_outpoint : option (res any_outpoint))
    (p2sh_input : option (any_outpoint -> str -> str -> res any_in))
    (secret pk_execute pk_refund timeout : str) (value : Z) (sig : str) : res (any_out * any_in * any_in) :=
    ' (redeem, address, o) <- htlc_payment secret pk_execute pk_refund timeout value ;;
    e <- member empty_outpoint ;; fake_outpoint <- e ;;
    f <- member p2sh_input ;;
    execute_input <- f fake_outpoint (sapling_stack_script_execute sig pk_execute secret) redeem ;;
    refund_input <- f fake_outpoint (sapling_stack_script_refund sig pk_refund) redeem ;;
    Ok (o, execute_input, refund_input).
  (* sapling_htlc_example.py:31-77 *)
  Definition htlc_example := htlc_example_with simple_empty_outpoint simple_p2sh_input.
End Programs.
