(* The Decred classes in the heap of MHeap.v (riemann/tx/decred.py).  The checks
   that use isinstance are in MClass.v.  The VarInt objects that a constructor adds
   to itself are temporary: only their bytes appear. *)
From Coq Require Import String.
From Verif Require Import Py SHash MNet MUtils MShared MTx MDecred MHeap MHeapTx.
Open Scope list_scope.
Open Scope Z_scope.

(* shared.py:35-48: the TypeError of += on anything else *)
Definition get_content (h : heap) (v : val) : res bytes :=
  match content h v with Some b => Ok b | None => Err TypeError end.
(* for example decred.py:219: a loop over anything else *)
Definition get_items (h : heap) (v : val) : res (list val) :=
  match items h v with Some l => Ok l | None => Err TypeError end.

Section Decred.
  Context (H : hashes) (net : network).

  (* decred.py:24-39 *)
  Definition new_doutpoint (h : heap) (tx_id index tree : val) : res (heap * nat) :=
    _ <- decred_only net ;;
    _ <- check_len h tx_id 32 ;;
    _ <- check_len h index 4 ;;
    _ <- check_len h tree 1 ;;
    construct h [tx_id; index; tree] [(lit "tx_id", tx_id); (lit "index", index); (lit "tree", tree)].

  (* decred.py:63-75 *)
  Definition new_dtxin (h : heap) (outpoint sequence : val) : res (heap * nat) :=
    _ <- decred_only net ;;
    _ <- check_len h outpoint 37 ;;
    _ <- check_len h sequence 4 ;;
    construct h [outpoint; sequence] [(lit "outpoint", outpoint); (lit "sequence", sequence)].

  (* decred.py:97-114 *)
  Definition new_dtxout (h : heap) (value version output_script : val) : res (heap * nat) :=
    _ <- decred_only net ;;
    _ <- check_len h value 8 ;;
    _ <- check_len h version 2 ;;
    s <- check_bytes h output_script ;;
    n <- VarInt (zlen s) None ;;
    construct h [value; version; VB (vi_bytes n); output_script]
      [(lit "value", value); (lit "version", version); (lit "output_script_len", VInt (zlen s));
       (lit "output_script", output_script)].

  (* decred.py:149-178 *)
  Definition new_dwitness (h : heap) (value height index stack_script redeem_script : val) : res (heap * nat) :=
    _ <- decred_only net ;;
    _ <- check_len h value 8 ;;
    _ <- check_len h height 4 ;;
    _ <- check_len h index 4 ;;
    s <- check_bytes h stack_script ;;
    r <- check_bytes h redeem_script ;;
    n <- VarInt (zlen s + zlen r) None ;;
    ' (h, both) <- add h stack_script redeem_script ;;
    b <- get_content h both ;;
    ' (h, script_sig) <- add h stack_script redeem_script ;;
    construct h [value; height; index; VB (vi_bytes n); stack_script; redeem_script]
      [(lit "value", value); (lit "height", height); (lit "index", index);
       (lit "script_len", VInt (zlen b)); (lit "stack_script", stack_script);
       (lit "redeem_script", redeem_script); (lit "script_sig", script_sig)].

  (* decred.py:292-304, on the attributes *)
  Definition dtx_prefix_of (h : heap) (version tx_ins tx_outs lock_time expiry : val) : res bytes :=
    v <- get_content h version ;;
    ins <- get_items h tx_ins ;;
    outs <- get_items h tx_outs ;;
    n <- VarInt (zlen ins) None ;;
    m <- VarInt (zlen outs) None ;;
    joined h ([VB (slice_to v 2); VB [1; 0]; VB (vi_bytes n)] ++ ins ++ [VB (vi_bytes m)] ++ outs
              ++ [lock_time; expiry]).

  (* decred.py:203-274: the caller's tx_ins, tx_outs and tx_witnesses, lists or
     tuples, become attributes *)
  Definition new_dtx (h : heap) (version tx_ins tx_outs lock_time expiry tx_witnesses : val) : res (heap * nat) :=
    _ <- decred_only net ;;
    _ <- check_len h version 4 ;;
    _ <- check_len h lock_time 4 ;;
    _ <- check_len h expiry 4 ;;
    ins <- get_items h tx_ins ;;
    outs <- get_items h tx_outs ;;
    raise_if Z.min (zlen ins) (zlen outs) =? 0 as ValueError ;;
    wits <- get_items h tx_witnesses ;;
    n <- VarInt (zlen ins) None ;;
    m <- VarInt (zlen outs) None ;;
    k <- VarInt (zlen wits) None ;;
    let parts := [version; VB (vi_bytes n)] ++ ins ++ [VB (vi_bytes m)] ++ outs
                 ++ [lock_time; expiry; VB (vi_bytes k)] ++ wits in
    b <- joined h parts ;;
    raise_if 100000 <? zlen b as ValueError ;;
    p <- dtx_prefix_of h version tx_ins tx_outs lock_time expiry ;;
    let id := blake256 H p in
    construct h parts
      [(lit "version", version); (lit "tx_ins", tx_ins); (lit "tx_outs", tx_outs);
       (lit "lock_time", lock_time); (lit "expiry", expiry); (lit "tx_witnesses", tx_witnesses);
       (lit "tx_id_le", VB id); (lit "tx_id", VB (change_endianness id))].

  (* decred.py:292-304 *)
  Definition dtx_prefix (h : heap) (self : nat) : res bytes :=
    version <- getattr h self (lit "version") ;;
    tx_ins <- getattr h self (lit "tx_ins") ;;
    tx_outs <- getattr h self (lit "tx_outs") ;;
    lock_time <- getattr h self (lit "lock_time") ;;
    expiry <- getattr h self (lit "expiry") ;;
    dtx_prefix_of h version tx_ins tx_outs lock_time expiry.

  (* decred.py:280-284 *)
  Definition dtx_prefix_hash (h : heap) (self : nat) : res bytes :=
    match getattr h self (lit "tx_id_le") with
    | Ok v => get_content h v
    | Err AttributeError => p <- dtx_prefix h self ;; Ok (blake256 H p)
    | Err e => Err e
    end.

  (* decred.py:306-313 *)
  Definition dtx_witness (h : heap) (self : nat) : res bytes :=
    version <- getattr h self (lit "version") ;;
    v <- get_content h version ;;
    tx_witnesses <- getattr h self (lit "tx_witnesses") ;;
    wits <- get_items h tx_witnesses ;;
    n <- VarInt (zlen wits) None ;;
    joined h ([VB (slice_to v 2); VB [2; 0]; VB (vi_bytes n)] ++ wits).

  (* v.k for an object v; for example decred.py:312 *)
  Definition attr (h : heap) (v : val) (k : str) : res val :=
    match v with VRef l => getattr h l k | _ => Err AttributeError end.

  (* decred.py:320-322 *)
  Definition dwitness_signing (h : heap) (w : val) : res bytes :=
    n <- attr h w (lit "script_len") ;;
    match n with
    | VInt n =>
        l <- VarInt n None ;;
        v <- attr h w (lit "script_sig") ;;
        s <- get_content h v ;;
        Ok (vi_bytes l ++ s)
    | _ => Err TypeError
    end.

  (* decred.py:315-323 *)
  Definition dtx_witness_signing (h : heap) (self : nat) : res bytes :=
    version <- getattr h self (lit "version") ;;
    v <- get_content h version ;;
    tx_witnesses <- getattr h self (lit "tx_witnesses") ;;
    wits <- get_items h tx_witnesses ;;
    n <- VarInt (zlen wits) None ;;
    parts <- mapM (dwitness_signing h) wits ;;
    Ok (slice_to v 2 ++ [3; 0] ++ vi_bytes n ++ concat parts).

  (* utils.le2i of an attribute value (decred.py:327-328) *)
  Definition value_of (h : heap) (x : val) : res Z :=
    v <- attr h x (lit "value") ;;
    b <- get_content h v ;;
    Ok (le2i b false).

  (* decred.py:325-328 *)
  Definition dtx_calculate_fee (h : heap) (self : nat) : res Z :=
    tx_witnesses <- getattr h self (lit "tx_witnesses") ;;
    wits <- get_items h tx_witnesses ;;
    a <- mapM (value_of h) wits ;;
    tx_outs <- getattr h self (lit "tx_outs") ;;
    outs <- get_items h tx_outs ;;
    b <- mapM (value_of h) outs ;;
    Ok (sumZ a - sumZ b).

  (* x if x is not None else self.k; decred.py:330-340 *)
  Definition or_attr (h : heap) (self : nat) (x : val) (k : str) : res val :=
    match x with VNone => getattr h self k | _ => Ok x end.

  (* decred.py:330-340; VNone is an argument that is left out *)
  Definition dtx_copy (h : heap) (self : nat) (version tx_ins tx_outs lock_time expiry tx_witnesses : val)
    : res (heap * nat) :=
    version <- or_attr h self version (lit "version") ;;
    tx_ins <- or_attr h self tx_ins (lit "tx_ins") ;;
    tx_outs <- or_attr h self tx_outs (lit "tx_outs") ;;
    lock_time <- or_attr h self lock_time (lit "lock_time") ;;
    expiry <- or_attr h self expiry (lit "expiry") ;;
    tx_witnesses <- or_attr h self tx_witnesses (lit "tx_witnesses") ;;
    new_dtx h version tx_ins tx_outs lock_time expiry tx_witnesses.
End Decred.
