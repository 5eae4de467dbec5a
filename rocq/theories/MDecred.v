(* riemann/tx/decred.py *)
From Coq Require Import String.
From Verif Require Import Py MNet MUtils MShared MTx.
Open Scope list_scope.
Open Scope Z_scope.

(* As in MTx.v: records hold the attributes and the bytes of an object; the
   isinstance checks hold by typing.  DecredTx keeps the lists it is given;
   they are values here. *)

(* decred.py:18-40 *)
Record doutpoint := { dop_tx_id : bytes; dop_index : bytes; dop_tree : bytes;
                      dop_bytes : bytes }.
(* decred.py:58-74 *)
Record dtxin := { dti_outpoint : doutpoint; dti_sequence : bytes; dti_bytes : bytes }.
(* decred.py:91-114 *)
Record dtxout := { dto_value : bytes; dto_version : bytes; dto_output_script_len : Z;
                   dto_output_script : bytes; dto_bytes : bytes }.
(* decred.py:141-178 *)
Record dwitness := { dw_value : bytes; dw_height : bytes; dw_index : bytes;
                     dw_script_len : Z; dw_stack_script : bytes;
                     dw_redeem_script : bytes; dw_script_sig : bytes;
                     dw_bytes : bytes }.
(* decred.py:201-262 *)
Record dtx := { dtx_version : bytes; dtx_tx_ins : list dtxin; dtx_tx_outs : list dtxout;
                dtx_lock_time : bytes; dtx_expiry : bytes;
                dtx_tx_witnesses : list dwitness;
                dtx_tx_id_le : bytes; dtx_tx_id : bytes; dtx_bytes : bytes }.

Section Decred.
  Context (H : hashes) (net : network).

  (* decred.py:8-15: DecredByteData.__init__ *)
  Definition decred_only : res unit :=
    guard (negb (contains (get_current_network_name net) (lit "decred"))) ValueError.

  (* decred.py:24-39 *)
  Definition DecredOutpoint (tx_id index tree : bytes) : res doutpoint :=
    _ <- decred_only ;;
    _ <- validate_bytes (Some tx_id) (Some 32) ;;
    _ <- validate_bytes (Some index) (Some 4) ;;
    _ <- validate_bytes (Some tree) (Some 1) ;;
    Ok {| dop_tx_id := tx_id; dop_index := index; dop_tree := tree;
          dop_bytes := tx_id ++ index ++ tree |}.

  (* decred.py:41-48 *)
  Definition DecredOutpoint_copy (self : doutpoint) (tx_id index tree : option bytes)
    : res doutpoint :=
    DecredOutpoint (or_self tx_id (dop_tx_id self)) (or_self index (dop_index self))
                   (or_self tree (dop_tree self)).

  (* decred.py:50-55 *)
  Definition DecredOutpoint_from_bytes (byte_string : bytes) : res doutpoint :=
    DecredOutpoint (slice_to byte_string 32) (slice byte_string 32 36)
                   (slice byte_string 36 37).

  (* decred.py:63-75 *)
  Definition DecredTxIn (outpoint : doutpoint) (sequence : bytes) : res dtxin :=
    _ <- decred_only ;;
    _ <- validate_bytes (Some (dop_bytes outpoint)) (Some 37) ;;
    _ <- validate_bytes (Some sequence) (Some 4) ;;
    Ok {| dti_outpoint := outpoint; dti_sequence := sequence;
          dti_bytes := dop_bytes outpoint ++ sequence |}.

  (* decred.py:77-82 *)
  Definition DecredTxIn_copy (self : dtxin) (outpoint : option doutpoint)
    (sequence : option bytes) : res dtxin :=
    DecredTxIn (or_self outpoint (dti_outpoint self))
               (or_self sequence (dti_sequence self)).

  (* decred.py:84-88 *)
  Definition DecredTxIn_from_bytes (byte_string : bytes) : res dtxin :=
    o <- DecredOutpoint_from_bytes (slice_to byte_string 37) ;;
    DecredTxIn o (slice byte_string 37 41).

  (* decred.py:97-114; version may arrive as None from tx_builder._make_output *)
  Definition DecredTxOut (value : bytes) (version : option bytes) (output_script : bytes)
    : res dtxout :=
    _ <- decred_only ;;
    _ <- validate_bytes (Some value) (Some 8) ;;
    _ <- validate_bytes version (Some 2) ;;
    _ <- validate_bytes (Some output_script) None ;;
    v <- add_opt version ;;
    n <- VarInt (zlen output_script) None ;;
    Ok {| dto_value := value; dto_version := v;
          dto_output_script_len := zlen output_script;
          dto_output_script := output_script;
          dto_bytes := value ++ v ++ vi_bytes n ++ output_script |}.

  (* decred.py:116-124 *)
  Definition DecredTxOut_copy (self : dtxout) (value version output_script : option bytes)
    : res dtxout :=
    DecredTxOut (or_self value (dto_value self)) (Some (or_self version (dto_version self)))
                (or_self output_script (dto_output_script self)).

  (* decred.py:126-138 *)
  Definition DecredTxOut_from_bytes (byte_string : bytes) : res dtxout :=
    n <- VarInt_from_bytes net (slice_from byte_string 10) ;;
    let script_start := 10 + zlen (vi_bytes n) in
    let script_end := script_start + vi_number n in
    if vi_number n <? 0xfc
    then DecredTxOut (slice_to byte_string 8) (Some (slice byte_string 8 10))
                     (slice byte_string script_start script_end)
    else Err NotImplementedError.

  (* decred.py:149-178 *)
  Definition DecredInputWitness (value height index stack_script redeem_script : bytes)
    : res dwitness :=
    _ <- decred_only ;;
    _ <- validate_bytes (Some value) (Some 8) ;;
    _ <- validate_bytes (Some height) (Some 4) ;;
    _ <- validate_bytes (Some index) (Some 4) ;;
    _ <- validate_bytes (Some stack_script) None ;;
    _ <- validate_bytes (Some redeem_script) None ;;
    n <- VarInt (zlen stack_script + zlen redeem_script) None ;;
    Ok {| dw_value := value; dw_height := height; dw_index := index;
          dw_script_len := zlen (stack_script ++ redeem_script);
          dw_stack_script := stack_script; dw_redeem_script := redeem_script;
          dw_script_sig := stack_script ++ redeem_script;
          dw_bytes := value ++ height ++ index ++ vi_bytes n ++ stack_script
                      ++ redeem_script |}.

  (* decred.py:180-193 *)
  Definition DecredInputWitness_copy (self : dwitness)
    (value height index stack_script redeem_script : option bytes) : res dwitness :=
    DecredInputWitness (or_self value (dw_value self)) (or_self height (dw_height self))
      (or_self index (dw_index self)) (or_self stack_script (dw_stack_script self))
      (or_self redeem_script (dw_redeem_script self)).

  (* decred.py:195-198 *)
  Definition DecredInputWitness_from_bytes (byte_string : bytes) : res dwitness :=
    Err NotImplementedError.

  (* decred.py:292-304, on the attributes *)
  Definition decred_prefix_of (version : bytes) (tx_ins : list dtxin) (tx_outs : list dtxout)
    (lock_time expiry : bytes) : res bytes :=
    n <- VarInt (zlen tx_ins) None ;;
    m <- VarInt (zlen tx_outs) None ;;
    Ok (slice_to version 2 ++ [1; 0] ++ vi_bytes n ++ concat (map dti_bytes tx_ins)
        ++ vi_bytes m ++ concat (map dto_bytes tx_outs) ++ lock_time ++ expiry).

  (* decred.py:203-274; prefix_hash (280-284) hashes here, and afterwards returns
     the attribute *)
  Definition DecredTx (version : bytes) (tx_ins : list dtxin) (tx_outs : list dtxout)
    (lock_time expiry : bytes) (tx_witnesses : list dwitness) : res dtx :=
    _ <- decred_only ;;
    _ <- validate_bytes (Some version) (Some 4) ;;
    _ <- validate_bytes (Some lock_time) (Some 4) ;;
    _ <- validate_bytes (Some expiry) (Some 4) ;;
    raise_if Z.min (zlen tx_ins) (zlen tx_outs) =? 0 as ValueError ;;
    n <- VarInt (zlen tx_ins) None ;;
    m <- VarInt (zlen tx_outs) None ;;
    k <- VarInt (zlen tx_witnesses) None ;;
    let b := version ++ vi_bytes n ++ concat (map dti_bytes tx_ins)
             ++ vi_bytes m ++ concat (map dto_bytes tx_outs) ++ lock_time ++ expiry
             ++ vi_bytes k ++ concat (map dw_bytes tx_witnesses) in
    raise_if 100000 <? zlen b as ValueError ;;
    p <- decred_prefix_of version tx_ins tx_outs lock_time expiry ;;
    let tx_id_le := blake256 H p in
    Ok {| dtx_version := version; dtx_tx_ins := tx_ins; dtx_tx_outs := tx_outs;
          dtx_lock_time := lock_time; dtx_expiry := expiry;
          dtx_tx_witnesses := tx_witnesses;
          dtx_tx_id_le := tx_id_le; dtx_tx_id := change_endianness tx_id_le;
          dtx_bytes := b |}.

  (* decred.py:276-278 *)
  Definition DecredTx_from_bytes (byte_string : bytes) : res dtx := Err NotImplementedError.

  (* decred.py:292-304 *)
  Definition decred_prefix (self : dtx) : res bytes :=
    decred_prefix_of (dtx_version self) (dtx_tx_ins self) (dtx_tx_outs self)
                     (dtx_lock_time self) (dtx_expiry self).

  (* decred.py:280-284, on a constructed object *)
  Definition prefix_hash (self : dtx) : bytes := dtx_tx_id_le self.

  (* decred.py:306-313 *)
  Definition decred_witness (self : dtx) : res bytes :=
    n <- VarInt (zlen (dtx_tx_witnesses self)) None ;;
    Ok (slice_to (dtx_version self) 2 ++ [2; 0] ++ vi_bytes n
        ++ concat (map dw_bytes (dtx_tx_witnesses self))).

  (* decred.py:315-323 *)
  Definition decred_witness_signing (self : dtx) : res bytes :=
    n <- VarInt (zlen (dtx_tx_witnesses self)) None ;;
    parts <- mapM (fun w => l <- VarInt (dw_script_len w) None ;;
                            Ok (vi_bytes l ++ dw_script_sig w))
                  (dtx_tx_witnesses self) ;;
    Ok (slice_to (dtx_version self) 2 ++ [3; 0] ++ vi_bytes n ++ concat parts).

  (* decred.py:286-287 *)
  Definition witness_hash (self : dtx) : res bytes :=
    b <- decred_witness self ;; Ok (blake256 H b).

  (* decred.py:289-290 *)
  Definition witness_signing_hash (self : dtx) : res bytes :=
    b <- decred_witness_signing self ;; Ok (blake256 H b).

  (* decred.py:325-328 *)
  Definition decred_calculate_fee (self : dtx) : Z :=
    sumZ (map (fun w => le2i (dw_value w) false) (dtx_tx_witnesses self))
    - sumZ (map (fun o => le2i (dto_value o) false) (dtx_tx_outs self)).

  (* decred.py:330-340 *)
  Definition DecredTx_copy (self : dtx) (version : option bytes)
    (tx_ins : option (list dtxin)) (tx_outs : option (list dtxout))
    (lock_time expiry : option bytes) (tx_witnesses : option (list dwitness)) : res dtx :=
    DecredTx (or_self version (dtx_version self)) (or_self tx_ins (dtx_tx_ins self))
      (or_self tx_outs (dtx_tx_outs self)) (or_self lock_time (dtx_lock_time self))
      (or_self expiry (dtx_expiry self)) (or_self tx_witnesses (dtx_tx_witnesses self)).

  (* decred.py:342-343 *)
  Definition decred_sighash_none (self : dtx) : res bytes := Err NotImplementedError.

  (* decred.py:345-354; with script=None the copy keeps the b'' just written *)
  Definition decred_sighash_prep (self : dtx) (idx : Z) (script : option bytes) : res dtx :=
    ws <- mapM (fun w => DecredInputWitness_copy w None None None (Some []) (Some []))
               (dtx_tx_witnesses self) ;;
    cur <- index ws idx ;;
    cur <- DecredInputWitness_copy cur None None None script (Some []) ;;
    ws <- set_index ws idx cur ;;
    DecredTx_copy self None None None None None (Some ws).

  (* decred.py:431-440 *)
  Definition decred_sighash_final_hashing (copy_tx : dtx) (sighash_type : Z) : res bytes :=
    t <- i2le_padded sighash_type 4 ;;
    w <- witness_signing_hash copy_tx ;;
    Ok (blake256 H (t ++ prefix_hash copy_tx ++ w)).

  (* decred.py:416-429 *)
  Definition decred_sighash_anyone_can_pay (idx : Z) (copy_tx : dtx) (sighash_type : Z)
    : res bytes :=
    ws <- mapM (fun w => DecredInputWitness_copy w None None None (Some []) (Some []))
               (dtx_tx_witnesses copy_tx) ;;
    cur <- index (dtx_tx_witnesses copy_tx) idx ;;
    ws <- set_index ws idx cur ;;
    copy_tx <- DecredTx_copy copy_tx None None None None None (Some ws) ;;
    decred_sighash_final_hashing copy_tx (Z.lor sighash_type SIGHASH_ANYONECANPAY).

  (* decred.py:356-393; line 367 is overwritten by line 368 *)
  Definition decred_sighash_single (self : dtx) (idx : Z) (script : option bytes)
    (anyone_can_pay : bool) : res bytes :=
    copy_tx <- decred_sighash_prep self idx script ;;
    copy_tx_outs <-
      match (outs <- mapM (fun _ => DecredTxOut (zrepeat 0xff 8) (Some [0; 0]) [])
                          (dtx_tx_ins copy_tx) ;;
             cur <- index (dtx_tx_outs copy_tx) idx ;;
             set_index outs idx cur)
      with
      | Err IndexError => Err NotImplementedError
      | r => r
      end ;;
    copy_tx_ins <- mapM (fun i => DecredTxIn_copy i None (Some (zrepeat 0 4)))
                        (dtx_tx_ins copy_tx) ;;
    cur_in <- index (dtx_tx_ins copy_tx) idx ;;
    copy_tx_ins <- set_index copy_tx_ins idx cur_in ;;
    copy_tx <- DecredTx_copy copy_tx None (Some copy_tx_ins) (Some copy_tx_outs)
                 None None None ;;
    if anyone_can_pay
    then decred_sighash_anyone_can_pay idx copy_tx SIGHASH_SINGLE
    else decred_sighash_final_hashing copy_tx SIGHASH_SINGLE.

  (* decred.py:395-414 *)
  Definition decred_sighash_all (self : dtx) (idx : Z) (script : option bytes)
    (anyone_can_pay : bool) : res bytes :=
    copy_tx <- decred_sighash_prep self idx script ;;
    if anyone_can_pay
    then decred_sighash_anyone_can_pay idx copy_tx SIGHASH_ALL
    else decred_sighash_final_hashing copy_tx SIGHASH_ALL.
End Decred.
