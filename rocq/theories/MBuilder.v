(* riemann/tx/tx_builder.py and riemann/simple.py *)
From Coq Require Import String.
From Verif Require Import Py MNet MUtils MShared MScript MTx MDecred MZcash MBase58
  MBech32 MCashaddr MAddr.
Open Scope list_scope.
Open Scope Z_scope.

(* The functions of these modules accept and return objects of several classes;
   the classes are gathered in these sums.  tx_builder.py:347-366, simple.py:30-38 *)
Inductive any_outpoint := AnyOutpoint (o : outpoint) | AnyDecredOutpoint (o : doutpoint).
(* tx_builder.py:398-466, simple.py:41-80 *)
Inductive any_in := AnyIn (i : txin) | AnyDecredIn (i : dtxin).
(* tx_builder.py:153-173 *)
Inductive any_out := AnyOut (o : txout) | AnyDecredOut (o : dtxout).
(* tx_builder.py:532-619 *)
Inductive any_js := AnySproutJs (j : sprout_joinsplit) | AnySaplingJs (j : sapling_joinsplit).
(* tx_builder.py:532-619 *)
Inductive any_tx := AnyTx (t : tx) | AnyDecredTx (t : dtx) | AnySproutTx (t : sprout_tx)
  | AnyOverwinterTx (t : overwinter_tx) | AnySaplingTx (t : sapling_tx).
(* what a caller may pass as tx_witnesses; tx_builder.py:532-619 *)
Inductive any_wits := NoWits | Wits (l : list witness) | DecredWits (l : list dwitness)
  | DecredWit (w : dwitness).

(* for x in l: if not isinstance(x, C): raise ValueError;
   tx.py:496-499, sprout.py:43-46, overwinter.py:49-52, sapling.py:294-297 *)
Definition plain_ins (l : list any_in) : res (list txin) :=
  mapM (fun x => match x with AnyIn i => Ok i | AnyDecredIn _ => Err ValueError end) l.
(* decred.py:219-222 *)
Definition decred_ins (l : list any_in) : res (list dtxin) :=
  mapM (fun x => match x with AnyDecredIn i => Ok i | AnyIn _ => Err ValueError end) l.
(* tx.py:503-506, sprout.py:50-53, overwinter.py:56-59, sapling.py:301-304 *)
Definition plain_outs (l : list any_out) : res (list txout) :=
  mapM (fun x => match x with AnyOut i => Ok i | AnyDecredOut _ => Err ValueError end) l.
(* decred.py:226-229 *)
Definition decred_outs (l : list any_out) : res (list dtxout) :=
  mapM (fun x => match x with AnyDecredOut i => Ok i | AnyOut _ => Err ValueError end) l.
(* sprout.py:66-69, overwinter.py:66-69 *)
Definition sprout_jss (l : list any_js) : res (list sprout_joinsplit) :=
  mapM (fun x => match x with AnySproutJs i => Ok i | AnySaplingJs _ => Err ValueError end) l.
(* sapling.py:325-328 *)
Definition sapling_jss (l : list any_js) : res (list sapling_joinsplit) :=
  mapM (fun x => match x with AnySaplingJs i => Ok i | AnySproutJs _ => Err ValueError end) l.

Section Builder.
  Context (H : hashes) (net : network).

  (* tx_builder.py:168, 360, 416, 451 *)
  Definition on_decred : bool := contains (get_current_network_name net) (lit "decred").

  (* tx_builder.py:9-31 *)
  Definition make_sh_script_pubkey (script_bytes : bytes) (witness : bool) : bytes :=
    if witness then P2WSH_PREFIX net ++ sha256 H script_bytes
    else [0xa9; 0x14] ++ hash160 H net script_bytes ++ [0x87].

  (* tx_builder.py:34-51 *)
  Definition make_sh_output_script (script_string : str) (witness : bool) : res bytes :=
    raise_if witness && negb (SEGWIT net) as ValueError ;;
    script_bytes <- serialize net script_string ;;
    Ok (make_sh_script_pubkey script_bytes witness).

  (* tx_builder.py:54-85 *)
  Definition make_pkh_output_script (pubkey : bytes) (witness : bool) : res bytes :=
    raise_if witness && negb (SEGWIT net) as ValueError ;;
    let pubkey_hash := hash160 H net pubkey in
    Ok (if witness then P2WPKH_PREFIX net ++ pubkey_hash
        else [0x76; 0xa9; 0x14] ++ pubkey_hash ++ [0x88; 0xac]).

  (* tx_builder.py:88-97, 100-109, 112-122, 125-135 *)
  Definition make_p2sh_output_script (s : str) := make_sh_output_script s false.
  (* tx_builder.py:100-109 *)
  Definition make_p2pkh_output_script (pubkey : bytes) := make_pkh_output_script pubkey false.
  (* tx_builder.py:112-122 *)
  Definition make_p2wsh_output_script (s : str) := make_sh_output_script s true.
  (* tx_builder.py:125-135 *)
  Definition make_p2wpkh_output_script (pubkey : bytes) := make_pkh_output_script pubkey true.

  (* tx_builder.py:153-173 *)
  Definition make_output (value output_script : bytes) (version : option bytes) : res any_out :=
    if on_decred
    then o <- DecredTxOut net value version output_script ;; Ok (AnyDecredOut o)
    else o <- TxOut value output_script ;; Ok (AnyOut o).

  (* tx_builder.py:176-192 *)
  Definition make_sh_output (value : Z) (output_script : str) (witness : bool) : res any_out :=
    v <- i2le_padded value 8 ;;
    s <- make_sh_output_script output_script witness ;;
    make_output v s None.

  (* tx_builder.py:195-205, 208-218 *)
  Definition make_p2sh_output (value : Z) (s : str) := make_sh_output value s false.
  (* tx_builder.py:208-218 *)
  Definition make_p2wsh_output (value : Z) (s : str) := make_sh_output value s true.

  (* tx_builder.py:221-237 *)
  Definition make_pkh_output (value : Z) (pubkey : bytes) (witness : bool) : res any_out :=
    v <- i2le_padded value 8 ;;
    s <- make_pkh_output_script pubkey witness ;;
    make_output v s None.

  (* tx_builder.py:240-250, 253-263 *)
  Definition make_p2pkh_output (value : Z) (pubkey : bytes) := make_pkh_output value pubkey false.
  (* tx_builder.py:253-263 *)
  Definition make_p2wpkh_output (value : Z) (pubkey : bytes) := make_pkh_output value pubkey true.

  (* tx_builder.py:266-291 *)
  Definition make_op_return_output (data : bytes) : res any_out :=
    raise_if 77 <? zlen data as ValueError ;;
    let pk_script := [0x6a]
                     ++ (if zmem (zlen data) [76; 77] then [0x4c] else [])
                     ++ [zlen data] ++ data in
    v <- i2le_padded 0 8 ;;
    make_output v pk_script None.

  (* tx_builder.py:303-307 *)
  Definition make_witness_stack_item (data : bytes) : res witem := WitnessStackItem data.

  (* tx_builder.py:310-316 *)
  Definition make_witness (data_list : list bytes) : res witness :=
    stack <- mapM make_witness_stack_item data_list ;; InputWitness stack.

  (* tx_builder.py:294-300 *)
  Definition make_empty_witness : res witness := make_witness [].

  (* tx_builder.py:319-333 *)
  Definition make_decred_witness (value height index stack_script redeem_script : bytes)
    : res dwitness :=
    DecredInputWitness net value height index stack_script redeem_script.

  (* tx_builder.py:347-366 *)
  Definition make_outpoint (tx_id_le : bytes) (index : Z) (tree : option Z) : res any_outpoint :=
    if on_decred
    then tree_bytes <- match tree with None => Ok [0] | Some t => i2le_padded t 1 end ;;
         i <- i2le_padded index 4 ;;
         o <- DecredOutpoint net tx_id_le i tree_bytes ;; Ok (AnyDecredOutpoint o)
    else i <- i2le_padded index 4 ;;
         o <- Outpoint (Some tx_id_le) (Some i) ;; Ok (AnyOutpoint o).

  (* tx_builder.py:369-377 *)
  Definition make_script_sig (stack_script redeem_script : str) : res bytes :=
    r <- hex_serialize net redeem_script ;;
    serialize net (stack_script ++ lit " " ++ r).

  (* tx.TxIn / decred.DecredTxIn on an outpoint of either class: the other
     class has the wrong length (36 against 37 bytes), a ValueError in
     validate_bytes; tx_builder.py:420-423, 455-458, tx.py:112-140 *)
  Definition plain_in (o : any_outpoint) (stack redeem sequence : bytes) : res any_in :=
    match o with
    | AnyOutpoint o => i <- TxIn o stack redeem sequence ;; Ok (AnyIn i)
    | AnyDecredOutpoint _ => Err ValueError
    end.
  (* tx_builder.py:417-419, 452-454, 464-466, decred.py:63-74 *)
  Definition decred_in (o : any_outpoint) (sequence : bytes) : res any_in :=
    match o with
    | AnyDecredOutpoint o => i <- DecredTxIn net o sequence ;; Ok (AnyDecredIn i)
    | AnyOutpoint _ => Err ValueError
    end.

  (* tx_builder.py:398-423 *)
  Definition make_legacy_input (outpoint : any_outpoint) (stack_script redeem_script : bytes)
    (sequence : Z) : res any_in :=
    s <- i2le_padded sequence 4 ;;
    if on_decred then decred_in outpoint s else plain_in outpoint stack_script redeem_script s.

  (* tx_builder.py:440-458 *)
  Definition make_witness_input (outpoint : any_outpoint) (sequence : Z) : res any_in :=
    s <- i2le_padded sequence 4 ;;
    if on_decred then decred_in outpoint s else plain_in outpoint [] [] s.

  (* tx_builder.py:461-466 *)
  Definition make_decred_input (outpoint : any_outpoint) (sequence : Z) : res any_in :=
    s <- i2le_padded sequence 4 ;; decred_in outpoint s.

  (* utils.i2le_padded(x, n), where x may be None: None has no to_bytes;
     tx_builder.py:573-619, utils.py:20-30 *)
  Definition i2le_padded_opt (x : option Z) (n : Z) : res bytes :=
    match x with Some v => i2le_padded v n | None => Err AttributeError end.

  (* tx_builder.py:532-619.  joinsplit_pubkey, joinsplit_sig and binding_sig are
     None for anything that is not byte-like (simple.py passes []).  The element
     type checks of the constructors are made before the constructor body here;
     the exception is a ValueError either way.  SproutTx is given the int
     version, which is not byte-like. *)
  Definition make_tx (version : Z) (tx_ins : list any_in) (tx_outs : list any_out)
    (lock_time : Z) (expiry : option Z) (value_balance : Z)
    (tx_shielded_spends : option (list shielded_spend))
    (tx_shielded_outputs : option (list shielded_output))
    (tx_witnesses : any_wits) (tx_joinsplits : option (list any_js))
    (joinsplit_pubkey joinsplit_sig binding_sig : option bytes) : res any_tx :=
    let n := get_current_network_name net in
    if contains n (lit "decred")
    then
      v <- i2le_padded version 4 ;;
      l <- i2le_padded lock_time 4 ;;
      e <- i2le_padded_opt expiry 4 ;;
      ins <- decred_ins tx_ins ;;
      outs <- decred_outs tx_outs ;;
      w <- match tx_witnesses with DecredWit w => Ok w | _ => Err ValueError end ;;
      t <- DecredTx H net v ins outs l e [w] ;; Ok (AnyDecredTx t)
    else if contains n (lit "sprout")
            && match tx_joinsplits with Some _ => true | None => false end
    then
      l <- i2le_padded lock_time 4 ;;
      ins <- plain_ins tx_ins ;;
      outs <- plain_outs tx_outs ;;
      js <- sprout_jss (match tx_joinsplits with Some j => j | None => [] end) ;;
      t <- SproutTx H net None ins outs l (Some js) joinsplit_pubkey joinsplit_sig ;;
      Ok (AnySproutTx t)
    else if contains n (lit "overwinter")
    then
      l <- i2le_padded lock_time 4 ;;
      e <- i2le_padded_opt expiry 4 ;;
      ins <- plain_ins tx_ins ;;
      outs <- plain_outs tx_outs ;;
      js <- sprout_jss (match tx_joinsplits with Some j => j | None => [] end) ;;
      t <- OverwinterTx H net ins outs l e js joinsplit_pubkey joinsplit_sig ;;
      Ok (AnyOverwinterTx t)
    else if contains n (lit "sapling")
    then
      l <- i2le_padded lock_time 4 ;;
      e <- i2le_padded_opt expiry 4 ;;
      vb <- i2le_padded value_balance 8 ;;
      ins <- plain_ins tx_ins ;;
      outs <- plain_outs tx_outs ;;
      js <- match tx_joinsplits with
            | Some j => r <- sapling_jss j ;; Ok (Some r)
            | None => Ok None
            end ;;
      t <- SaplingTx H net ins outs l e vb tx_shielded_spends tx_shielded_outputs js
             joinsplit_pubkey joinsplit_sig binding_sig ;;
      Ok (AnySaplingTx t)
    else
      let flag := match tx_witnesses with NoWits => None | _ => Some (SEGWIT_TX_FLAG net) end in
      v <- i2le_padded version 4 ;;
      l <- i2le_padded lock_time 4 ;;
      ins <- plain_ins tx_ins ;;
      outs <- plain_outs tx_outs ;;
      ws <- match tx_witnesses with
            | NoWits => Ok None
            | Wits ws => Ok (Some ws)
            | DecredWits [] => Ok (Some [])
            | DecredWits _ | DecredWit _ => Err ValueError
            end ;;
      t <- Tx H net v flag ins outs ws l ;; Ok (AnyTx t).

  (* tx_builder.py:622-625 *)
  Definition length_prepend (byte_string : bytes) : res bytes :=
    n <- VarInt (zlen byte_string) None ;; Ok (vi_bytes n ++ byte_string).

  (** * simple.py *)

  (* simple.py:10-17 *)
  Definition simple_output (value : Z) (address : str) : res any_out :=
    script <- to_output_script H net address ;;
    value_bytes <- i2le_padded value 8 ;;
    make_output value_bytes script None.

  (* simple.py:30-38 *)
  Definition simple_outpoint (tx_id : str) (index : Z) (tree : option Z) : res any_outpoint :=
    b <- fromhex tx_id ;; make_outpoint (rev b) index tree.

  (* simple.py:67-77; the default of sequence is 0xFFFFFFFE *)
  Definition simple_unsigned_input (outpoint : any_outpoint) (sequence : option Z) : res any_in :=
    make_legacy_input outpoint [] [] (or_self sequence 0xFFFFFFFE).

  (* simple.py:80-112; keyword arguments not given are None *)
  Definition simple_unsigned_legacy_tx (tx_ins : list any_in) (tx_outs : list any_out)
    (version lock_time expiry : option Z) (tx_joinsplits : option (list any_js))
    (joinsplit_pubkey joinsplit_sig : option bytes) : res any_tx :=
    make_tx (or_self version 2) tx_ins tx_outs (or_self lock_time 0)
      (Some (or_self expiry 0)) 0 None None NoWits
      (Some (or_self tx_joinsplits [])) joinsplit_pubkey joinsplit_sig None.

  (* simple.py:115-137 *)
  Definition simple_unsigned_witness_tx (tx_ins : list any_in) (tx_outs : list any_out)
    (version lock_time : option Z) : res any_tx :=
    ws <- mapM (fun _ => make_empty_witness) tx_ins ;;
    make_tx (or_self version 2) tx_ins tx_outs (or_self lock_time 0)
      None 0 None None (Wits ws) None None None None.
End Builder.
