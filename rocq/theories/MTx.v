(* riemann/tx/tx.py *)
From Coq Require Import String.
From Verif Require Import Py MNet MUtils MShared MScript.
Open Scope list_scope.
Open Scope Z_scope.

(* Objects are records: the attributes, plus the bytes the constructor
   accumulates with += (the field named *_bytes).  The isinstance checks of the
   constructors hold by typing and are left out.  An argument that the code
   may receive as None is an option. *)

(** * Outpoint *)

(* tx.py:10-42 *)
Record outpoint := { op_tx_id : bytes; op_index : bytes; op_bytes : bytes }.

(* tx.py:30-42 *)
Definition Outpoint (tx_id index : option bytes) : res outpoint :=
  _ <- validate_bytes tx_id (Some 32) ;;
  _ <- validate_bytes index (Some 4) ;;
  match tx_id, index with
  | Some t, Some i => Ok {| op_tx_id := t; op_index := i; op_bytes := t ++ i |}
  | _, _ => Err TypeError
  end.

(* x if x is not None else self.x; for example tx.py:48-52 *)
Definition or_self {A} (x : option A) (self : A) : A :=
  match x with Some a => a | None => self end.

(* tx.py:44-52 *)
Definition Outpoint_copy (self : outpoint) (tx_id index : option bytes) : res outpoint :=
  Outpoint (Some (or_self tx_id (op_tx_id self)))
           (Some (or_self index (op_index self))).

(* tx.py:54-57 *)
Definition Outpoint_null : res outpoint :=
  Outpoint (Some (zrepeat 0 32)) (Some (zrepeat 0xff 4)).

(* tx.py:59-66 *)
Definition Outpoint_from_bytes (byte_string : bytes) : res outpoint :=
  Outpoint (Some (slice_to byte_string 32)) (Some (slice byte_string 32 36)).

(** * TxIn *)

(* tx.py:69-140 *)
Record txin := {
  ti_outpoint : outpoint;
  ti_stack_script : bytes;
  ti_redeem_script : bytes;
  ti_script_sig : bytes;
  ti_sequence : bytes;
  ti_bytes : bytes
}.

(* tx.py:112-141 *)
Definition TxIn (outpoint : outpoint) (stack_script redeem_script sequence : bytes)
  : res txin :=
  _ <- validate_bytes (Some (op_bytes outpoint)) (Some 36) ;;
  _ <- validate_bytes (Some stack_script) None ;;
  _ <- validate_bytes (Some redeem_script) None ;;
  _ <- validate_bytes (Some sequence) (Some 4) ;;
  raise_if 1650 <? zlen stack_script + zlen redeem_script as ValueError ;;
  n <- VarInt (zlen stack_script + zlen redeem_script) None ;;
  Ok {| ti_outpoint := outpoint;
        ti_stack_script := stack_script;
        ti_redeem_script := redeem_script;
        ti_script_sig := stack_script ++ redeem_script;
        ti_sequence := sequence;
        ti_bytes := op_bytes outpoint ++ vi_bytes n ++ stack_script
                    ++ redeem_script ++ sequence |}.

(* tx.py:143-157 *)
Definition TxIn_copy (self : txin) (outpoint : option outpoint)
  (stack_script redeem_script sequence : option bytes) : res txin :=
  TxIn (or_self outpoint (ti_outpoint self))
       (or_self stack_script (ti_stack_script self))
       (or_self redeem_script (ti_redeem_script self))
       (or_self sequence (ti_sequence self)).

(* tx.py:159-163 *)
Definition TxIn_is_p2sh (self : txin) : bool := negb (leqb (ti_redeem_script self) []).

(** * TxOut *)

(* tx.py:223-258 *)
Record txout := { to_value : bytes; to_output_script : bytes; to_bytes_ : bytes }.

(* tx.py:245-258 *)
Definition TxOut (value output_script : bytes) : res txout :=
  _ <- validate_bytes (Some value) (Some 8) ;;
  _ <- validate_bytes (Some output_script) None ;;
  n <- VarInt (zlen output_script) None ;;
  Ok {| to_value := value; to_output_script := output_script;
        to_bytes_ := value ++ vi_bytes n ++ output_script |}.

(* tx.py:260-269 *)
Definition TxOut_copy (self : txout) (value output_script : option bytes) : res txout :=
  TxOut (or_self value (to_value self)) (or_self output_script (to_output_script self)).

(** * Witnesses *)

(* tx.py:288-310 *)
Record witem := { wi_item : bytes; wi_bytes : bytes }.

(* tx.py:300-310 *)
Definition WitnessStackItem (item : bytes) : res witem :=
  _ <- validate_bytes (Some item) None ;;
  n <- VarInt (zlen item) None ;;
  Ok {| wi_item := item; wi_bytes := vi_bytes n ++ item |}.

(* tx.py:323-355 *)
Record witness := { wit_stack : list witem; wit_bytes : bytes }.

(* tx.py:337-355 *)
Definition InputWitness (stack : list witem) : res witness :=
  n <- VarInt (zlen stack) None ;;
  Ok {| wit_stack := stack;
        wit_bytes := vi_bytes n ++ concat (map wi_bytes stack) |}.

(* tx.py:371-377 *)
Definition InputWitness_copy (self : witness) (stack : option (list witem)) : res witness :=
  InputWitness (or_self stack (wit_stack self)).

(** * Tx *)

(* wtx_id_le is an option: on a transaction without flag the attribute does not
   exist (tx.py:539-543 set wtx_le instead) *)
Record tx := {
  tx_version : bytes;
  tx_flag : option bytes;
  tx_tx_ins : list txin;
  tx_tx_outs : list txout;
  tx_tx_witnesses : option (list witness);
  tx_lock_time : bytes;
  tx_tx_id_le : bytes;
  tx_wtx_id_le : option bytes;
  tx_tx_id : bytes;
  tx_wtx_id : option bytes;
  tx_bytes : bytes
}.

Section Tx.
  Context (H : hashes) (net : network).

  (* tx.py:165-186; KeyError cannot be caught by the handler *)
  Definition TxIn_parse_script_sig (script_sig : bytes) : res (bytes * bytes) :=
    let attempt :=
      deserialized <- deserialize net script_sig ;;
      let items := split_ws deserialized in
      last <- index items (-1) ;;
      _ <- hex_deserialize net last ;;
      stack_script <- serialize net (join (lit " ") (slice_to items (-1))) ;;
      redeem_script <- serialize net last ;;
      Ok (stack_script, redeem_script) in
    match attempt with
    | Ok r => Ok r
    | Err IndexError | Err ValueError | Err NotImplementedError => Ok (script_sig, [])
    | Err e => Err e
    end.

  (* tx.py:188-220 *)
  Definition TxIn_from_bytes (byte_string : bytes) : res txin :=
    outpoint <- Outpoint_from_bytes (slice_to byte_string 36) ;;
    script_sig_len <- VarInt_from_bytes net (slice byte_string 36 45) ;;
    let script_start := 36 + zlen (vi_bytes script_sig_len) in
    let script_end := script_start + vi_number script_sig_len in
    let script_sig := slice byte_string script_start script_end in
    let sequence := slice byte_string script_end (script_end + 4) in
    ' (stack_script, redeem_script) <-
      (if leqb script_sig [] then Ok ([], [])
       else null <- Outpoint_null ;;
            if leqb (op_bytes outpoint) (op_bytes null) then Ok (script_sig, [])
            else TxIn_parse_script_sig script_sig) ;;
    TxIn outpoint stack_script redeem_script sequence.

  (* tx.py:271-285 *)
  Definition TxOut_from_bytes (byte_string : bytes) : res txout :=
    n <- VarInt_from_bytes net (slice_from byte_string 8) ;;
    let script_start := 8 + zlen (vi_bytes n) in
    let script_end := script_start + vi_number n in
    if vi_number n <? 0xfc
    then TxOut (slice_to byte_string 8) (slice byte_string script_start script_end)
    else Err NotImplementedError.

  (* tx.py:312-320 *)
  Definition WitnessStackItem_from_bytes (byte_string : bytes) : res witem :=
    n <- VarInt_from_bytes net byte_string ;;
    let item_start := zlen (vi_bytes n) in
    let item_end := item_start + vi_number n in
    WitnessStackItem (slice byte_string item_start item_end).

  (* A loop that reads count objects one after the other:
       for _ in range(count):
           x = from_bytes(byte_string[current:]); current += len(x); xs.append(x)
     (tx.py:365-368, 575-578, 586-589, 595-598 and the other tx modules).
     Returns the objects and the final value of current. *)
  Fixpoint read_many {A} (from_bytes : bytes -> res A) (size : A -> Z)
    (fuel : nat) (byte_string : bytes) (count current : Z) : res (list A * Z) :=
    if count <=? 0 then Ok ([], current)
    else match fuel with
    | O => Err EFuel
    | S f =>
        x <- from_bytes (slice_from byte_string current) ;;
        ' (xs, current) <-
          read_many from_bytes size f byte_string (count - 1) (current + size x) ;;
        Ok (x :: xs, current)
    end.

  (* tx.py:357-369 *)
  Definition InputWitness_from_bytes (byte_string : bytes) : res witness :=
    stack_items <- VarInt_from_bytes net byte_string ;;
    let item_start := zlen (vi_bytes stack_items) in
    ' (items, _) <- read_many WitnessStackItem_from_bytes (fun i => zlen (wi_bytes i))
                     (S (length byte_string)) byte_string
                     (vi_number stack_items) item_start ;;
    InputWitness items.

  (* tx.py:610-624 *)
  Definition no_witness_bytes (version : bytes) (tx_ins : list txin)
    (tx_outs : list txout) (lock_time : bytes) : res bytes :=
    n <- VarInt (zlen tx_ins) None ;;
    m <- VarInt (zlen tx_outs) None ;;
    Ok (version ++ vi_bytes n ++ concat (map ti_bytes tx_ins)
        ++ vi_bytes m ++ concat (map to_bytes_ tx_outs) ++ lock_time).

  (* tx.py:458-545 *)
  Definition Tx (version : bytes) (flag : option bytes) (tx_ins : list txin)
    (tx_outs : list txout) (tx_witnesses : option (list witness))
    (lock_time : bytes) : res tx :=
    _ <- validate_bytes (Some version) (Some 4) ;;
    _ <- validate_bytes (Some lock_time) (Some 4) ;;
    _ <- match flag with
         | Some f => guard (negb (leqb f (SEGWIT_TX_FLAG net))) ValueError
         | None => Ok tt
         end ;;
    _ <- match tx_witnesses with
         | Some ws =>
             if negb (zlen ws =? 0)
             then raise_if (match flag with None => true | Some _ => false end)
                    as ValueError ;;
                  guard (negb (zlen ws =? zlen tx_ins)) ValueError
             else Ok tt
         | None => Ok tt
         end ;;
    raise_if Z.min (zlen tx_ins) (zlen tx_outs) =? 0 as ValueError ;;
    n <- VarInt (zlen tx_ins) None ;;
    m <- VarInt (zlen tx_outs) None ;;
    let b := version
             ++ (match flag with Some f => f | None => [] end)
             ++ vi_bytes n ++ concat (map ti_bytes tx_ins)
             ++ vi_bytes m ++ concat (map to_bytes_ tx_outs)
             ++ (match tx_witnesses with
                 | Some ws => concat (map wit_bytes ws) | None => [] end)
             ++ lock_time in
    match flag with
    | Some _ =>
        nw <- no_witness_bytes version tx_ins tx_outs lock_time ;;
        let tx_id_le := hash256 H net nw in
        let wtx_id_le := hash256 H net b in
        Ok {| tx_version := version; tx_flag := flag; tx_tx_ins := tx_ins;
              tx_tx_outs := tx_outs; tx_tx_witnesses := tx_witnesses;
              tx_lock_time := lock_time;
              tx_tx_id_le := tx_id_le; tx_wtx_id_le := Some wtx_id_le;
              tx_tx_id := change_endianness tx_id_le;
              tx_wtx_id := Some (change_endianness wtx_id_le);
              tx_bytes := b |}
    | None =>
        let tx_id_le := hash256 H net b in
        Ok {| tx_version := version; tx_flag := flag; tx_tx_ins := tx_ins;
              tx_tx_outs := tx_outs; tx_tx_witnesses := tx_witnesses;
              tx_lock_time := lock_time;
              tx_tx_id_le := tx_id_le; tx_wtx_id_le := None;
              tx_tx_id := change_endianness tx_id_le;
              tx_wtx_id := None;
              tx_bytes := b |}
    end.

  (* tx.py:610-624 *)
  Definition no_witness (self : tx) : res bytes :=
    no_witness_bytes (tx_version self) (tx_tx_ins self) (tx_tx_outs self)
                     (tx_lock_time self).

  (* reading the attribute wtx_id_le (tx.py:454, 535) *)
  Definition get_wtx_id_le (self : tx) : res bytes :=
    match tx_wtx_id_le self with Some b => Ok b | None => Err AttributeError end.

  (* tx.py:552-608.  fuel for the loops is len(byte_string) + 1 *)
  Definition Tx_from_bytes (byte_string : bytes) : res tx :=
    let version := slice byte_string 0 4 in
    let '(tx_ins_num_loc, flag) :=
      if leqb (slice byte_string 4 6) (SEGWIT_TX_FLAG net)
      then (6, Some (SEGWIT_TX_FLAG net)) else (4, None) in
    tx_ins_num <- VarInt_from_bytes net (slice_from byte_string tx_ins_num_loc) ;;
    let current := tx_ins_num_loc + zlen (vi_bytes tx_ins_num) in
    let fuel := S (length byte_string) in
    ' (tx_ins, current) <- read_many TxIn_from_bytes (fun i => zlen (ti_bytes i)) fuel
                             byte_string (vi_number tx_ins_num) current ;;
    tx_outs_num <- VarInt_from_bytes net (slice_from byte_string current) ;;
    let current := current + zlen (vi_bytes tx_outs_num) in
    ' (tx_outs, current) <- read_many TxOut_from_bytes (fun o => zlen (to_bytes_ o)) fuel
                              byte_string (vi_number tx_outs_num) current ;;
    ' (tx_witnesses, current) <-
      (if (match flag with Some f => negb (leqb f []) | None => false end)
          && (4 <? zlen (slice_from byte_string current))
       then read_many InputWitness_from_bytes (fun w => zlen (wit_bytes w)) fuel
              byte_string (vi_number tx_ins_num) current
       else Ok ([], current)) ;;
    let lock_time := slice byte_string current (current + 4) in
    Tx version flag tx_ins tx_outs (Some tx_witnesses) lock_time.

  (* tx.py:547-550 *)
  Definition Tx_from_hex (hex_string : str) : res tx :=
    b <- fromhex hex_string ;; Tx_from_bytes b.

  (* tx.py:626-628 *)
  Definition is_witness (self : tx) : bool :=
    match tx_flag self, tx_tx_witnesses self with
    | None, None => false
    | _, _ => true
    end.

  (* tx.py:630-642 *)
  Definition sumZ (l : list Z) : Z := fold_right Z.add 0 l.
  (* tx.py:630-642 *)
  Definition calculate_fee (self : tx) (input_values : list Z) : Z :=
    sumZ input_values - sumZ (map (fun o => le2i (to_value o) false) (tx_tx_outs self)).

  (* tx.py:644-646 *)
  Definition sighash_none (self : tx) : res bytes := Err NotImplementedError.

  (* x if x is not None else self.x, where self.x may be None; tx.py:648-665 *)
  Definition or_self_opt {A} (x self : option A) : option A :=
    match x with Some a => Some a | None => self end.

  (* tx.py:648-665 *)
  Definition Tx_copy (self : tx) (version flag : option bytes)
    (tx_ins : option (list txin)) (tx_outs : option (list txout))
    (tx_witnesses : option (list witness)) (lock_time : option bytes) : res tx :=
    Tx (or_self version (tx_version self))
       (or_self_opt flag (tx_flag self))
       (or_self tx_ins (tx_tx_ins self))
       (or_self tx_outs (tx_tx_outs self))
       (or_self_opt tx_witnesses (tx_tx_witnesses self))
       (or_self lock_time (tx_lock_time self)).

  (* tx.py:667-685 *)
  Definition sighash_prep (self : tx) (idx : Z) (script : bytes) : res tx :=
    copy_tx_ins <- mapM (fun i => TxIn_copy i None (Some []) (Some []) None)
                        (tx_tx_ins self) ;;
    to_strip <- VarInt_from_bytes net script ;;
    cur <- index copy_tx_ins idx ;;
    cur <- TxIn_copy cur None None
             (Some (slice_from script (zlen (vi_bytes to_strip)))) None ;;
    copy_tx_ins <- set_index copy_tx_ins idx cur ;;
    Tx_copy self None None (Some copy_tx_ins) None None None.

  (* tx.py:1016-1029 *)
  Definition sighash_final_hashing (copy_tx : tx) (sighash_type : Z) : res bytes :=
    t <- i2le_padded sighash_type 4 ;;
    Ok (hash256 H net (tx_bytes copy_tx ++ t)).

  (* tx.py:997-1014 *)
  Definition sighash_anyone_can_pay (idx : Z) (copy_tx : tx) (sighash_type : Z)
    : res bytes :=
    cur <- index (tx_tx_ins copy_tx) idx ;;
    copy_tx <- Tx_copy copy_tx None None (Some [cur]) None None None ;;
    sighash_final_hashing copy_tx (Z.lor sighash_type SIGHASH_ANYONECANPAY).

  (* tx.py:1031-1042 *)
  Definition hash_prevouts (self : tx) (anyone_can_pay : bool) : bytes :=
    if anyone_can_pay then zrepeat 0 32
    else hash256 H net (concat (map (fun i => op_bytes (ti_outpoint i)) (tx_tx_ins self))).

  (* tx.py:1044-1062 *)
  Definition hash_sequence (self : tx) (sighash_type : Z) (anyone_can_pay : bool) : bytes :=
    if anyone_can_pay || (sighash_type =? SIGHASH_SINGLE) then zrepeat 0 32
    else hash256 H net (concat (map ti_sequence (tx_tx_ins self))).

  (* tx.py:1064-1090 *)
  Definition hash_outputs (self : tx) (idx : Z) (sighash_type : Z) : res bytes :=
    if sighash_type =? SIGHASH_ALL
    then Ok (hash256 H net (concat (map to_bytes_ (tx_tx_outs self))))
    else if (sighash_type =? SIGHASH_SINGLE) && (idx <? zlen (tx_tx_outs self))
    then o <- index (tx_tx_outs self) idx ;; Ok (hash256 H net (to_bytes_ o))
    else Err NotImplementedError.

  (* tx.py:1092-1100; None << 8 is a TypeError *)
  Definition forkid_sighash_adjustment (sighash_type : Z) (anyone_can_pay : bool)
    : res bytes :=
    match FORKID net with
    | None => Err TypeError
    | Some id =>
        let forkid := Z.shiftl id 8 in
        let sighash := Z.lor (Z.lor forkid sighash_type) SIGHASH_FORKID in
        let sighash := if anyone_can_pay then Z.lor sighash SIGHASH_ANYONECANPAY
                       else sighash in
        i2le_padded sighash 4
    end.

  (* tx.py:1102-1109 *)
  Definition segwit_sighash_adjustment (sighash_type : Z) (anyone_can_pay : bool)
    : res bytes :=
    i2le_padded (if anyone_can_pay then Z.lor sighash_type SIGHASH_ANYONECANPAY
                 else sighash_type) 4.

  (* data += x, where x may be None: shared.py:45-48 *)
  Definition add_opt (x : option bytes) : res bytes :=
    match x with Some b => Ok b | None => Err TypeError end.

  (* tx.py:945-995; prevout_value is None when the caller did not give it *)
  Definition segwit_sighash (self : tx) (idx : Z) (sighash_type : Z)
    (prevout_value : option bytes) (script : bytes) (anyone_can_pay : bool) : res bytes :=
    let hp := hash_prevouts self anyone_can_pay in
    let hs := hash_sequence self sighash_type anyone_can_pay in
    cur <- index (tx_tx_ins self) idx ;;
    pv <- add_opt prevout_value ;;
    ho <- hash_outputs self idx sighash_type ;;
    ty <- segwit_sighash_adjustment sighash_type anyone_can_pay ;;
    Ok (hash256 H net (tx_version self ++ hp ++ hs ++ op_bytes (ti_outpoint cur)
                       ++ script ++ pv ++ ti_sequence cur ++ ho
                       ++ tx_lock_time self ++ ty)).

  (* tx.py:1111-1157 *)
  Definition sighash_forkid (self : tx) (idx : Z) (script : bytes)
    (prevout_value : option bytes) (sighash_type : Z) (anyone_can_pay : bool) : res bytes :=
    _ <- validate_bytes prevout_value (Some 8) ;;
    let hp := hash_prevouts self anyone_can_pay in
    let hs := hash_sequence self sighash_type anyone_can_pay in
    cur <- index (tx_tx_ins self) idx ;;
    pv <- add_opt prevout_value ;;
    ho <- hash_outputs self idx sighash_type ;;
    ty <- forkid_sighash_adjustment sighash_type anyone_can_pay ;;
    Ok (hash256 H net (tx_version self ++ hp ++ hs ++ op_bytes (ti_outpoint cur)
                       ++ script ++ pv ++ ti_sequence cur ++ ho
                       ++ tx_lock_time self ++ ty)).

  (* tx.py:715-794 *)
  Definition sighash_all (self : tx) (idx : Z) (script : bytes)
    (prevout_value : option bytes) (anyone_can_pay : bool) : res bytes :=
    match FORKID net with
    | Some _ => sighash_forkid self idx script prevout_value SIGHASH_ALL anyone_can_pay
    | None =>
        if is_witness self
        then segwit_sighash self idx SIGHASH_ALL prevout_value script anyone_can_pay
        else
          copy_tx <- sighash_prep self idx script ;;
          if anyone_can_pay
          then sighash_anyone_can_pay idx copy_tx SIGHASH_ALL
          else sighash_final_hashing copy_tx SIGHASH_ALL
    end.

  (* tx.py:824-943 *)
  Definition sighash_single (self : tx) (idx : Z) (script : bytes)
    (prevout_value : option bytes) (anyone_can_pay : bool) : res bytes :=
    raise_if zlen (tx_tx_outs self) <=? idx as NotImplementedError ;;
    match FORKID net with
    | Some _ => sighash_forkid self idx script prevout_value SIGHASH_SINGLE anyone_can_pay
    | None =>
        if is_witness self
        then segwit_sighash self idx SIGHASH_SINGLE prevout_value script anyone_can_pay
        else
          copy_tx <- sighash_prep self idx script ;;
          (* line 925 is overwritten by line 926 *)
          copy_tx_outs <- mapM (fun _ => TxOut (zrepeat 0xff 8) []) (tx_tx_ins copy_tx) ;;
          cur_out <- index (tx_tx_outs copy_tx) idx ;;
          copy_tx_outs <- set_index copy_tx_outs idx cur_out ;;
          copy_tx_ins <- mapM (fun i => TxIn_copy i None None None (Some (zrepeat 0 4)))
                              (tx_tx_ins copy_tx) ;;
          cur_in <- index (tx_tx_ins copy_tx) idx ;;
          copy_tx_ins <- set_index copy_tx_ins idx cur_in ;;
          copy_tx <- Tx_copy copy_tx None None (Some copy_tx_ins) (Some copy_tx_outs)
                       None None ;;
          if anyone_can_pay
          then sighash_anyone_can_pay idx copy_tx SIGHASH_SINGLE
          else sighash_final_hashing copy_tx SIGHASH_SINGLE
    end.
End Tx.
