(* The constructors of riemann/tx on arguments of any type: the checks with
   isinstance and the exceptions of len(), iteration, + and int.from_bytes.  Here
   objects are values; for their identity see MHeap.v.  An object stands for what
   it is when the constructor is called. *)
From Coq Require Import String.
From Verif Require Import Py SHash MNet MUtils MShared MTx MDecred MZcash.
Open Scope list_scope.
Open Scope Z_scope.

(* The classes that derive from ByteData, and ByteData itself.  None of the others
   is a subclass of another, apart from DecredByteData and ZcashByteData, which
   have no objects of their own.
   shared.py:14, 162, tx.py:10-380, decred.py:18-201, zcash_shared.py:15, 79,
   sprout.py:10, overwinter.py:10, sapling.py:10-240 *)
Inductive cls :=
  | CByteData | CVarInt
  | COutpoint | CTxIn | CTxOut | CWitnessStackItem | CInputWitness | CTx
  | CDecredOutpoint | CDecredTxIn | CDecredTxOut | CDecredInputWitness | CDecredTx
  | CSproutZkproof | CSproutJoinsplit | CSproutTx | COverwinterTx
  | CSaplingZkproof | CSaplingShieldedSpend | CSaplingShieldedOutput | CSaplingJoinsplit | CSaplingTx.

(* type(a) is type(b), for isinstance (tx.py:343) *)
Definition cls_eq_dec (a b : cls) : {a = b} + {a <> b}.
Proof. decide equality. Defined.

(* Python values: None, int, str, bytes, bytearray, list, tuple, and objects with
   their class, their _bytes and their other attributes;
   the arguments of the constructors, for example tx.py:30 *)
Inductive pv :=
  | PNone
  | PInt (n : Z)
  | PStr (s : str)
  | PBytes (b : bytes)
  | PArray (b : bytes)
  | PList (vs : list pv)
  | PTuple (vs : list pv)
  | PObj (c : cls) (b : bytes) (attrs : list (str * pv)).

(* object.__getattribute__, for example tx.py:138 *)
Fixpoint lookup (k : str) (attrs : list (str * pv)) : option pv :=
  match attrs with
  | [] => None
  | (k', v) :: r => if leqb k k' then Some v else lookup k r
  end.

(* v.k; for example tx.py:138 *)
Definition attribute (v : pv) (k : str) : res pv :=
  match v with
  | PObj _ _ attrs => match lookup k attrs with Some a => Ok a | None => Err AttributeError end
  | _ => Err AttributeError
  end.

(* bytes, bytearray or ByteData: what += of a ByteData takes (shared.py:35-49) *)
Definition byte_content (v : pv) : option bytes :=
  match v with
  | PBytes b | PArray b | PObj _ b _ => Some b
  | _ => None
  end.

(* += v to a ByteData; shared.py:35-48 *)
Definition extend (v : pv) : res bytes :=
  match byte_content v with Some b => Ok b | None => Err TypeError end.

(* shared.py:128-149; the content *)
Definition sized (v : pv) (n : Z) : res bytes :=
  match byte_content v with
  | None => Err ValueError
  | Some b => raise_if negb (zlen b =? n) as ValueError ;; Ok b
  end.
(* shared.py:128-149 with length=None *)
Definition unsized (v : pv) : res bytes :=
  match byte_content v with None => Err ValueError | Some b => Ok b end.

(* v + w for byte-like v and w: a ByteData has no __add__, and bytes cannot be
   added to one; tx.py:138, decred.py:176 *)
Definition plus (v w : pv) : res pv :=
  match v, w with
  | PBytes a, (PBytes b | PArray b) => Ok (PBytes (a ++ b))
  | PArray a, (PBytes b | PArray b) => Ok (PArray (a ++ b))
  | _, _ => Err TypeError
  end.

(* bytes += v; tx.py:615-622 *)
Definition append_to_bytes (v : pv) : res bytes :=
  match v with PBytes b | PArray b => Ok b | _ => Err TypeError end.

(* The items of len(v) and of a loop over v; for example tx.py:342, 496 *)
Definition sequence (v : pv) : res (list pv) :=
  match v with
  | PNone | PInt _ => Err TypeError
  | PStr s => Ok (map (fun c => PStr [c]) s)
  | PBytes b | PArray b | PObj _ b _ => Ok (map PInt b)
  | PList vs | PTuple vs => Ok vs
  end.

(* isinstance(v, c) for a class other than ByteData; for example tx.py:343, 497 *)
Definition instance (c : cls) (v : pv) : bool :=
  match v with PObj c' _ _ => if cls_eq_dec c c' then true else false | _ => false end.

(* for x in vs: if not isinstance(x, c): raise ValueError; tx.py:342-344, 496-506 *)
Definition all_instances (c : cls) (vs : list pv) : res unit := guard (negb (forallb (instance c) vs)) ValueError.

(* self += x for each x in vs, which are objects; shared.py:43-44 *)
Definition object_bytes (v : pv) : bytes := match v with PObj _ b _ => b | _ => [] end.
(* for example tx.py:350-351 *)
Definition extend_all (vs : list pv) : bytes := concat (map object_bytes vs).

(* utils.le2i (utils.py:56-66): int.from_bytes takes byte-like objects and iterables
   of integers *)
Definition as_byte (v : pv) : res Z :=
  match v with
  | PInt n => raise_if negb ((0 <=? n) && (n <? 256)) as ValueError ;; Ok n
  | _ => Err TypeError
  end.
(* utils.py:56-66 *)
Definition le_integer (v : pv) : res Z :=
  match v with
  | PNone | PInt _ | PStr _ => Err TypeError
  | PBytes b | PArray b | PObj _ b _ => Ok (le2i b false)
  | PList vs | PTuple vs => b <- mapM as_byte vs ;; Ok (le2i b false)
  end.

(* v is None; v == b for a bytes object b; for example tx.py:478 *)
Definition none (v : pv) : bool := match v with PNone => true | _ => false end.
(* shared.py:51-70; sprout.py:73 *)
Definition same_bytes (v : pv) (b : bytes) : bool :=
  match byte_content v with Some a => leqb a b | None => false end.

(** * tx.py *)

(* tx.py:30-42 *)
Definition call_Outpoint (tx_id index : pv) : res pv :=
  t <- sized tx_id 32 ;;
  i <- sized index 4 ;;
  Ok (PObj COutpoint (t ++ i) [(lit "tx_id", tx_id); (lit "index", index)]).

(* tx.py:112-141 *)
Definition call_TxIn (outpoint stack_script redeem_script sequence : pv) : res pv :=
  o <- sized outpoint 36 ;;
  s <- unsized stack_script ;;
  r <- unsized redeem_script ;;
  q <- sized sequence 4 ;;
  raise_if 1650 <? zlen s + zlen r as ValueError ;;
  n <- VarInt (zlen s + zlen r) None ;;
  script_sig <- plus stack_script redeem_script ;;
  Ok (PObj CTxIn (o ++ vi_bytes n ++ s ++ r ++ q)
        [(lit "outpoint", outpoint); (lit "stack_script", stack_script);
         (lit "redeem_script", redeem_script); (lit "script_sig", script_sig); (lit "sequence", sequence)]).

(* tx.py:245-258 *)
Definition call_TxOut (value output_script : pv) : res pv :=
  v <- sized value 8 ;;
  s <- unsized output_script ;;
  n <- VarInt (zlen s) None ;;
  Ok (PObj CTxOut (v ++ vi_bytes n ++ s) [(lit "value", value); (lit "output_script", output_script)]).

(* tx.py:300-310 *)
Definition call_WitnessStackItem (item : pv) : res pv :=
  i <- unsized item ;;
  n <- VarInt (zlen i) None ;;
  Ok (PObj CWitnessStackItem (vi_bytes n ++ i) [(lit "item", item)]).

(* tx.py:337-355 *)
Definition call_InputWitness (stack : pv) : res pv :=
  vs <- sequence stack ;;
  _ <- all_instances CWitnessStackItem vs ;;
  n <- VarInt (zlen vs) None ;;
  Ok (PObj CInputWitness (vi_bytes n ++ extend_all vs) [(lit "stack", PTuple vs)]).

(* tx.py:459-545 with no_witness (610-624).  flag.hex() in the message of the
   exception needs a byte-like flag. *)
Definition call_Tx (H : hashes) (net : network) (version flag tx_ins tx_outs tx_witnesses lock_time : pv)
  : res pv :=
  v <- sized version 4 ;;
  l <- sized lock_time 4 ;;
  _ <- (if none flag || same_bytes flag (SEGWIT_TX_FLAG net) then Ok tt
        else match byte_content flag with Some _ => Err ValueError | None => Err AttributeError end) ;;
  wits <- (if none tx_witnesses then Ok [] else sequence tx_witnesses) ;;
  _ <- (if zlen wits =? 0 then Ok tt
        else raise_if none flag as ValueError ;;
             ins <- sequence tx_ins ;;
             raise_if negb (zlen wits =? zlen ins) as ValueError ;;
             all_instances CInputWitness wits) ;;
  ins <- sequence tx_ins ;;
  outs <- sequence tx_outs ;;
  raise_if Z.min (zlen ins) (zlen outs) =? 0 as ValueError ;;
  _ <- all_instances CTxIn ins ;;
  _ <- all_instances CTxOut outs ;;
  f <- (if none flag then Ok [] else extend flag) ;;
  n <- VarInt (zlen ins) None ;;
  m <- VarInt (zlen outs) None ;;
  let core := vi_bytes n ++ extend_all ins ++ vi_bytes m ++ extend_all outs in
  let b := v ++ f ++ core ++ extend_all wits ++ l in
  let fields := [(lit "version", version); (lit "flag", flag); (lit "tx_ins", PTuple ins);
                 (lit "tx_outs", PTuple outs);
                 (lit "tx_witnesses", if none tx_witnesses then PNone else PTuple wits);
                 (lit "lock_time", lock_time)] in
  if none flag
  then let id := hash256 H net b in
       Ok (PObj CTx b (fields ++ [(lit "tx_id_le", PBytes id); (lit "tx_id", PBytes (change_endianness id));
                                  (lit "wtx_id", PNone); (lit "wtx_le", PNone)]))
  else v' <- append_to_bytes version ;;
       l' <- append_to_bytes lock_time ;;
       let id := hash256 H net (v' ++ core ++ l') in
       let wid := hash256 H net b in
       Ok (PObj CTx b (fields ++ [(lit "tx_id_le", PBytes id); (lit "wtx_id_le", PBytes wid);
                                  (lit "tx_id", PBytes (change_endianness id));
                                  (lit "wtx_id", PBytes (change_endianness wid))])).

(** * decred.py *)

Section Decred.
  Context (H : hashes) (net : network).

  (* decred.py:24-39 *)
  Definition call_DecredOutpoint (tx_id index tree : pv) : res pv :=
    _ <- decred_only net ;;
    t <- sized tx_id 32 ;;
    i <- sized index 4 ;;
    e <- sized tree 1 ;;
    Ok (PObj CDecredOutpoint (t ++ i ++ e) [(lit "tx_id", tx_id); (lit "index", index); (lit "tree", tree)]).

  (* decred.py:63-75 *)
  Definition call_DecredTxIn (outpoint sequence : pv) : res pv :=
    _ <- decred_only net ;;
    o <- sized outpoint 37 ;;
    q <- sized sequence 4 ;;
    Ok (PObj CDecredTxIn (o ++ q) [(lit "outpoint", outpoint); (lit "sequence", sequence)]).

  (* decred.py:97-114 *)
  Definition call_DecredTxOut (value version output_script : pv) : res pv :=
    _ <- decred_only net ;;
    v <- sized value 8 ;;
    r <- sized version 2 ;;
    s <- unsized output_script ;;
    n <- VarInt (zlen s) None ;;
    Ok (PObj CDecredTxOut (v ++ r ++ vi_bytes n ++ s)
          [(lit "value", value); (lit "version", version); (lit "output_script_len", PInt (zlen s));
           (lit "output_script", output_script)]).

  (* decred.py:149-178 *)
  Definition call_DecredInputWitness (value height index stack_script redeem_script : pv) : res pv :=
    _ <- decred_only net ;;
    v <- sized value 8 ;;
    g <- sized height 4 ;;
    i <- sized index 4 ;;
    s <- unsized stack_script ;;
    r <- unsized redeem_script ;;
    n <- VarInt (zlen s + zlen r) None ;;
    script_sig <- plus stack_script redeem_script ;;
    Ok (PObj CDecredInputWitness (v ++ g ++ i ++ vi_bytes n ++ s ++ r)
          [(lit "value", value); (lit "height", height); (lit "index", index);
           (lit "script_len", PInt (zlen s + zlen r)); (lit "stack_script", stack_script);
           (lit "redeem_script", redeem_script); (lit "script_sig", script_sig)]).

  (* decred.py:203-274 with prefix (292-304) *)
  Definition call_DecredTx (version tx_ins tx_outs lock_time expiry tx_witnesses : pv) : res pv :=
    _ <- decred_only net ;;
    v <- sized version 4 ;;
    l <- sized lock_time 4 ;;
    e <- sized expiry 4 ;;
    ins <- sequence tx_ins ;;
    outs <- sequence tx_outs ;;
    raise_if Z.min (zlen ins) (zlen outs) =? 0 as ValueError ;;
    _ <- all_instances CDecredTxIn ins ;;
    _ <- all_instances CDecredTxOut outs ;;
    wits <- sequence tx_witnesses ;;
    _ <- all_instances CDecredInputWitness wits ;;
    n <- VarInt (zlen ins) None ;;
    m <- VarInt (zlen outs) None ;;
    k <- VarInt (zlen wits) None ;;
    let core := vi_bytes n ++ extend_all ins ++ vi_bytes m ++ extend_all outs ++ l ++ e in
    let b := v ++ core ++ vi_bytes k ++ extend_all wits in
    raise_if 100000 <? zlen b as ValueError ;;
    let id := blake256 H (slice_to v 2 ++ [1; 0] ++ core) in
    Ok (PObj CDecredTx b
          [(lit "version", version); (lit "tx_ins", tx_ins); (lit "tx_outs", tx_outs);
           (lit "lock_time", lock_time); (lit "expiry", expiry); (lit "tx_witnesses", tx_witnesses);
           (lit "tx_id_le", PBytes id); (lit "tx_id", PBytes (change_endianness id))]).
End Decred.

(** * zcash_shared.py, sprout.py, overwinter.py, sapling.py *)

Section Zcash.
  Context (H : hashes) (net : network).

  (* zcash_shared.py:26-64 *)
  Definition call_SproutZkproof (pi_sub_a pi_prime_sub_a pi_sub_b pi_prime_sub_b pi_sub_c
    pi_prime_sub_c pi_sub_k pi_sub_h : pv) : res pv :=
    _ <- zcash_only net ;;
    a <- sized pi_sub_a 33 ;;
    a' <- sized pi_prime_sub_a 33 ;;
    b <- sized pi_sub_b 65 ;;
    b' <- sized pi_prime_sub_b 33 ;;
    c <- sized pi_sub_c 33 ;;
    c' <- sized pi_prime_sub_c 33 ;;
    k <- sized pi_sub_k 33 ;;
    h <- sized pi_sub_h 33 ;;
    Ok (PObj CSproutZkproof (a ++ a' ++ b ++ b' ++ c ++ c' ++ k ++ h)
          [(lit "pi_sub_a", pi_sub_a); (lit "pi_prime_sub_a", pi_prime_sub_a); (lit "pi_sub_b", pi_sub_b);
           (lit "pi_prime_sub_b", pi_prime_sub_b); (lit "pi_sub_c", pi_sub_c);
           (lit "pi_prime_sub_c", pi_prime_sub_c); (lit "pi_sub_k", pi_sub_k); (lit "pi_sub_h", pi_sub_h)]).

  (* sapling.py:16-30 *)
  Definition call_SaplingZkproof (pi_sub_a pi_sub_b pi_sub_c : pv) : res pv :=
    _ <- zcash_only net ;;
    a <- sized pi_sub_a 48 ;;
    b <- sized pi_sub_b 96 ;;
    c <- sized pi_sub_c 48 ;;
    Ok (PObj CSaplingZkproof (a ++ b ++ c)
          [(lit "pi_sub_a", pi_sub_a); (lit "pi_sub_b", pi_sub_b); (lit "pi_sub_c", pi_sub_c)]).

  (* zcash_shared.py:92-145 and sapling.py:169-223, the same but for the classes *)
  Definition call_joinsplit (self proof : cls) (vpub_old vpub_new anchor nullifiers commitments
    ephemeral_key random_seed vmacs zkproof encoded_notes : pv) : res pv :=
    _ <- zcash_only net ;;
    raise_if negb (instance proof zkproof) as ValueError ;;
    x <- le_integer vpub_old ;;
    _ <- (if x =? 0 then Ok tt
          else y <- le_integer vpub_new ;; guard (negb (y =? 0)) ValueError) ;;
    o <- sized vpub_old 8 ;;
    w <- sized vpub_new 8 ;;
    a <- sized anchor 32 ;;
    n <- sized nullifiers 64 ;;
    c <- sized commitments 64 ;;
    e <- sized ephemeral_key 32 ;;
    r <- sized random_seed 32 ;;
    m <- sized vmacs 64 ;;
    t <- sized encoded_notes 1202 ;;
    Ok (PObj self (o ++ w ++ a ++ n ++ c ++ e ++ r ++ m ++ object_bytes zkproof ++ t)
          [(lit "vpub_old", vpub_old); (lit "vpub_new", vpub_new); (lit "anchor", anchor);
           (lit "nullifiers", nullifiers); (lit "commitments", commitments);
           (lit "ephemeral_key", ephemeral_key); (lit "random_seed", random_seed); (lit "vmacs", vmacs);
           (lit "zkproof", zkproof); (lit "encoded_notes", encoded_notes)]).
  (* zcash_shared.py:92-145 *)
  Definition call_SproutJoinsplit := call_joinsplit CSproutJoinsplit CSproutZkproof.
  (* sapling.py:169-223 *)
  Definition call_SaplingJoinsplit := call_joinsplit CSaplingJoinsplit CSaplingZkproof.

  (* sapling.py:50-84 *)
  Definition call_SaplingShieldedSpend (cv anchor nullifier rk zkproof spend_auth_sig : pv) : res pv :=
    _ <- zcash_only net ;;
    c <- sized cv 32 ;;
    a <- sized anchor 32 ;;
    n <- sized nullifier 32 ;;
    r <- sized rk 32 ;;
    s <- sized spend_auth_sig 64 ;;
    raise_if negb (instance CSaplingZkproof zkproof) as ValueError ;;
    Ok (PObj CSaplingShieldedSpend (c ++ a ++ n ++ r ++ object_bytes zkproof ++ s)
          [(lit "cv", cv); (lit "anchor", anchor); (lit "nullifier", nullifier); (lit "rk", rk);
           (lit "zkproof", zkproof); (lit "spend_auth_sig", spend_auth_sig)]).

  (* sapling.py:107-141 *)
  Definition call_SaplingShieldedOutput (cv cmu ephemeral_key enc_ciphertext out_ciphertext zkproof : pv)
    : res pv :=
    _ <- zcash_only net ;;
    c <- sized cv 32 ;;
    m <- sized cmu 32 ;;
    e <- sized ephemeral_key 32 ;;
    x <- sized enc_ciphertext 580 ;;
    y <- sized out_ciphertext 80 ;;
    raise_if negb (instance CSaplingZkproof zkproof) as ValueError ;;
    Ok (PObj CSaplingShieldedOutput (c ++ m ++ e ++ x ++ y ++ object_bytes zkproof)
          [(lit "cv", cv); (lit "cmu", cmu); (lit "ephemeral_key", ephemeral_key);
           (lit "enc_ciphertext", enc_ciphertext); (lit "out_ciphertext", out_ciphertext);
           (lit "zkproof", zkproof)]).

  (* data += v.k; sprout.py:132-154 *)
  Definition extend_attribute (v : pv) (k : str) : res bytes := a <- attribute v k ;; extend a.
  (* sprout.py:132-154 *)
  Definition extend_attributes (v : pv) (ks : list str) : res bytes :=
    l <- mapM (extend_attribute v) ks ;; Ok (concat l).

  (* sprout.py:126-140, overwinter.py:169-183, sapling.py:473-487 for the
     joinsplit js *)
  Definition class_hsig (pubkey js : pv) : res bytes :=
    b <- extend_attributes js [lit "random_seed"; lit "nullifiers"] ;;
    p <- extend pubkey ;;
    Ok (blake2b H (b ++ p) 32 (lit "ZcashComputehSig")).

  (* sprout.py:142-154, overwinter.py:185-197, sapling.py:489-501 for the
     joinsplit js and its hsig *)
  Definition class_primary_input (js : pv) (hsig : bytes) : res bytes :=
    b <- extend_attributes js [lit "anchor"; lit "nullifiers"; lit "commitments"; lit "vpub_old"; lit "vpub_new"] ;;
    m <- extend_attribute js (lit "vmacs") ;;
    Ok (b ++ hsig ++ m).

  (* the attributes hsigs and primary_inputs;
     sprout.py:105-109, overwinter.py:109-113, sapling.py:396-400 *)
  Definition class_hsigs (pubkey : pv) (js : list pv) : res (list bytes) := mapM (class_hsig pubkey) js.
  (* sprout.py:105-109, overwinter.py:109-113, sapling.py:396-400 *)
  Definition class_primary_inputs (js : list pv) (hsigs : list bytes) : res (list bytes) :=
    mapM (fun p => class_primary_input (fst p) (snd p)) (combine js hsigs).

  (* sprout.py:24-124 *)
  Definition call_SproutTx (version tx_ins tx_outs lock_time tx_joinsplits joinsplit_pubkey
    joinsplit_sig : pv) : res pv :=
    _ <- zcash_only net ;;
    raise_if negb (net_has net (lit "sprout")) as ValueError ;;
    v <- sized version 4 ;;
    l <- sized lock_time 4 ;;
    ins <- sequence tx_ins ;;
    _ <- all_instances CTxIn ins ;;
    outs <- sequence tx_outs ;;
    _ <- all_instances CTxOut outs ;;
    let number := le2i v false in
    _ <- (if number =? 1
          then _ <- (if none tx_joinsplits then Ok tt
                     else js <- sequence tx_joinsplits ;; guard (negb (zlen js =? 0)) ValueError) ;;
               guard (zlen ins =? 0) ValueError
          else Ok tt) ;;
    _ <- (if number =? 2
          then js <- sequence tx_joinsplits ;;
               raise_if 5 <? zlen js as ValueError ;;
               _ <- all_instances CSproutJoinsplit js ;;
               _ <- sized joinsplit_pubkey 32 ;;
               if none joinsplit_sig || same_bytes joinsplit_sig [] then Ok tt
               else _ <- sized joinsplit_sig 64 ;; Ok tt
          else Ok tt) ;;
    raise_if negb (zmem number [1; 2]) as ValueError ;;
    n <- VarInt (zlen ins) None ;;
    m <- VarInt (zlen outs) None ;;
    two <- i2le_padded 2 4 ;;
    let v2 := same_bytes version two in
    tail <- (if v2
             then js <- sequence tx_joinsplits ;;
                  k <- VarInt (zlen js) None ;;
                  p <- extend joinsplit_pubkey ;;
                  s <- extend joinsplit_sig ;;
                  Ok (vi_bytes k ++ extend_all js ++ p ++ s)
             else Ok []) ;;
    let b := v ++ vi_bytes n ++ extend_all ins ++ vi_bytes m ++ extend_all outs ++ l ++ tail in
    js <- sequence tx_joinsplits ;;
    hsigs <- (if v2 then class_hsigs joinsplit_pubkey js else Ok []) ;;
    primary_inputs <- (if v2 then class_primary_inputs js hsigs else Ok []) ;;
    let id := hash256 H net b in
    raise_if 100000 <? zlen b as ValueError ;;
    Ok (PObj CSproutTx b
          [(lit "version", version); (lit "tx_ins", PTuple ins); (lit "tx_outs", PTuple outs);
           (lit "tx_joinsplits", PTuple js); (lit "lock_time", lock_time);
           (lit "joinsplit_pubkey", if v2 then joinsplit_pubkey else PNone);
           (lit "joinsplit_sig", if v2 then joinsplit_sig else PNone);
           (lit "hsigs", PTuple (map PBytes hsigs)); (lit "primary_inputs", PTuple (map PBytes primary_inputs));
           (lit "tx_id_le", PBytes id); (lit "tx_id", PBytes (rev id))]).

  (* overwinter.py:26-129 *)
  Definition call_OverwinterTx (tx_ins tx_outs lock_time expiry_height tx_joinsplits joinsplit_pubkey
    joinsplit_sig : pv) : res pv :=
    _ <- zcash_only net ;;
    raise_if negb (net_has net (lit "overwinter")) as ValueError ;;
    l <- sized lock_time 4 ;;
    e <- sized expiry_height 4 ;;
    raise_if 499999999 <? le2i e false as ValueError ;;
    ins <- sequence tx_ins ;;
    _ <- all_instances CTxIn ins ;;
    outs <- sequence tx_outs ;;
    _ <- all_instances CTxOut outs ;;
    js <- sequence tx_joinsplits ;;
    raise_if 5 <? zlen js as ValueError ;;
    _ <- all_instances CSproutJoinsplit js ;;
    let some_js := negb (zlen js =? 0) in
    tail <- (if some_js
             then p <- sized joinsplit_pubkey 32 ;; s <- sized joinsplit_sig 64 ;; Ok (extend_all js ++ p ++ s)
             else Ok []) ;;
    raise_if (zlen js =? 0) && (zlen ins =? 0) as ValueError ;;
    n <- VarInt (zlen ins) None ;;
    m <- VarInt (zlen outs) None ;;
    k <- VarInt (zlen js) None ;;
    let b := [3; 0; 0; 0x80] ++ [0x70; 0x82; 0xc4; 0x03] ++ vi_bytes n ++ extend_all ins
             ++ vi_bytes m ++ extend_all outs ++ l ++ e ++ vi_bytes k ++ tail in
    hsigs <- (if some_js then class_hsigs joinsplit_pubkey js else Ok []) ;;
    primary_inputs <- (if some_js then class_primary_inputs js hsigs else Ok []) ;;
    let id := hash256 H net b in
    raise_if 100000 <? zlen b as ValueError ;;
    Ok (PObj COverwinterTx b
          [(lit "header", PBytes [3; 0; 0; 0x80]); (lit "group_id", PBytes [0x70; 0x82; 0xc4; 0x03]);
           (lit "version", PBytes [3; 0]); (lit "tx_ins", PTuple ins); (lit "tx_outs", PTuple outs);
           (lit "lock_time", lock_time); (lit "expiry_height", expiry_height);
           (lit "tx_joinsplits", PTuple js);
           (lit "joinsplit_pubkey", if some_js then joinsplit_pubkey else PNone);
           (lit "joinsplit_sig", if some_js then joinsplit_sig else PNone);
           (lit "hsigs", PTuple (map PBytes hsigs)); (lit "primary_inputs", PTuple (map PBytes primary_inputs));
           (lit "tx_id_le", PBytes id); (lit "tx_id", PBytes (rev id))]).

  (* sapling.py:258-415 *)
  Definition call_SaplingTx (tx_ins tx_outs lock_time expiry_height value_balance tx_shielded_spends
    tx_shielded_outputs tx_joinsplits joinsplit_pubkey joinsplit_sig binding_sig : pv) : res pv :=
    _ <- zcash_only net ;;
    raise_if negb (net_has net (lit "sapling")) as ValueError ;;
    l <- sized lock_time 4 ;;
    e <- sized expiry_height 4 ;;
    w <- sized value_balance 8 ;;
    raise_if 499999999 <? le2i e false as ValueError ;;
    spends <- sequence tx_shielded_spends ;;
    outputs <- sequence tx_shielded_outputs ;;
    raise_if (zlen spends + zlen outputs =? 0) && negb (same_bytes value_balance (zrepeat 0 8)) as ValueError ;;
    _ <- (if none binding_sig then Ok tt else _ <- sized binding_sig 64 ;; Ok tt) ;;
    ins <- sequence tx_ins ;;
    _ <- all_instances CTxIn ins ;;
    outs <- sequence tx_outs ;;
    _ <- all_instances CTxOut outs ;;
    js <- sequence tx_joinsplits ;;
    raise_if 5 <? zlen js as ValueError ;;
    _ <- all_instances CSaplingShieldedSpend spends ;;
    _ <- all_instances CSaplingShieldedOutput outputs ;;
    _ <- all_instances CSaplingJoinsplit js ;;
    let some_js := negb (zlen js =? 0) in
    tail <- (if some_js
             then p <- sized joinsplit_pubkey 32 ;; s <- sized joinsplit_sig 64 ;; Ok (extend_all js ++ p ++ s)
             else Ok []) ;;
    raise_if zlen js + zlen ins + zlen spends =? 0 as ValueError ;;
    n <- VarInt (zlen ins) None ;;
    m <- VarInt (zlen outs) None ;;
    p <- VarInt (zlen spends) None ;;
    q <- VarInt (zlen outputs) None ;;
    k <- VarInt (zlen js) None ;;
    let shielded := negb (zlen outputs + zlen spends =? 0) in
    bs <- (if shielded then extend binding_sig else Ok []) ;;
    let b := [4; 0; 0; 0x80] ++ [0x85; 0x20; 0x2f; 0x89] ++ vi_bytes n ++ extend_all ins
             ++ vi_bytes m ++ extend_all outs ++ l ++ e ++ w ++ vi_bytes p ++ extend_all spends
             ++ vi_bytes q ++ extend_all outputs ++ vi_bytes k ++ tail ++ bs in
    hsigs <- (if some_js then class_hsigs joinsplit_pubkey js else Ok []) ;;
    primary_inputs <- (if some_js then class_primary_inputs js hsigs else Ok []) ;;
    let id := hash256 H net b in
    raise_if 100000 <? zlen b as ValueError ;;
    Ok (PObj CSaplingTx b
          [(lit "binding_sig", if shielded then binding_sig else PNone);
           (lit "header", PBytes [4; 0; 0; 0x80]); (lit "group_id", PBytes [0x85; 0x20; 0x2f; 0x89]);
           (lit "tx_ins", PTuple ins); (lit "tx_outs", PTuple outs); (lit "lock_time", lock_time);
           (lit "expiry_height", expiry_height); (lit "value_balance", value_balance);
           (lit "tx_shielded_spends", PTuple spends); (lit "tx_shielded_outputs", PTuple outputs);
           (lit "tx_joinsplits", PTuple js);
           (lit "joinsplit_pubkey", if some_js then joinsplit_pubkey else PNone);
           (lit "joinsplit_sig", if some_js then joinsplit_sig else PNone);
           (lit "hsigs", PTuple (map PBytes hsigs)); (lit "primary_inputs", PTuple (map PBytes primary_inputs));
           (lit "tx_id_le", PBytes id); (lit "tx_id", PBytes (rev id))]).
End Zcash.
