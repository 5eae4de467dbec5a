(* The Bitcoin transaction classes in the heap of MHeap.v (riemann/tx/tx.py).
   The checks that use isinstance are in MClass.v.  The VarInt objects that a
   constructor adds to itself are temporary: only their bytes appear. *)
From Coq Require Import String.
From Verif Require Import Py SHash MNet MUtils MShared MTx MHeap.
Open Scope list_scope.
Open Scope Z_scope.

(* shared.py:128-149 with length None: v has to be byte-like *)
Definition check_bytes (h : heap) (v : val) : res bytes :=
  match content h v with None => Err ValueError | Some b => Ok b end.

(* v + w on bytes and bytearrays: the type is that of v.  A ByteData has no
   __add__.  tx.py:138 *)
Definition add (h : heap) (v w : val) : res (heap * val) :=
  match buffer h v, buffer h w with
  | Some a, Some b =>
      match v with
      | VB _ => Ok (h, VB (a ++ b))
      | _ => Ok (h ++ [CArray (a ++ b)], VRef (length h))
      end
  | _, _ => Err TypeError
  end.

(* tx.py:111-141 *)
Definition new_txin (h : heap) (outpoint stack_script redeem_script sequence : val) : res (heap * nat) :=
  _ <- check_len h outpoint 36 ;;
  s <- check_bytes h stack_script ;;
  r <- check_bytes h redeem_script ;;
  _ <- check_len h sequence 4 ;;
  raise_if 1650 <? zlen s + zlen r as ValueError ;;
  n <- VarInt (zlen s + zlen r) None ;;
  ' (h, script_sig) <- add h stack_script redeem_script ;;
  construct h [outpoint; VB (vi_bytes n); stack_script; redeem_script; sequence]
    [(lit "outpoint", outpoint); (lit "stack_script", stack_script);
     (lit "redeem_script", redeem_script); (lit "script_sig", script_sig);
     (lit "sequence", sequence)].

(* tx.py:245-258 *)
Definition new_txout (h : heap) (value output_script : val) : res (heap * nat) :=
  _ <- check_len h value 8 ;;
  s <- check_bytes h output_script ;;
  n <- VarInt (zlen s) None ;;
  construct h [value; VB (vi_bytes n); output_script]
    [(lit "value", value); (lit "output_script", output_script)].

(* tx.py:300-310 *)
Definition new_item (h : heap) (item : val) : res (heap * nat) :=
  b <- check_bytes h item ;;
  n <- VarInt (zlen b) None ;;
  construct h [VB (vi_bytes n); item] [(lit "item", item)].

(* tx.py:337-355; stack is a list or a tuple *)
Definition new_witness (h : heap) (stack : val) : res (heap * nat) :=
  match items h stack with
  | None => Err TypeError
  | Some vs =>
      n <- VarInt (zlen vs) None ;;
      construct h (VB (vi_bytes n) :: vs) [(lit "stack", VTuple vs)]
  end.

(* The bytes of values one after the other, as += of each to an empty bytes
   object (tx.py:610-624), where objects are first turned into bytes *)
Fixpoint joined (h : heap) (vs : list val) : res bytes :=
  match vs with
  | [] => Ok []
  | v :: r => b <- match content h v with Some b => Ok b | None => Err TypeError end ;;
              c <- joined h r ;; Ok (b ++ c)
  end.

(* tx.py:459-545; tx_ins, tx_outs and tx_witnesses are lists or tuples, or None
   for tx_witnesses.  flag.hex() in the message of the exception needs a
   byte-like flag.  no_witness (610-624) adds version and lock_time to bytes, which
   a ByteData does not allow. *)
Definition new_tx (H : hashes) (net : network) (h : heap)
  (version flag tx_ins tx_outs tx_witnesses lock_time : val) : res (heap * nat) :=
  _ <- check_len h version 4 ;;
  _ <- check_len h lock_time 4 ;;
  has_flag <- match flag with
              | VNone => Ok false
              | _ => match content h flag with
                     | Some f => raise_if negb (leqb f (SEGWIT_TX_FLAG net)) as ValueError ;; Ok true
                     | None => Err AttributeError
                     end
              end ;;
  ' (has_wits, wits) <- match tx_witnesses with
                        | VNone => Ok (false, [])
                        | _ => match items h tx_witnesses with Some l => Ok (true, l) | None => Err TypeError end
                        end ;;
  match items h tx_ins, items h tx_outs with
  | Some ins, Some outs =>
      _ <- (if has_wits && negb (zlen wits =? 0)
            then raise_if negb has_flag as ValueError ;;
                 guard (negb (zlen wits =? zlen ins)) ValueError
            else Ok tt) ;;
      raise_if Z.min (zlen ins) (zlen outs) =? 0 as ValueError ;;
      n <- VarInt (zlen ins) None ;;
      m <- VarInt (zlen outs) None ;;
      let parts := [version] ++ (if has_flag then [flag] else []) ++ [VB (vi_bytes n)] ++ ins
                   ++ [VB (vi_bytes m)] ++ outs ++ wits ++ [lock_time] in
      b <- joined h parts ;;
      _ <- match buffer h version, buffer h lock_time with
           | Some _, Some _ => Ok tt
           | _, _ => guard has_flag TypeError
           end ;;
      nw <- joined h ([version; VB (vi_bytes n)] ++ ins ++ [VB (vi_bytes m)] ++ outs ++ [lock_time]) ;;
      let id := hash256 H net (if has_flag then nw else b) in
      let wid := hash256 H net b in
      construct h parts
        ([(lit "version", version); (lit "flag", flag); (lit "tx_ins", VTuple ins);
          (lit "tx_outs", VTuple outs);
          (lit "tx_witnesses", if has_wits then VTuple wits else VNone);
          (lit "lock_time", lock_time); (lit "tx_id_le", VB id)]
         ++ (if has_flag
             then [(lit "wtx_id_le", VB wid); (lit "tx_id", VB (change_endianness id));
                   (lit "wtx_id", VB (change_endianness wid))]
             else [(lit "tx_id", VB (change_endianness id)); (lit "wtx_id", VNone);
                   (lit "wtx_le", VNone)]))
  | _, _ => Err TypeError
  end.
