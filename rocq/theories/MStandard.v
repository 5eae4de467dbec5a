(* riemann/networks/standard.py *)
From Coq Require Import String.
From Verif Require Import Py MNet MUtils MShared MScript MTx MBase58 MBech32 MCashaddr MAddr.
Open Scope list_scope.
Open Scope Z_scope.

(* standard.py:7-8 *)
Definition MAX_STANDARD_TX_WEIGHT : Z := 400000.
(* standard.py:8 *)
Definition MIN_STANDARD_TX_NONWITNESS_SIZE : Z := 82.

(* int(c) for a single ASCII character; standard.py:140-141 *)
Definition int_char (c : Z) : res Z :=
  if (48 <=? c) && (c <=? 57) then Ok (c - 48) else Err ValueError.

(* bytes.fromhex(s) then len(...) in [33, 65]; standard.py:133, 147 *)
Definition is_pubkey_hex (s : str) : res bool :=
  b <- fromhex s ;; Ok (zmem (zlen b) [33; 65]).

Section Standard.
  Context (H : hashes) (net : network).

  (* standard.py:46-62.  script is a str, so the comprehension on line 56 runs
     over its characters; a token is a one-character string *)
  Fixpoint push_only_loop (tokens : list str) : res bool :=
    match tokens with
    | [] => Ok true
    | token :: ts =>
        integer_opcode <- code_to_int token ;;
        if zmem integer_opcode [79; 80] || (97 <=? integer_opcode) then Ok false
        else push_only_loop ts
    end.
  (* standard.py:46-62 *)
  Definition is_push_only (script_sig : bytes) : res bool :=
    script <- deserialize net script_sig ;;
    push_only_loop (filter (fun t => leqb (slice_to t 3) (lit "OP_"))
                           (map (fun c => [c]) script)).

  (* standard.py:90-106 *)
  Definition is_op_return (o : txout) : res bool :=
    script <- deserialize net (MTx.to_output_script o) ;;
    let split_script := split_ws script in
    if le2i (to_value o) false =? 0
    then w <- index split_script 0 ;;
         Ok (leqb w (lit "OP_RETURN") && (zlen script <? 80))
    else Ok false.

  (* standard.py:144-147 *)
  Fixpoint all_pubkeys (l : list str) : res bool :=
    match l with
    | [] => Ok true
    | p :: t => ok <- is_pubkey_hex p ;; if negb ok then Ok false else all_pubkeys t
    end.

  (* standard.py:135-148 *)
  Definition standard_multisig (split_script : list str) (w2 : str) : res bool :=
    c <- index w2 (-1) ;;
    num_pubkeys <- int_char c ;;
    w0 <- index split_script 0 ;;
    c0 <- index w0 (-1) ;;
    num_sigs <- int_char c0 ;;
    if (num_pubkeys <? num_sigs) || negb (zlen split_script =? num_pubkeys + 3)
    then Ok false
    else all_pubkeys (slice split_script 1 (-2)).

  (* standard.py:109-152 *)
  Definition is_standard_output_type (o : txout) : res bool :=
    match from_output_script H net (MTx.to_output_script o) true with
    | Ok _ => Ok true
    | Err ValueError =>
        script <- deserialize net (MTx.to_output_script o) ;;
        let split_script := split_ws script in
        last <- index split_script (-1) ;;
        p2pk <- (if leqb last (lit "OP_CHECKSIG") && (zlen split_script =? 2)
                 then w <- index split_script 1 ;; is_pubkey_hex w
                 else Ok false) ;;
        if p2pk : bool then Ok true
        else if leqb last (lit "OP_CHECKMULTISIG")
        then w2 <- index split_script (-2) ;;
             if leqb w2 (lit "OP_1") || leqb w2 (lit "OP_2") || leqb w2 (lit "OP_3")
             then standard_multisig split_script w2
             else Ok false
        else Ok false
    | Err e => Err e
    end.

  (* standard.py:73-81: the loop over the outputs, true when it ends *)
  Fixpoint standard_outputs (outs : list txout) : res bool :=
    match outs with
    | [] => Ok true
    | o :: t =>
        st <- is_standard_output_type o ;;
        if negb st then Ok false
        else if (le2i (to_value o) false <? 550)
                && negb (leqb (slice_to (MTx.to_output_script o) 2) [0; 0x14])
        then Ok false
        else standard_outputs t
    end.

  (* standard.py:65-87 *)
  Definition check_is_standard (t : tx) : res bool :=
    ok <- standard_outputs (tx_tx_outs t) ;;
    if negb ok then Ok false
    else l <- mapM is_op_return (tx_tx_outs t) ;;
         if 1 <? zlen l then Ok false else Ok true.

  (* standard.py:28-36: the loop over the inputs, true when it ends *)
  Fixpoint standard_inputs (ins : list txin) : bool :=
    match ins with
    | [] => true
    | i :: t =>
        if 1650 <? zlen (ti_script_sig i) then false
        else match is_push_only (ti_script_sig i) with
             | Err _ => false
             | Ok false => false
             | Ok true => standard_inputs t
             end
    end.

  (* standard.py:11-43 *)
  Definition check_is_standard_tx (t : tx) : res bool :=
    v <- index (tx_version t) 0 ;;
    if negb (zmem v [1; 2]) then Ok false
    else
      nw <- no_witness t ;;
      if MAX_STANDARD_TX_WEIGHT <? zlen nw * 3 + zlen (tx_bytes t) then Ok false
      else if negb (standard_inputs (tx_tx_ins t)) then Ok false
      else ok <- check_is_standard t ;;
           if negb ok then Ok false else Ok true.

  (* standard.py:155-162 *)
  Definition check_tx_size_small (t : tx) : res bool :=
    nw <- no_witness t ;; Ok (MIN_STANDARD_TX_NONWITNESS_SIZE <=? zlen nw).

  (* standard.py:165-181 *)
  Definition check_final (t : tx) (best_height best_timestamp : Z) : bool :=
    let lock := le2i (tx_lock_time t) false in
    if 500000000 <=? lock then lock <=? best_timestamp else lock <=? best_height.
End Standard.
