(* What Tx.sighash_all and Tx.sighash_single return on every argument.  Nothing here is used
   by the model. *)
From Coq Require Import List ZArith.
From Verif Require Import Py LBase MUtils SNum SNet SHash SScript STx SSig.
Open Scope list_scope.
Open Scope Z_scope.

(* the position that l[i] stands for, l a sequence of k elements *)
Definition place (k : nat) (i : Z) : option nat :=
  let p := if i <? 0 then i + Z.of_nat k else i in
  if (0 <=? p) && (p <? Z.of_nat k) then Some (Z.to_nat p) else None.
Definition at_index {A} (l : list A) (i : Z) : option A :=
  match place (length l) i with Some n => nth_error l n | None => None end.

(* how many bytes are taken off the script as its length.  x: the bytes read as a number.
   They may be fewer than the first byte announces, and the number of bytes taken off is
   that of the number's own encoding, see C69 *)
Definition length_taken (name : str) (script : bytes) : res Z :=
  match script with
  | [] => Err IndexError
  | first :: rest =>
      let w := compactsize_width first - 1 in
      let x := if first <? 253 then [first] else firstn (Z.to_nat w) rest in
      let padded := (253 <=? first) && (w / 2 <=? len x) &&
                    forallb (Z.eqb 0) (skipn (length x - Z.to_nat (w / 2)) x) in
      if negb (existsb (Z.eqb (len x)) [1; 2; 4; 8]) then Err ValueError
      else if padded && (if in_dec (list_eq_dec Z.eq_dec) name upgraded_zcash then true else false) then Err ValueError
      else Ok (if padded && (le_value x <=? 252) then 1 + len x else len (compactsize (le_value x)))
  end.

Definition fork_of (name : str) : option Z :=
  option_map snd (List.find (fun p => if list_eq_dec Z.eq_dec name (fst p) then true else false) fork_ids).

(* the outputs a hash type covers; i: the index as it is passed *)
Definition taken_outs (ty : sigtype) (i : Z) (t : transaction) : option (list output) :=
  match ty with All => Some (t_outs t) | Single => option_map (fun o => [o]) (at_index (t_outs t) i) end.

(* BIP143 with the script as it is passed *)
Definition bip143_raw (hash : bytes -> bytes) ty (anyone : bool) (i : input) (outs : list output)
  (script value : bytes) (number : Z) (t : transaction) : bytes :=
  t_version t ++
  (if anyone then zeros else hash (concat (map outpoint_wire (t_ins t)))) ++
  (if anyone then zeros else match ty with Single => zeros | All => hash (concat (map in_sequence (t_ins t))) end) ++
  outpoint_wire i ++ script ++ value ++ in_sequence i ++
  hash (concat (map output_wire outs)) ++ t_lock t ++ le_bytes 4 number.

(* the original algorithm; with SINGLE the output comes to the place of the input, and
   there are as many outputs as inputs *)
Definition original_raw ty (anyone : bool) (n : nat) (outs : list output) (code : bytes) (t : transaction) : bytes :=
  wire_tx {| t_version := t_version t; t_ins := t_ins (legacy_tx ty anyone n code t);
             t_outs := match ty with
                       | All => outs
                       | Single => repeat null_output n ++ outs ++ repeat null_output (length (t_ins t) - S n)
                       end;
             t_witness := None; t_lock := t_lock t |} ++ le_bytes 4 (type_number ty anyone).

(* segwit: the transaction has a flag, or a list of witnesses *)
Definition exact_digest (H : hashes) (name : str) (segwit : bool) ty (t : transaction) (i : Z)
  (script : bytes) (value : option bytes) (anyone : bool) : res bytes :=
  let hash := double_hash H name in
  if match ty with Single => Z.of_nat (length (t_outs t)) <=? i | All => false end then Err NotImplementedError
  else
    match fork_of name, segwit, value with
    | Some id, _, None => Err ValueError
    | Some id, _, Some v =>
        if negb (len v =? 8) then Err ValueError
        else match at_index (t_ins t) i, taken_outs ty i t with
             | Some input, Some outs => Ok (hash (bip143_raw hash ty anyone input outs script v (id * 256 + 64 + type_number ty anyone) t))
             | _, _ => Err IndexError
             end
    | None, true, None => match at_index (t_ins t) i with Some _ => Err TypeError | None => Err IndexError end
    | None, true, Some v =>
        match at_index (t_ins t) i, taken_outs ty i t with
        | Some input, Some outs => Ok (hash (bip143_raw hash ty anyone input outs script v (type_number ty anyone) t))
        | _, _ => Err IndexError
        end
    | None, false, _ =>
        match length_taken name script with
        | Err e => Err e
        | Ok k =>
            let code := skipn (Z.to_nat k) script in
            match place (length (t_ins t)) i with
            | None => Err IndexError
            | Some n =>
                if 1650 <? len code then Err ValueError
                else match taken_outs ty i t with
                     | Some outs => Ok (hash (original_raw ty anyone n outs code t))
                     | None => Err IndexError
                     end
            end
        end
    end.
