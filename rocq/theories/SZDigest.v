(* What OverwinterTx.sighash and SaplingTx.sighash return on every argument.  Nothing here is
   used by the model. *)
From Coq Require Import String.
From Verif Require Import Py LBase MUtils MTx MZcash SNum SNet SHash SScript STx SSig SZcash SDigest.
Open Scope list_scope.
Open Scope Z_scope.

(* ty: any integer, 1 and 3 are SIGHASH_ALL and SIGHASH_SINGLE *)
Definition sequences_part (H : hashes) (ty : Z) (anyone : bool) (ins : list input) : bytes :=
  if anyone || (ty =? 3) then zero32 else personal H "ZcashSequencHash" (concat (map in_sequence ins)).
Definition outputs_part (H : hashes) (ty i : Z) (outs : list output) : res bytes :=
  if ty =? 1 then Ok (personal H "ZcashOutputsHash" (concat (map output_wire outs)))
  else if ty =? 3
  then if Z.of_nat (length outs) <? i then Err NotImplementedError
       else match at_index outs i with Some o => Ok (personal H "ZcashOutputsHash" (output_wire o)) | None => Err IndexError end
  else Ok zero32.
Definition type_part (ty : Z) (anyone : bool) : res bytes :=
  let k := if anyone then Z.lor ty 128 else ty in
  if (0 <=? k) && (k <? 2 ^ 32) then Ok (le_bytes 4 k) else Err OverflowError.
(* the script and the value as they are passed *)
Definition input_part (joinsplit : bool) (i : Z) (script value : option bytes) (ins : list input) : res bytes :=
  if joinsplit then Ok []
  else match at_index ins i, script, value with
       | None, _, _ => Err IndexError
       | Some a, Some s, Some v => Ok (outpoint_wire a ++ s ++ v ++ in_sequence a)
       | _, _, _ => Err TypeError
       end.

Definition exact_zip143 (H : hashes) (t : overwinter_tx) (ty : Z) (value script : option bytes) (i : Z) (joinsplit anyone : bool) : res bytes :=
  let ins := map the_input (ow_tx_ins t) in
  if joinsplit && anyone then Err ValueError
  else match outputs_part H ty i (map the_output (ow_tx_outs t)), type_part ty anyone, input_part joinsplit i script value ins with
       | Err e, _, _ | Ok _, Err e, _ | Ok _, Ok _, Err e => Err e
       | Ok outs, Ok number, Ok signed =>
           Ok (zip143_hash H (overwinter_header ++ zip_prevouts H anyone (ow_tx_ins t) ++ sequences_part H ty anyone ins ++ outs ++
                zip_joinsplits H sprout_joinsplit_wire (ow_tx_joinsplits t) (ow_joinsplit_pubkey t) ++
                ow_lock_time t ++ ow_expiry_height t ++ number ++ signed))
       end.

Definition exact_zip243 (H : hashes) (t : sapling_tx) (ty : Z) (value script : option bytes) (i : Z) (joinsplit anyone : bool) : res bytes :=
  let ins := map the_input (sa_tx_ins t) in
  if joinsplit && anyone then Err ValueError
  else match outputs_part H ty i (map the_output (sa_tx_outs t)), type_part ty anyone, input_part joinsplit i script value ins with
       | Err e, _, _ | Ok _, Err e, _ | Ok _, Ok _, Err e => Err e
       | Ok outs, Ok number, Ok signed =>
           Ok (zip243_hash H (sapling_header ++ zip_prevouts H anyone (sa_tx_ins t) ++ sequences_part H ty anyone ins ++ outs ++
                zip_joinsplits H sapling_joinsplit_wire (sa_tx_joinsplits t) (sa_joinsplit_pubkey t) ++
                zip_spends H (sa_tx_shielded_spends t) ++ zip_shielded_outputs H (sa_tx_shielded_outputs t) ++
                sa_lock_time t ++ sa_expiry_height t ++ sa_value_balance t ++ number ++ signed))
       end.

(* SproutTx.sighash_all and SproutTx.sighash_single; name: that of the network *)
Definition exact_sprout (H : hashes) (name : str) (ty : sigtype) (t : sprout_tx) (i : Z) (script : bytes) (anyone : bool) : res bytes :=
  match ty, sp_tx_ins t with
  | Single, _ => Err ValueError
  | All, [] => if anyone then Err ValueError else Ok (sha256d H (sprout_signed 0 [] t ++ le_bytes 4 1))
  | All, _ =>
      match length_taken name script, place (length (sp_tx_ins t)) i with
      | Err e, _ => Err e
      | Ok _, None => Err IndexError
      | Ok k, Some n =>
          let code := skipn (Z.to_nat k) script in
          if (len code <=? 1650) && (len (sprout_signed n code t) <=? 100000) && negb anyone
          then Ok (sha256d H (sprout_signed n code t ++ le_bytes 4 1)) else Err ValueError
      end
  end.
