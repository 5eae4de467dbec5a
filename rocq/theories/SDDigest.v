(* What DecredTx.sighash_all and DecredTx.sighash_single return on every argument.  Nothing
   here is used by the model. *)
From Coq Require Import String.
From Verif Require Import Py LBase MUtils SNum SNet SHash SScript STx SSig SDecred SDigest.
Open Scope list_scope.
Open Scope Z_scope.

(* with SINGLE: the sequence numbers of the inputs but number a are zero, the output comes to
   place a, and there are as many outputs as inputs *)
Definition dsingle_copy (a : nat) (o : doutput) (t : dtransaction) : dtransaction :=
  with_ins_outs (map (dwith_sequence [0; 0; 0; 0]) (firstn a (d_ins t)) ++ firstn 1 (skipn a (d_ins t)) ++
                 map (dwith_sequence [0; 0; 0; 0]) (skipn (S a) (d_ins t)))
    (repeat dnull_output a ++ o :: repeat dnull_output (length (d_ins t) - S a)) t.

(* i: counted from the end when it is negative, in each of the lists of witnesses, inputs and
   outputs on its own *)
Definition exact_ddigest (H : hashes) (ty : sigtype) (t : dtransaction) (i : Z) (script : option bytes) (anyone : bool) : res bytes :=
  let hash := blake256 H in
  let code := match script with Some s => s | None => [] end in
  match place (length (d_spends t)) i with
  | None => Err IndexError
  | Some w =>
      let message prefix := le_bytes 4 (type_number ty anyone) ++ hash (dprefix_wire prefix) ++
                            hash (dsigning_wire (d_version t) (dscripts (length (d_spends t)) w code)) in
      if negb (fits (dsigning_copy w code t)) then Err ValueError
      else match ty with
           | All => Ok (hash (message t))
           | Single =>
               match place (length (d_ins t)) i, at_index (d_outs t) i with
               | Some a, Some o => if negb (fits (dsingle_copy a o (dsigning_copy w code t))) then Err ValueError
                                   else Ok (hash (message (dsingle_copy a o t)))
               | _, _ => Err NotImplementedError
               end
           end
  end.
