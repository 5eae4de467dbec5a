(* Running scripts: Bitcoin Core's EvalScript, VerifyScript and VerifyWitnessProgram
   (script/interpreter.cpp) with the consensus rules P2SH (BIP16), CHECKLOCKTIMEVERIFY
   (BIP65), WITNESS (BIP141) and NULLDUMMY (BIP147).  Opcodes that no template of the
   library uses are a parameter. *)
From Verif Require Import Py MUtils SNum SHash SScript.
Open Scope list_scope.
Open Scope Z_scope.

(** * Decoding *)

Inductive instr := IPush (d : bytes) | IOp (c : Z).

(* take n bytes *)
Definition take (n : Z) (s : bytes) : option (bytes * bytes) :=
  if len s <? n then None else Some (firstn (Z.to_nat n) s, skipn (Z.to_nat n) s).

(* CScript::GetOp: one instruction and the rest *)
Definition next (s : bytes) : option (instr * bytes) :=
  let data r := match r with Some (d, r') => Some (IPush d, r') | None => None end in
  let counted k r := match take k r with Some (n, r') => data (take (le_value n) r') | None => None end in
  match s with
  | [] => None
  | c :: r =>
      if c <=? 75 then data (take c r)
      else if c =? 76 then counted 1 r
      else if c =? 77 then counted 2 r
      else if c =? 78 then counted 4 r
      else Some (IOp c, r)
  end.

Fixpoint decode_from (fuel : nat) (s : bytes) : option (list instr) :=
  match s with
  | [] => Some []
  | _ :: _ =>
      match fuel with
      | O => None
      | S f => match next s with
               | Some (i, r) => match decode_from f r with Some is => Some (i :: is) | None => None end
               | None => None
               end
      end
  end.
(* every instruction has at least one byte *)
Definition decode (s : bytes) : option (list instr) := decode_from (length s) s.

(** * Running *)

(* CastToBool: false is zero, also with the sign bit set *)
Definition truthy (b : bytes) : bool :=
  existsb (fun x => negb (x =? 0)) (removelast b) || negb ((last b 0 =? 0) || (last b 0 =? 128)).
Definition bool_bytes (b : bool) : bytes := if b then [1] else [].
Definition same (a b : bytes) : bool := if list_eq_dec Z.eq_dec a b then true else false.

Definition disabled (c : Z) : bool :=
  existsb (Z.eqb c) [126; 127; 128; 129; 131; 132; 133; 134; 141; 142; 149; 150; 151; 152; 153].

(* what a script is run with: the transaction's lock time, the input's sequence
   number, the verdict on a signature under a key (None when the script fails because
   of their encoding), and the opcodes that are not spelled out below, on the stack and
   the alternative stack *)
Record context := {
  cx_locktime : Z;
  cx_sequence : Z;
  cx_checksig : bytes -> bytes -> option bool;
  cx_other : Z -> list bytes * list bytes -> option (list bytes * list bytes);
  cx_sha256 : bytes -> bytes;
  cx_rmd160 : bytes -> bytes
}.

Record state := { stack : list bytes; alt : list bytes; conds : list bool; ops : Z }.

Section Run.
Context (cx : context).

(* signatures and keys in the order in which they are popped: each signature has to
   match a key, in order *)
Fixpoint check_sigs (keys sigs : list bytes) {struct keys} : option bool :=
  match sigs with
  | [] => Some true
  | s :: ss =>
      match keys with
      | [] => Some false
      | k :: ks =>
          if (length keys <? length sigs)%nat then Some false
          else match cx_checksig cx s k with
               | None => None
               | Some true => check_sigs ks ss
               | Some false => check_sigs ks sigs
               end
      end
  end.

(* OP_CHECKMULTISIG: the number of keys, the keys, the number of signatures, the
   signatures, and one more element, which has to be empty *)
Definition multisig (s : list bytes) (o : Z) : option (list bytes * Z) :=
  match s with
  | kn :: r =>
      let n := scriptnum_value kn in
      if (len kn <=? 4) && (0 <=? n) && (n <=? 20) && (o + n <=? 201) && (n <=? zlen r)
      then match skipn (Z.to_nat n) r with
           | km :: r' =>
               let m := scriptnum_value km in
               if (len km <=? 4) && (0 <=? m) && (m <=? n) && (m <=? zlen r')
               then match check_sigs (firstn (Z.to_nat n) r) (firstn (Z.to_nat m) r'), skipn (Z.to_nat m) r' with
                    | Some b, [] :: r'' => Some (bool_bytes b :: r'', o + n)
                    | _, _ => None
                    end
               else None
           | [] => None
           end
      else None
  | [] => None
  end.

(* OP_CHECKLOCKTIMEVERIFY: the element stays on the stack *)
Definition locktime_reached (t : Z) : bool :=
  (0 <=? t) && Bool.eqb (t <? 500000000) (cx_locktime cx <? 500000000) && (t <=? cx_locktime cx) &&
  negb (cx_sequence cx =? 0xffffffff).

(* an opcode other than pushes and conditionals, with the number of opcodes counted so far *)
Definition operate (c : Z) (s a : list bytes) (o : Z) : option (list bytes * list bytes * Z) :=
  if c =? 79 then Some ([129] :: s, a, o)
  else if (81 <=? c) && (c <=? 96) then Some ([c - 80] :: s, a, o)
  else if (c =? 80) || (c =? 98) || (c =? 137) || (c =? 138) (* RESERVED, VER, RESERVED1, RESERVED2 *) then None
  else if c =? 97 then Some (s, a, o)
  else if c =? 105 (* VERIFY *) then match s with x :: r => if truthy x then Some (r, a, o) else None | _ => None end
  else if c =? 106 (* RETURN *) then None
  else if c =? 117 (* DROP *) then match s with _ :: r => Some (r, a, o) | _ => None end
  else if c =? 118 (* DUP *) then match s with x :: r => Some (x :: x :: r, a, o) | _ => None end
  else if c =? 135 (* EQUAL *) then match s with x :: y :: r => Some (bool_bytes (same x y) :: r, a, o) | _ => None end
  else if c =? 136 (* EQUALVERIFY *) then match s with x :: y :: r => if same x y then Some (r, a, o) else None | _ => None end
  else if c =? 168 (* SHA256 *) then match s with x :: r => Some (cx_sha256 cx x :: r, a, o) | _ => None end
  else if c =? 169 (* HASH160 *) then match s with x :: r => Some (cx_rmd160 cx (cx_sha256 cx x) :: r, a, o) | _ => None end
  else if c =? 172 (* CHECKSIG *)
  then match s with
       | key :: sig :: r => match cx_checksig cx sig key with Some b => Some (bool_bytes b :: r, a, o) | None => None end
       | _ => None
       end
  else if c =? 174 (* CHECKMULTISIG *)
  then match multisig s o with Some (r, o') => Some (r, a, o') | None => None end
  else if c =? 177 (* CHECKLOCKTIMEVERIFY *)
  then match s with x :: _ => if (len x <=? 5) && locktime_reached (scriptnum_value x) then Some (s, a, o) else None | _ => None end
  else match cx_other cx c (s, a) with Some (s', a') => Some (s', a', o) | None => None end.

Definition executing (st : state) : bool := forallb (fun b => b) (conds st).

(* OP_IF, OP_NOTIF, OP_ELSE, OP_ENDIF; OP_VERIF and OP_VERNOTIF fail even when they are skipped *)
Definition control (c o : Z) (st : state) : option state :=
  let put s cs := Some {| stack := s; alt := alt st; conds := cs; ops := o |} in
  if (c =? 99) || (c =? 100)
  then if executing st
       then match stack st with
            | x :: r => put r ((if c =? 99 then truthy x else negb (truthy x)) :: conds st)
            | [] => None
            end
       else put (stack st) (false :: conds st)
  else if c =? 103 then match conds st with b :: cs => put (stack st) (negb b :: cs) | [] => None end
  else if c =? 104 then match conds st with _ :: cs => put (stack st) cs | [] => None end
  else None.

Definition small_stacks (st : state) : bool := zlen (stack st) + zlen (alt st) <=? 1000.

Definition step (i : instr) (st : state) : option state :=
  let after := match i with
  | IPush d =>
      if 520 <? len d then None
      else Some (if executing st then {| stack := d :: stack st; alt := alt st; conds := conds st; ops := ops st |} else st)
  | IOp c =>
      let o := ops st + (if 96 <? c then 1 else 0) in
      if (201 <? o) || disabled c then None
      else if (99 <=? c) && (c <=? 104) then control c o st
      else if executing st
      then match operate c (stack st) (alt st) o with
           | Some (s, a, o') => Some {| stack := s; alt := a; conds := conds st; ops := o' |}
           | None => None
           end
      else Some {| stack := stack st; alt := alt st; conds := conds st; ops := o |}
  end in
  match after with Some st' => if small_stacks st' then Some st' else None | None => None end.

Fixpoint steps (is : list instr) (st : state) : option state :=
  match is with
  | [] => Some st
  | i :: r => match step i st with Some st' => steps r st' | None => None end
  end.

(* the stack that a script leaves, top first *)
Definition run (script : bytes) (s : list bytes) : option (list bytes) :=
  if 10000 <? len script then None
  else match decode script with
       | None => None
       | Some is => match steps is {| stack := s; alt := []; conds := []; ops := 0 |} with
                    | Some st => match conds st with [] => Some (stack st) | _ => None end
                    | None => None
                    end
       end.

Definition top_true (s : list bytes) : bool := match s with x :: _ => truthy x | [] => false end.

(** * Spending *)

(* BIP141: a version and 2 to 40 bytes *)
Definition program (s : bytes) : option (Z * bytes) :=
  match s with
  | v :: n :: p =>
      if ((v =? 0) || ((81 <=? v) && (v <=? 96))) && (len p =? n) && (2 <=? n) && (n <=? 40) then Some (v, p) else None
  | _ => None
  end.

(* BIP141: the script of a witness program leaves exactly one true element *)
Definition witness_script (script : bytes) (items : list bytes) : bool :=
  forallb (fun i => len i <=? 520) items &&
  match run script items with Some [x] => truthy x | _ => false end.

Definition pay_to_hash (h : bytes) : bytes := [118; 169; 20] ++ h ++ [136; 172].

(* the witness is listed bottom first, as it is on the wire *)
Definition verify_program (v : Z) (p : bytes) (wit : list bytes) : bool :=
  if v =? 0
  then if len p =? 20 then (zlen wit =? 2) && witness_script (pay_to_hash p) (rev wit)
       else if len p =? 32
       then match rev wit with
            | script :: items => same (cx_sha256 cx script) p && witness_script script items
            | [] => false
            end
       else false
  else true.

(* BIP16 *)
Definition is_p2sh (s : bytes) : bool :=
  (len s =? 23) && same (firstn 2 s) [169; 20] && same (skipn 22 s) [135].
Definition pushes_only (s : bytes) : bool :=
  match decode s with
  | Some is => forallb (fun i => match i with IPush _ => true | IOp c => c <=? 96 end) is
  | None => false
  end.

(* does this script sig and witness spend this output?  On networks without
   segregated witness there are no programs and no witnesses. *)
Definition spends (segwit : bool) (sig script : bytes) (wit : list bytes) : bool :=
  let prog s := if segwit then program s else None in
  let no_witness := match wit with [] => true | _ => negb segwit end in
  match run sig [] with
  | None => false
  | Some s1 =>
      match run script s1 with
      | None => false
      | Some s2 =>
          top_true s2 &&
          match prog script with
          | Some (v, p) => same sig [] && verify_program v p wit
          | None =>
              if is_p2sh script
              then pushes_only sig &&
                   match s1 with
                   | [] => false
                   | redeem :: s1' =>
                       match run redeem s1' with
                       | None => false
                       | Some s3 =>
                           top_true s3 &&
                           match prog redeem with
                           | Some (v, p) => same sig (push (smallest redeem) redeem) && verify_program v p wit
                           | None => no_witness
                           end
                       end
                   end
              else no_witness
          end
      end
  end.
End Run.

(** * Pushes *)

(* opcodes and data that only push, and what they push *)
Definition is_push (e : element) : bool :=
  match e with Op c _ => (c =? 0) || (c =? 79) || ((81 <=? c) && (c <=? 96)) | Push _ _ => true end.
Definition pushed (e : element) : bytes :=
  match e with
  | Op c _ => if c =? 0 then [] else if c =? 79 then [129] else [c - 80]
  | Push _ d => d
  end.

(* a context that hashes with H *)
Definition hashing (H : hashes) (cx : context) : Prop := cx_sha256 cx = h_sha256 H /\ cx_rmd160 cx = h_rmd160 H.

(* for examples: a signature is its key, with one byte before it *)
Definition toy_context (locktime : Z) : context :=
  {| cx_locktime := locktime; cx_sequence := 0; cx_checksig := fun sig key => Some (same sig (48 :: key));
     cx_other := fun _ _ => None; cx_sha256 := h_sha256 toy; cx_rmd160 := h_rmd160 toy |}.

(** * Hash time locks *)

(* what takes the money: the secret and a signature of the first party, or a signature of
   the second party when the lock time is reached *)
Definition claimed (cx : context) (sh pkh0 : bytes) (s : list bytes) : Prop :=
  exists x secret pk sig rest, s = x :: secret :: pk :: sig :: rest /\ truthy x = true /\
    cx_sha256 cx secret = sh /\ cx_rmd160 cx (cx_sha256 cx pk) = pkh0 /\ cx_checksig cx sig pk = Some true.
Definition refunded (cx : context) (tm pkh1 : bytes) (s : list bytes) : Prop :=
  exists x pk sig rest, s = x :: pk :: sig :: rest /\ truthy x = false /\
    len tm <= 5 /\ locktime_reached cx (scriptnum_value tm) = true /\ cx_rmd160 cx (cx_sha256 cx pk) = pkh1 /\ cx_checksig cx sig pk = Some true.
