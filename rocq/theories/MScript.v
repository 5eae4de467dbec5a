(* riemann/script/opcodes.py and riemann/script/serialization.py *)
From Coq Require Import String.
From Verif Require Import Py MNet MUtils.

Open Scope list_scope.
Open Scope Z_scope.

(* '%d' of a non-negative int below 100; opcodes.py:149 *)
Definition dec2 (n : Z) : str :=
  if n <? 10 then [48 + n] else [48 + n / 10; 48 + n mod 10].

(* opcodes.py:31-146 *)
Definition OPCODE_LIST_base : list (str * Z) := [
  (lit "OP_0", 0);
  (lit "OP_PUSHDATA1", 76);
  (lit "OP_PUSHDATA2", 77);
  (lit "OP_PUSHDATA4", 78);
  (lit "OP_1NEGATE", 79);
  (lit "OP_RESERVED", 80);
  (lit "OP_1", 81);
  (lit "OP_2", 82);
  (lit "OP_3", 83);
  (lit "OP_4", 84);
  (lit "OP_5", 85);
  (lit "OP_6", 86);
  (lit "OP_7", 87);
  (lit "OP_8", 88);
  (lit "OP_9", 89);
  (lit "OP_10", 90);
  (lit "OP_11", 91);
  (lit "OP_12", 92);
  (lit "OP_13", 93);
  (lit "OP_14", 94);
  (lit "OP_15", 95);
  (lit "OP_16", 96);
  (lit "OP_NOP", 97);
  (lit "OP_VER", 98);
  (lit "OP_IF", 99);
  (lit "OP_NOTIF", 100);
  (lit "OP_VERIF", 101);
  (lit "OP_VERNOTIF", 102);
  (lit "OP_ELSE", 103);
  (lit "OP_ENDIF", 104);
  (lit "OP_VERIFY", 105);
  (lit "OP_RETURN", 106);
  (lit "OP_TOALTSTACK", 107);
  (lit "OP_FROMALTSTACK", 108);
  (lit "OP_2DROP", 109);
  (lit "OP_2DUP", 110);
  (lit "OP_3DUP", 111);
  (lit "OP_2OVER", 112);
  (lit "OP_2ROT", 113);
  (lit "OP_2SWAP", 114);
  (lit "OP_IFDUP", 115);
  (lit "OP_DEPTH", 116);
  (lit "OP_DROP", 117);
  (lit "OP_DUP", 118);
  (lit "OP_NIP", 119);
  (lit "OP_OVER", 120);
  (lit "OP_PICK", 121);
  (lit "OP_ROLL", 122);
  (lit "OP_ROT", 123);
  (lit "OP_SWAP", 124);
  (lit "OP_TUCK", 125);
  (lit "OP_CAT", 126);
  (lit "OP_SUBSTR", 127);
  (lit "OP_LEFT", 128);
  (lit "OP_RIGHT", 129);
  (lit "OP_SIZE", 130);
  (lit "OP_INVERT", 131);
  (lit "OP_AND", 132);
  (lit "OP_OR", 133);
  (lit "OP_XOR", 134);
  (lit "OP_EQUAL", 135);
  (lit "OP_EQUALVERIFY", 136);
  (lit "OP_RESERVED1", 137);
  (lit "OP_RESERVED2", 138);
  (lit "OP_1ADD", 139);
  (lit "OP_1SUB", 140);
  (lit "OP_2MUL", 141);
  (lit "OP_2DIV", 142);
  (lit "OP_NEGATE", 143);
  (lit "OP_ABS", 144);
  (lit "OP_NOT", 145);
  (lit "OP_0NOTEQUAL", 146);
  (lit "OP_ADD", 147);
  (lit "OP_SUB", 148);
  (lit "OP_MUL", 149);
  (lit "OP_DIV", 150);
  (lit "OP_MOD", 151);
  (lit "OP_LSHIFT", 152);
  (lit "OP_RSHIFT", 153);
  (lit "OP_BOOLAND", 154);
  (lit "OP_BOOLOR", 155);
  (lit "OP_NUMEQUAL", 156);
  (lit "OP_NUMEQUALVERIFY", 157);
  (lit "OP_NUMNOTEQUAL", 158);
  (lit "OP_LESSTHAN", 159);
  (lit "OP_GREATERTHAN", 160);
  (lit "OP_LESSTHANOREQUAL", 161);
  (lit "OP_GREATERTHANOREQUAL", 162);
  (lit "OP_MIN", 163);
  (lit "OP_MAX", 164);
  (lit "OP_WITHIN", 165);
  (lit "OP_RIPEMD160", 166);
  (lit "OP_SHA1", 167);
  (lit "OP_SHA256", 168);
  (lit "OP_HASH160", 169);
  (lit "OP_HASH256", 170);
  (lit "OP_CODESEPARATOR", 171);
  (lit "OP_CHECKSIG", 172);
  (lit "OP_CHECKSIGVERIFY", 173);
  (lit "OP_CHECKMULTISIG", 174);
  (lit "OP_CHECKMULTISIGVERIFY", 175);
  (lit "OP_NOP1", 176);
  (lit "OP_NOP2", 177);
  (lit "OP_CHECKLOCKTIMEVERIFY", 177);
  (lit "OP_NOP3", 178);
  (lit "OP_CHECKSEQUENCEVERIFY", 178);
  (lit "OP_NOP4", 179);
  (lit "OP_NOP5", 180);
  (lit "OP_NOP6", 181);
  (lit "OP_NOP7", 182);
  (lit "OP_NOP8", 183);
  (lit "OP_NOP9", 184);
  (lit "OP_NOP10", 185);
  (lit "OP_INVALIDOPCODE", 255)
].

(* opcodes.py:148-149 *)
Definition OPCODE_LIST : list (str * Z) :=
  (OPCODE_LIST_base
   ++ map (fun i => (lit "OP_PUSH_" ++ dec2 (Z.of_nat i), Z.of_nat i)) (seq 1 75))%list.

(* opcodes.py:151: dict, the last pair wins (assoc_str does the same) *)
Definition CODE_TO_INT (token : str) : option Z := assoc_str token OPCODE_LIST.
(* opcodes.py:152 *)
Definition INT_TO_CODE (op : Z) : option str :=
  assoc_z op (map (fun o => (snd o, fst o)) OPCODE_LIST).

Section Serialization.
  Context (net : network).

  (* CODE_TO_INT[op], serialization.py:37,42,48 *)
  Definition code_to_int (op : str) : res Z :=
    match CODE_TO_INT op with Some v => Ok v | None => Err KeyError end.

  (* serialization.py:33-55: the bytes of a push *)
  Definition serialize_push (token_bytes : bytes) : res bytes :=
    if zlen token_bytes <=? 75
    then op <- code_to_int (lit "OP_PUSH_" ++ dec2 (zlen token_bytes)) ;;
         Ok ([op] ++ token_bytes)%list
    else if zlen token_bytes <=? 255
    then op <- code_to_int (lit "OP_PUSHDATA1") ;;
         n <- i2le (zlen token_bytes) ;;
         Ok ([op] ++ n ++ token_bytes)%list
    else if zlen token_bytes <=? 1000
    then op <- code_to_int (lit "OP_PUSHDATA2") ;;
         n <- i2le_padded (zlen token_bytes) 2 ;;
         Ok ([op] ++ n ++ token_bytes)%list
    else Err NotImplementedError.

  (* serialization.py:22-55: the bytes one token adds *)
  Definition serialize_token (token : str) : res bytes :=
    raise_if leqb token (lit "OP_CODESEPARATOR") || leqb token (lit "OP_PUSHDATA4")
      as NotImplementedError ;;
    match assoc_str token (CODE_TO_INT_OVERWRITE net) with
    | Some v => Ok [v]
    | None =>
        match CODE_TO_INT token with
        | Some v => Ok [v]
        | None => token_bytes <- fromhex token ;; serialize_push token_bytes
        end
    end.

  (* serialization.py:6-57 *)
  Definition serialize (script_string : str) : res bytes :=
    parts <- mapM serialize_token (split_ws script_string) ;;
    Ok (concat parts).

  (* serialization.py:60-72 *)
  Definition hex_serialize (script_string : str) : res str :=
    b <- serialize script_string ;; Ok (hex b).

  (* serialization.py:86-134: the loop, from position i *)
  Fixpoint deserialize_loop (fuel : nat) (s : bytes) (i : Z) : res (list str) :=
    if zlen s <=? i then Ok []
    else match fuel with
    | O => Err EFuel
    | S f =>
        current_byte <- index s i ;;
        raise_if current_byte =? 0xab as NotImplementedError ;;
        if (current_byte <=? 75) && negb (current_byte =? 0)
        then
          let w := hex (slice s (i + 1) (i + 1 + current_byte)) in
          let i := i + (1 + current_byte) in
          raise_if zlen s <? i as IndexError ;;
          ws <- deserialize_loop f s i ;; Ok (w :: ws)
        else if current_byte =? 76
        then
          blob_len <- index s (i + 1) ;;
          let w := hex (slice s (i + 2) (i + 2 + blob_len)) in
          ws <- deserialize_loop f s (i + (2 + blob_len)) ;; Ok (w :: ws)
        else if current_byte =? 77
        then
          let blob_len := le2i (slice s (i + 1) (i + 3)) false in
          let w := hex (slice s (i + 3) (i + 3 + blob_len)) in
          ws <- deserialize_loop f s (i + (3 + blob_len)) ;; Ok (w :: ws)
        else if current_byte =? 78
        then Err NotImplementedError
        else
          w <- match assoc_z current_byte (INT_TO_CODE_OVERWRITE net) with
               | Some w => Ok w
               | None => match INT_TO_CODE current_byte with
                         | Some w => Ok w
                         | None => Err ValueError
                         end
               end ;;
          ws <- deserialize_loop f s (i + 1) ;; Ok (w :: ws)
    end.

  (* serialization.py:75-136 *)
  Definition deserialize (serialized_script : bytes) : res str :=
    ws <- deserialize_loop (S (length serialized_script)) serialized_script 0 ;;
    Ok (join (lit " ") ws).

  (* serialization.py:139-150 *)
  Definition hex_deserialize (script_hex : str) : res str :=
    b <- fromhex script_hex ;; deserialize b.
End Serialization.
