(* The Script language on the wire: opcode names and numbers (Bitcoin Core,
   script.h; decred, txscript/opcode.go) and pushes. *)
From Coq Require Import String.
From Verif Require Import Py SNum SNet LBase.
Open Scope list_scope.
Open Scope Z_scope.

(* opcodes 79, 80, 81, ... *)
Definition names_from_79 : list str := map lit [
  "OP_1NEGATE"; "OP_RESERVED";
  "OP_1"; "OP_2"; "OP_3"; "OP_4"; "OP_5"; "OP_6"; "OP_7"; "OP_8";
  "OP_9"; "OP_10"; "OP_11"; "OP_12"; "OP_13"; "OP_14"; "OP_15"; "OP_16";
  (* control, from 97 *)
  "OP_NOP"; "OP_VER"; "OP_IF"; "OP_NOTIF"; "OP_VERIF"; "OP_VERNOTIF"; "OP_ELSE"; "OP_ENDIF";
  "OP_VERIFY"; "OP_RETURN";
  (* stack, from 107 *)
  "OP_TOALTSTACK"; "OP_FROMALTSTACK"; "OP_2DROP"; "OP_2DUP"; "OP_3DUP"; "OP_2OVER"; "OP_2ROT";
  "OP_2SWAP"; "OP_IFDUP"; "OP_DEPTH"; "OP_DROP"; "OP_DUP"; "OP_NIP"; "OP_OVER"; "OP_PICK";
  "OP_ROLL"; "OP_ROT"; "OP_SWAP"; "OP_TUCK";
  (* splice, from 126 *)
  "OP_CAT"; "OP_SUBSTR"; "OP_LEFT"; "OP_RIGHT"; "OP_SIZE";
  (* bits, from 131 *)
  "OP_INVERT"; "OP_AND"; "OP_OR"; "OP_XOR"; "OP_EQUAL"; "OP_EQUALVERIFY"; "OP_RESERVED1"; "OP_RESERVED2";
  (* numbers, from 139 *)
  "OP_1ADD"; "OP_1SUB"; "OP_2MUL"; "OP_2DIV"; "OP_NEGATE"; "OP_ABS"; "OP_NOT"; "OP_0NOTEQUAL";
  "OP_ADD"; "OP_SUB"; "OP_MUL"; "OP_DIV"; "OP_MOD"; "OP_LSHIFT"; "OP_RSHIFT";
  "OP_BOOLAND"; "OP_BOOLOR"; "OP_NUMEQUAL"; "OP_NUMEQUALVERIFY"; "OP_NUMNOTEQUAL";
  "OP_LESSTHAN"; "OP_GREATERTHAN"; "OP_LESSTHANOREQUAL"; "OP_GREATERTHANOREQUAL";
  "OP_MIN"; "OP_MAX"; "OP_WITHIN";
  (* crypto, from 166 *)
  "OP_RIPEMD160"; "OP_SHA1"; "OP_SHA256"; "OP_HASH160"; "OP_HASH256"; "OP_CODESEPARATOR";
  "OP_CHECKSIG"; "OP_CHECKSIGVERIFY"; "OP_CHECKMULTISIG"; "OP_CHECKMULTISIGVERIFY";
  (* expansion, from 176 *)
  "OP_NOP1"; "OP_CHECKLOCKTIMEVERIFY"; "OP_CHECKSEQUENCEVERIFY"; "OP_NOP4"; "OP_NOP5"; "OP_NOP6";
  "OP_NOP7"; "OP_NOP8"; "OP_NOP9"; "OP_NOP10"]%string.

Fixpoint number_from (c : Z) (names : list str) : list (Z * str) :=
  match names with
  | n :: t => (c, n) :: number_from (c + 1) t
  | [] => []
  end.

(* the opcodes that stand alone (not pushes of data) and their names *)
Definition bitcoin_opcodes : list (Z * str) :=
  (0, lit "OP_0") :: number_from 79 names_from_79 ++ [(255, lit "OP_INVALIDOPCODE")].

(* decred hashes with BLAKE-256 and moves SHA-256 *)
Definition decred_opcodes : list (Z * str) :=
  filter (fun o => negb (fst o =? 168)) bitcoin_opcodes ++ [(168, lit "OP_BLAKE256"); (192, lit "OP_SHA256")].

Definition opcodes_of (name : str) : list (Z * str) :=
  if in_dec list_eq_dec_Z name decred_names then decred_opcodes else bitcoin_opcodes.

(* older names that are still understood *)
Definition aliases : list (Z * str) := [(177, lit "OP_NOP2"); (178, lit "OP_NOP3")].

(* pushes: 1..75 bytes directly, PUSHDATA1 with a one byte length, PUSHDATA2 with
   a two byte length *)
Inductive form := Direct | Pushdata1 | Pushdata2.
Definition push (f : form) (d : bytes) : bytes :=
  match f with
  | Direct => len d :: d
  | Pushdata1 => 76 :: len d :: d
  | Pushdata2 => 77 :: le_bytes 2 (len d) ++ d
  end.
Definition push_fits (f : form) (d : bytes) : Prop :=
  all_bytes d /\
  match f with
  | Direct => 1 <= len d <= 75
  | Pushdata1 => len d <= 255
  | Pushdata2 => len d <= 65535
  end.

(* a script is a sequence of opcodes and pushes *)
Inductive element := Op (c : Z) (name : str) | Push (f : form) (d : bytes).

Definition wire (e : element) : bytes := match e with Op c _ => [c] | Push f d => push f d end.
Definition text (e : element) : str := match e with Op _ n => n | Push _ d => hex d end.

(* the separator opcode is refused by the library *)
Definition element_ok (net_name : str) (e : element) : Prop :=
  match e with
  | Op c n => In (c, n) (opcodes_of net_name) /\ c <> 171
  | Push f d => push_fits f d
  end.

(* the form of smallest size, for data of 1 to 1000 bytes *)
Definition smallest (d : bytes) : form :=
  if len d <=? 75 then Direct else if len d <=? 255 then Pushdata1 else Pushdata2.
Definition standard_element (net_name : str) (e : element) : Prop :=
  match e with
  | Op c n => In (c, n) (opcodes_of net_name) /\ c <> 171
  | Push f d => all_bytes d /\ 1 <= len d <= 1000 /\ f = smallest d
  end.

(* the words of a text: maximal runs of characters other than white space *)
Inductive words : list str -> str -> Prop :=
| words_nil : forall s, Forall (fun c => py_space c = true) s -> words [] s
| words_cons : forall sep w rest ws, Forall (fun c => py_space c = true) sep ->
    w <> [] -> Forall (fun c => py_space c = false) w -> words ws rest ->
    (forall c t, rest = c :: t -> py_space c = true) ->
    words (w :: ws) (sep ++ w ++ rest).

(* the spellings of an element: its text, or an alias of its opcode *)
Definition spelled (t : str) (e : element) : Prop :=
  t = text e \/ match e with Op c _ => In (c, t) aliases | Push _ _ => False end.

(* a push opcode that announces more bytes than remain: the bytes from the
   opcode to the end of the script, and the data bytes that are there *)
Inductive overrun : form -> bytes -> bytes -> Prop :=
| overrun_direct : forall c d, 1 <= c <= 75 -> len d < c -> overrun Direct (c :: d) d
| overrun_pushdata1_nolength : overrun Pushdata1 [76] []
| overrun_pushdata1 : forall n d, 0 <= n < 256 -> len d < n -> overrun Pushdata1 (76 :: n :: d) d
| overrun_pushdata2_nolength : forall l, len l < 2 -> overrun Pushdata2 (77 :: l) []
| overrun_pushdata2 : forall n d, 0 <= n < 65536 -> len d < n -> overrun Pushdata2 (77 :: le_bytes 2 n ++ d) d.

(* bytes that are no opcode of the network *)
Definition unknown_opcode (net_name : str) (c : Z) : Prop :=
  0 <= c < 256 /\ (c = 0 \/ 79 <= c) /\ forall n, ~ In (c, n) (opcodes_of net_name).

(* the same script with each push in its smallest form, empty pushes dropped *)
Definition normal (e : element) : list element :=
  match e with
  | Op c n => [Op c n]
  | Push _ d => if len d =? 0 then [] else [Push (smallest d) d]
  end.
