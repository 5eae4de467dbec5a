(* What any text means as a script *)
From Coq Require Import String.
From Verif Require Import Py SNum SNet SScript.
Open Scope list_scope.
Open Scope Z_scope.

(* hexadecimal digits of either case, pairs may be separated by white space *)
Definition hex_digit (c v : Z) : Prop := 0 <= v < 10 /\ c = 48 + v \/ 10 <= v < 16 /\ (c = 87 + v \/ c = 55 + v).
Inductive hex_spelling : bytes -> str -> Prop :=
| hex_end : hex_spelling [] []
| hex_space : forall d c s, c = 32 \/ 9 <= c <= 13 -> hex_spelling d s -> hex_spelling d (c :: s)
| hex_pair : forall d s c h c' l, hex_digit c h -> hex_digit c' l -> hex_spelling d s -> hex_spelling (16 * h + l :: d) (c :: c' :: s).

(* names of the push opcodes, which stand for the bare byte *)
Definition push_names : list (Z * str) :=
  (76, lit "OP_PUSHDATA1") :: (77, lit "OP_PUSHDATA2") ::
  map (fun i => let n := Z.of_nat i in (n, lit "OP_PUSH_" ++ (if n <? 10 then [48 + n] else [48 + n / 10; 48 + n mod 10]))) (seq 1 75).
Definition opcode_word (net_name w : str) (c : Z) : Prop :=
  In (c, w) (opcodes_of net_name) /\ c <> 171 \/ In (c, w) aliases \/ In (c, w) push_names.
Definition refused_names : list str := [lit "OP_CODESEPARATOR"; lit "OP_PUSHDATA4"].

(* a word is the name of an opcode or data in hexadecimal *)
Definition word_bytes (net_name w : str) (b : bytes) : Prop :=
  (exists c, opcode_word net_name w c /\ b = [c]) \/
  (exists d, hex_spelling d w /\ 1 <= len d <= 1000 /\ b = push (smallest d) d).
Definition word_error (net_name w : str) (e : exn) : Prop :=
  (In w refused_names \/ exists d, hex_spelling d w /\ 1000 < len d) /\ e = NotImplementedError \/
  ~ In w refused_names /\ (forall c, ~ opcode_word net_name w c) /\ (forall d, ~ hex_spelling d w) /\ e = ValueError.
