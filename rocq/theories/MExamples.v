(* riemann/script/examples.py: templates of scripts, filled in with str.format.  A template
   is a function of the texts that are filled in; sapling_htlc_example.py has the same
   script with other stack templates. *)
From Coq Require Import String.
From Verif Require Import Py.
Open Scope list_scope.
Open Scope Z_scope.

(* examples.py:4 *)
Definition msig_two_two (pk0 pk1 : str) : str :=
  lit "OP_2 " ++ pk0 ++ lit " " ++ pk1 ++ lit " OP_2 OP_CHECKMULTISIG".

(* examples.py:7 *)
Definition msig_two_two_stack_script (sig0 sig1 : str) : str :=
  lit "OP_0 " ++ sig0 ++ lit " " ++ sig1.

(* examples.py:10 *)
Definition p2pkh_script_sig (sig pk : str) : str := sig ++ lit " " ++ pk.

(* examples.py:13 *)
Definition p2pkh_script_pubkey (pk : str) : str :=
  lit "OP_DUP OP_HASH160 " ++ pk ++ lit " OP_EQUALVERIFY OP_CHECKSIG".

(* examples.py:16 *)
Definition p2sh_script_pubkey (sh : str) : str := lit "OP_HASH160 " ++ sh ++ lit " OP_EQUAL".

(* examples.py:20 *)
Definition p2w (h : str) : str := lit "OP_0 " ++ h.

(* examples.py:23-32, sapling_htlc_example.py:9-18 *)
Definition htlc_redeem_script (secret_hash pkh0 timeout pkh1 : str) : str :=
  lit "OP_IF OP_SHA256 " ++ secret_hash ++ lit " OP_EQUALVERIFY OP_DUP OP_HASH160 " ++ pkh0
  ++ lit " OP_ELSE " ++ timeout ++ lit " OP_CHECKLOCKTIMEVERIFY OP_DROP OP_DUP OP_HASH160 " ++ pkh1
  ++ lit " OP_ENDIF OP_EQUALVERIFY OP_CHECKSIG".

(* examples.py:36 *)
Definition htlc_stack_script_execute (sig pk secret : str) : str :=
  sig ++ lit " " ++ pk ++ lit " " ++ secret ++ lit " OP_TRUE".

(* examples.py:40 *)
Definition htlc_stack_script_refund (sig pk : str) : str := sig ++ lit " " ++ pk ++ lit " OP_FALSE".

(* sapling_htlc_example.py:23 *)
Definition sapling_stack_script_execute (sig pk secret : str) : str :=
  sig ++ lit " " ++ pk ++ lit " " ++ secret ++ lit " OP_1".

(* sapling_htlc_example.py:28 *)
Definition sapling_stack_script_refund (sig pk : str) : str := sig ++ lit " " ++ pk ++ lit " OP_0".
