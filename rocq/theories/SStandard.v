(* Bitcoin Core's relay policy and finality rule (policy/policy.cpp,
   script/standard.cpp, consensus/tx_verify.cpp) *)
From Coq Require Import String.
From Verif Require Import Py SNum SNet SHash SScript SAddr SParams STx MNet MTx.
Open Scope list_scope.
Open Scope Z_scope.

(* CScript::IsPushOnly: no opcode above OP_16 *)
Definition push_element (e : element) : Prop := match e with Push _ _ => True | Op c _ => c <= 96 end.
Definition push_only (net_name : str) (s : bytes) : Prop :=
  exists es, Forall (element_ok net_name) es /\ Forall push_element es /\ s = concat (map wire es).

(* TX_PUBKEY and TX_MULTISIG *)
Definition pubkey_size (k : bytes) : Prop := len k = 33 \/ len k = 65.
Definition pay_to_pubkey (key : bytes) : bytes := concat (map wire [Push Direct key; Op 172 (lit "OP_CHECKSIG")]).
Definition small_int (n : Z) : element := Op (80 + n) (nth (Z.to_nat (n + 1)) names_from_79 []).
Definition multisig (m : Z) (keys : list bytes) : bytes :=
  concat (map wire ([small_int m] ++ map (Push Direct) keys ++ [small_int (count keys); Op 174 (lit "OP_CHECKMULTISIG")])).

(* BIP141 *)
Definition weight (t : tx) : Z := 3 * len (wire_tx (stripped (the_tx t))) + len (wire_tx (the_tx t)).

(* IsFinalTx: the transaction may be in a block of this height whose
   predecessors have this median time *)
Definition final_at (t : transaction) (height time : Z) : Prop :=
  let lock := le_value (t_lock t) in
  lock = 0 \/ lock < (if lock <? 500000000 then height else time) \/
  Forall (fun i => in_sequence i = [255; 255; 255; 255]) (t_ins t).

(* A multisig script in which only the last character of the first word counts as
   the number of signatures *)
Definition loose_multisig (es : list element) : Prop :=
  exists first keys w d, es = first :: keys ++ [small_int (count keys); Op 174 (lit "OP_CHECKMULTISIG")] /\
    1 <= count keys <= 3 /\ Forall (fun e => exists f k, e = Push f k /\ pubkey_size k) keys /\
    text first = w ++ [48 + d] /\ 0 <= d <= 9 /\ d <= count keys.

(** * What the library makes of any script *)

(* the elements that deserialize shows: those of the script, and at the end the data
   that is there of an OP_PUSHDATA1 or OP_PUSHDATA2 that announces more *)
Definition reads_as (net_name : str) (s : bytes) (es : list element) : Prop :=
  Forall (element_ok net_name) es /\
  (s = concat (map wire es) \/
   exists before f d r, es = before ++ [Push f d] /\ s = concat (map wire before) ++ r /\ overrun f r d /\ f <> Direct /\ r <> [76]).
(* empty pushes leave no word *)
Definition shown (es : list element) : list element := filter (fun e => match text e with [] => false | _ => true end) es.

(* scripts that have an address, in the sense of C15 *)
Definition addressed (net_name : str) (s : bytes) : Prop :=
  exists k h, len h = hash_len k /\ looks_like k h s /\
    (is_witness_payment k = true -> In net_name segwit_names \/ exists p, cash_network net_name p).

(* the answer for a script without address, from its words *)
Definition CHECKSIG : element := Op 172 (lit "OP_CHECKSIG").
Definition CHECKMULTISIG : element := Op 174 (lit "OP_CHECKMULTISIG").
Definition pushes_key (e : element) : Prop := exists f k, e = Push f k /\ pubkey_size k.
Definition ends_in_digit (w : str) (d : Z) : Prop := 0 <= d <= 9 /\ exists v, w = v ++ [48 + d].
Inductive answer : list element -> res bool -> Prop :=
| answer_empty : answer [] (Err IndexError)
| answer_checksig : forall e, answer [e; CHECKSIG] (Err ValueError)
| answer_checkmultisig : answer [CHECKMULTISIG] (Err IndexError)
| answer_no_count : forall es e, (forall n, 1 <= n <= 3 -> e <> small_int n) -> answer (es ++ [e; CHECKMULTISIG]) (Ok false)
| answer_no_number : forall es n first rest, 1 <= n <= 3 -> es ++ [small_int n; CHECKMULTISIG] = first :: rest ->
    (forall d, ~ ends_in_digit (text first) d) -> answer (es ++ [small_int n; CHECKMULTISIG]) (Err ValueError)
| answer_mismatch : forall es n first rest d, 1 <= n <= 3 -> es ++ [small_int n; CHECKMULTISIG] = first :: rest ->
    ends_in_digit (text first) d -> n < d \/ count es <> n + 1 -> answer (es ++ [small_int n; CHECKMULTISIG]) (Ok false)
| answer_bad_key : forall first good bad more n d, 1 <= n <= 3 -> ends_in_digit (text first) d -> d <= n ->
    count (good ++ bad :: more) = n -> Forall pushes_key good -> ~ pushes_key bad ->
    answer (first :: (good ++ bad :: more) ++ [small_int n; CHECKMULTISIG]) (match bad with Op _ _ => Err ValueError | Push _ _ => Ok false end)
| answer_multisig : forall first keys n d, 1 <= n <= 3 -> ends_in_digit (text first) d -> d <= n ->
    count keys = n -> Forall pushes_key keys -> answer (first :: keys ++ [small_int n; CHECKMULTISIG]) (Ok true)
| answer_other : forall es e, e <> CHECKMULTISIG -> ~ (e = CHECKSIG /\ count es = 1) -> answer (es ++ [e]) (Ok false).

(* an output that check_is_standard accepts when it is the only one *)
Definition accepted_output (net_name : str) (value : Z) (s : bytes) : Prop :=
  (addressed net_name s \/ exists es, reads_as net_name s es /\ answer (shown es) (Ok true)) /\
  (550 <= value \/ firstn 2 s = [0; 20]) /\ ~ refused_script net_name s.
