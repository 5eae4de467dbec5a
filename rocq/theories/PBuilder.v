(* C39, C40, C41, C49, C54: tx_builder.py and simple.py.  [template],
   [address_for], [key_hash] are in SAddr.v; [push], [smallest], [standard_element],
   [spelled], [words] in SScript.v; [the_input], [the_output], [the_tx] in STx.v;
   [overwinter_rules], [sapling_rules] in SZcash.v. *)
From Coq Require Import String.
From Verif Require Import Py SNum SNet SHash SScript SBech32 SAddr MNet MUtils MShared MScript MTx MZcash MDecred MBase58 MBech32 MCashaddr MAddr MBuilder
  STx SZcash SDecred LBase LUtils LNet LScript LTx LTxParse LAddr LBuilder LBuilderTx PTx.
Open Scope list_scope.
Open Scope Z_scope.

(** * C39 *)

(* C39, full statement: on every network the output exists, has value zero and a
   script of OP_RETURN and one push of the data.  Missing: Decred, where the
   output cannot be built (below), and empty data, which reads back as OP_0. *)
Theorem op_return_output_partial : forall name net data, get_network name = Ok net -> ~ In name decred_names ->
  all_bytes data -> len data <= 77 ->
  exists o, make_op_return_output net data = Ok (AnyOut o) /\ txout_obj o /\
    the_output o = {| out_value := le_bytes 8 0; out_script := 0x6a :: push (if len data <=? 75 then Direct else Pushdata1) data |} /\
    (1 <= len data -> deserialize net (out_script (the_output o)) = Ok (lit "OP_RETURN " ++ hex data)).
Proof.
  intros name net data En N B L. destruct (op_return_plain name net En data N B L) as [o [E [O V]]].
  exists o. split; [exact E|]. split; [exact O|]. split; [exact V|]. intros L1. rewrite V. apply (op_return_text name net En); [exact B|split; assumption].
Qed.
Print Assumptions op_return_output_partial.
Theorem op_return_output_empty : forall name net, get_network name = Ok net -> deserialize net (0x6a :: push Direct []) = Ok (lit "OP_RETURN OP_0").
Proof.
  intros name net En. pose proof (deserialize_wires name net [Op 0x6a (lit "OP_RETURN"); Op 0 (lit "OP_0")] En) as D.
  change (0x6a :: push Direct []) with [106; 0]. cbn [map wire text concat app] in D. rewrite D; [reflexivity|].
  constructor; [split; [apply return_in|lia]|]. constructor; [|constructor]. split; [|lia].
  apply zero_in.
Qed.
Print Assumptions op_return_output_empty.
Theorem op_return_output_long : forall net data, 77 < len data -> make_op_return_output net data = Err ValueError.
Proof. intros net data L. unfold make_op_return_output. change (len data) with (zlen data) in L. destruct (Z.ltb_spec 77 (zlen data)); [reflexivity|lia]. Qed.
Print Assumptions op_return_output_long.
(* on Decred no data works *)
Theorem op_return_output_decred_refuted : forall name net data, get_network name = Ok net -> In name decred_names ->
  make_op_return_output net data = Err ValueError.
Proof.
  intros name net data En I. unfold make_op_return_output. destruct (77 <? zlen data); [reflexivity|]. cbv [guard]. cbn [bind].
  rewrite padded8, word_Ok by (cbn; lia). cbn [bind]. apply (make_output_decred name net En _ _ I).
Qed.
Print Assumptions op_return_output_decred_refuted.
Example op_return_output_ex :
  (exists o, make_op_return_output BitcoinMain [1; 2; 3] = Ok (AnyOut o) /\ to_bytes_ o = [0; 0; 0; 0; 0; 0; 0; 0; 5; 0x6a; 3; 1; 2; 3]) /\
  (exists o, make_op_return_output BitcoinMain (repeat 9 77) = Ok (AnyOut o) /\ out_script (the_output o) = 0x6a :: 0x4c :: 77 :: repeat 9 77) /\
  make_op_return_output BitcoinMain (repeat 9 78) = Err ValueError /\
  In (lit "decred_main") decred_names /\ get_network (lit "decred_main") = Ok DecredMain.
Proof.
  split; [eexists; split; vm_compute; reflexivity|]. split; [eexists; split; vm_compute; reflexivity|].
  split; [vm_compute; reflexivity|]. split; [left; reflexivity|vm_compute; reflexivity].
Qed.

(** * C40 *)

(* C40: scripts *)
Theorem make_p2pkh_output_script_template : forall H name net pubkey, get_network name = Ok net ->
  make_p2pkh_output_script H net pubkey = Ok (template P2PKH (key_hash H name pubkey)).
Proof. intros H name net pk En. apply (pkh_script_Ok H name net En pk false). discriminate. Qed.
Print Assumptions make_p2pkh_output_script_template.
Theorem make_p2wpkh_output_script_template : forall H name net pubkey, get_network name = Ok net ->
  (In name segwit_names -> make_p2wpkh_output_script H net pubkey = Ok (template P2WPKH (key_hash H name pubkey))) /\
  (~ In name segwit_names -> make_p2wpkh_output_script H net pubkey = Err ValueError).
Proof.
  intros H name net pk En. split; intros I; [apply (pkh_script_Ok H name net En pk true); intros _; exact I|apply (pkh_script_Err H name net En pk I)].
Qed.
Print Assumptions make_p2wpkh_output_script_template.
Theorem make_p2sh_output_script_template : forall H name net script, get_network name = Ok net ->
  make_p2sh_output_script H net script =
  match serialize net script with Ok b => Ok (template P2SH (key_hash H name b)) | Err e => Err e end.
Proof.
  intros H name net s En. destruct (serialize net s) as [b|e] eqn:E.
  - apply (sh_script_Ok H name net En s b false); [discriminate|exact E].
  - apply (sh_script_bad H name net En s false e); [discriminate|exact E].
Qed.
Print Assumptions make_p2sh_output_script_template.
Theorem make_p2wsh_output_script_template : forall H name net script, get_network name = Ok net ->
  (In name segwit_names -> make_p2wsh_output_script H net script =
     match serialize net script with Ok b => Ok (template P2WSH (h_sha256 H b)) | Err e => Err e end) /\
  (~ In name segwit_names -> make_p2wsh_output_script H net script = Err ValueError).
Proof.
  intros H name net s En. split; intros I; [|apply (sh_script_Err H name net En s I)]. destruct (serialize net s) as [b|e] eqn:E.
  - apply (sh_script_Ok H name net En s b true); [intros _; exact I|exact E].
  - apply (sh_script_bad H name net En s true e); [intros _; exact I|exact E].
Qed.
Print Assumptions make_p2wsh_output_script_template.
Example output_script_ex :
  make_p2pkh_output_script toy BitcoinMain [2; 3] = Ok ([0x76; 0xa9; 20] ++ h_rmd160 toy (h_sha256 toy [2; 3]) ++ [0x88; 0xac]) /\
  make_p2pkh_output_script toy DecredMain [2; 3] = Ok ([0x76; 0xa9; 20] ++ h_rmd160 toy (h_blake256 toy [2; 3]) ++ [0x88; 0xac]) /\
  make_p2wsh_output_script toy BitcoinMain (lit "OP_1 OP_EQUAL") = Ok ([0; 32] ++ h_sha256 toy [0x51; 0x87]) /\
  make_p2wpkh_output_script toy DogecoinMain [2; 3] = Err ValueError /\
  In (lit "bitcoin_main") segwit_names.
Proof. split; [vm_compute; reflexivity|]. split; [vm_compute; reflexivity|]. split; [vm_compute; reflexivity|]. split; [vm_compute; reflexivity|left; reflexivity]. Qed.

(* C40: agreement with the addresses of the same keys and scripts *)
Theorem p2pkh_address_agrees : forall H name net pubkey cashaddr, hashes_ok H -> get_network name = Ok net ->
  exists s, make_pkh_address H net pubkey false cashaddr = Ok (Some s) /\ to_output_script H net s = make_p2pkh_output_script H net pubkey.
Proof.
  intros H name net pk ca K En. destruct (pkh_agrees H name net En pk false ca K) as [s [E [_ [X|[_ [X _]]]]]]; [discriminate| |discriminate]. eauto.
Qed.
Print Assumptions p2pkh_address_agrees.
Theorem p2sh_address_agrees : forall H name net script b cashaddr, hashes_ok H -> get_network name = Ok net -> serialize net script = Ok b ->
  exists s, make_sh_address H net script false cashaddr = Ok (Some s) /\ to_output_script H net s = make_p2sh_output_script H net script.
Proof.
  intros H name net t b ca K En Es. destruct (sh_agrees H name net En t b false ca K) as [s [E [_ [X|[_ [X _]]]]]]; try discriminate; [exact Es|]. eauto.
Qed.
Print Assumptions p2sh_address_agrees.
(* C40, full statement: the same for witness payments.  Missing: bech32 addresses
   that are also Base58Check texts by accident (see C13). *)
Theorem p2wpkh_address_agrees_partial : forall H name net pubkey cashaddr, hashes_ok H -> get_network name = Ok net -> In name segwit_names ->
  exists s, make_pkh_address H net pubkey true cashaddr = Ok (Some s) /\
    (to_output_script H net s = make_p2wpkh_output_script H net pubkey \/
     (to_output_script H net s = Err ValueError /\
      exists hrp p, BECH32_HRP net = Some hrp /\ segwit_address hrp 0 (key_hash H name pubkey) s /\ base58check_of H name p s)).
Proof.
  intros H name net pk ca K En I. destruct (pkh_agrees H name net En pk true ca K (fun _ => I)) as [s [E [_ [X|[X [_ Y]]]]]]; exists s; auto.
Qed.
Print Assumptions p2wpkh_address_agrees_partial.
Theorem p2wsh_address_agrees_partial : forall H name net script b cashaddr, hashes_ok H -> get_network name = Ok net -> In name segwit_names ->
  serialize net script = Ok b ->
  exists s, make_sh_address H net script true cashaddr = Ok (Some s) /\
    (to_output_script H net s = make_p2wsh_output_script H net script \/
     (to_output_script H net s = Err ValueError /\
      exists hrp p, BECH32_HRP net = Some hrp /\ segwit_address hrp 0 (h_sha256 H b) s /\ base58check_of H name p s)).
Proof.
  intros H name net t b ca K En I Es. destruct (sh_agrees H name net En t b true ca K (fun _ => I) Es) as [s [E [_ [X|[X [_ Y]]]]]]; exists s; auto.
Qed.
Print Assumptions p2wsh_address_agrees_partial.
Example address_agrees_ex :
  let agree net (a : res (option str)) (b : res bytes) := (s <- a ;; match s with Some s => to_output_script toy net s | None => Err TypeError end) = b in
  agree BitcoinMain (make_p2wpkh_address toy BitcoinMain [2; 3]) (make_p2wpkh_output_script toy BitcoinMain [2; 3]) /\
  agree BitcoinMain (make_p2wsh_address toy BitcoinMain (lit "OP_1")) (make_p2wsh_output_script toy BitcoinMain (lit "OP_1")) /\
  agree BitcoinCashMain (make_p2pkh_address toy BitcoinCashMain [2; 3]) (make_p2pkh_output_script toy BitcoinCashMain [2; 3]) /\
  agree DecredMain (make_p2sh_address toy DecredMain (lit "OP_1")) (make_p2sh_output_script toy DecredMain (lit "OP_1")).
Proof. vm_compute. repeat split; reflexivity. Qed.
(* C40 fails for witness payments on Bitcoin Cash: there is no such output
   script, but there is an address, the one of the payment without witness *)
Theorem bitcoin_cash_witness_address_refuted : forall H pubkey,
  make_p2wpkh_output_script H BitcoinCashMain pubkey = Err ValueError /\
  make_p2wpkh_address H BitcoinCashMain pubkey = make_p2pkh_address H BitcoinCashMain pubkey /\
  (hashes_ok H -> exists s, make_p2wpkh_address H BitcoinCashMain pubkey = Ok (Some s)).
Proof.
  intros H pk. split; [reflexivity|]. split; [reflexivity|]. intros K.
  destruct (p2pkh_address_agrees H (lit "bitcoin_cash_main") BitcoinCashMain pk true K eq_refl) as [s [E _]]. exists s. exact E.
Qed.
Print Assumptions bitcoin_cash_witness_address_refuted.

(* C40: outputs carry the value in eight bytes, little endian, and the script *)
Theorem make_pkh_output_exact : forall H name net value pubkey, hashes_ok H -> get_network name = Ok net ->
  (~ 0 <= value < 2 ^ 64 -> make_p2pkh_output H net value pubkey = Err OverflowError /\ make_p2wpkh_output H net value pubkey = Err OverflowError) /\
  (0 <= value < 2 ^ 64 -> ~ In name decred_names ->
    (exists o, make_p2pkh_output H net value pubkey = Ok (AnyOut o) /\ txout_obj o /\
       the_output o = {| out_value := le_bytes 8 value; out_script := template P2PKH (key_hash H name pubkey) |}) /\
    (In name segwit_names -> exists o, make_p2wpkh_output H net value pubkey = Ok (AnyOut o) /\ txout_obj o /\
       the_output o = {| out_value := le_bytes 8 value; out_script := template P2WPKH (key_hash H name pubkey) |})).
Proof.
  intros H name net v pk K En. split; [intros R|intros R N; split; [|intros I]].
  - split; apply (outputs_overflow H net v pk [] _ R).
  - apply (pkh_output_Ok H name net En v pk false K N); [discriminate|exact R].
  - apply (pkh_output_Ok H name net En v pk true K N); [intros _; exact I|exact R].
Qed.
Print Assumptions make_pkh_output_exact.
Theorem make_sh_output_exact : forall H name net value script b, hashes_ok H -> get_network name = Ok net -> serialize net script = Ok b ->
  (~ 0 <= value < 2 ^ 64 -> make_p2sh_output H net value script = Err OverflowError /\ make_p2wsh_output H net value script = Err OverflowError) /\
  (0 <= value < 2 ^ 64 -> ~ In name decred_names ->
    (exists o, make_p2sh_output H net value script = Ok (AnyOut o) /\ txout_obj o /\
       the_output o = {| out_value := le_bytes 8 value; out_script := template P2SH (key_hash H name b) |}) /\
    (In name segwit_names -> exists o, make_p2wsh_output H net value script = Ok (AnyOut o) /\ txout_obj o /\
       the_output o = {| out_value := le_bytes 8 value; out_script := template P2WSH (h_sha256 H b) |})).
Proof.
  intros H name net v t b K En Es. split; [intros R|intros R N; split; [|intros I]].
  - split; apply (outputs_overflow H net v [] t _ R).
  - apply (sh_output_Ok H name net En v t b false K N); [discriminate|exact R|exact Es].
  - apply (sh_output_Ok H name net En v t b true K N); [intros _; exact I|exact R|exact Es].
Qed.
Print Assumptions make_sh_output_exact.
Example make_output_ex :
  (exists o, make_p2wpkh_output toy BitcoinMain 258 [2; 3] = Ok (AnyOut o) /\
     to_bytes_ o = [2; 1; 0; 0; 0; 0; 0; 0; 22; 0; 20] ++ h_rmd160 toy (h_sha256 toy [2; 3])) /\
  make_p2sh_output toy BitcoinMain (2 ^ 64) (lit "OP_1") = Err OverflowError.
Proof. split; [eexists; split; vm_compute; reflexivity|vm_compute; reflexivity]. Qed.
(* on Decred no output can be built *)
Theorem make_pkh_output_decred_refuted : forall H name net value pubkey, get_network name = Ok net -> In name decred_names -> 0 <= value < 2 ^ 64 ->
  make_p2pkh_output H net value pubkey = Err ValueError.
Proof. intros H name net v pk En I R. apply (outputs_decred H name net En v pk false I R). discriminate. Qed.
Print Assumptions make_pkh_output_decred_refuted.

(** * C49 *)

(* C49, full statement: for every stack script and redeem script the script sig
   is that of the stack followed by one push of the serialized redeem script.
   Missing: an empty redeem script (nothing is pushed) and redeem scripts of more
   than 1000 bytes (refused). *)
Theorem make_script_sig_exact_partial : forall name net stack redeem, get_network name = Ok net ->
  make_script_sig net stack redeem =
  match serialize net redeem with
  | Err e => Err e
  | Ok b => match serialize net stack with
            | Err e => Err e
            | Ok s => if len b =? 0 then Ok s else if len b <=? 1000 then Ok (s ++ push (smallest b) b) else Err NotImplementedError
            end
  end.
Proof. intros name net stack redeem En. exact (script_sig_exact name net En stack redeem). Qed.
Print Assumptions make_script_sig_exact_partial.
Theorem make_script_sig_text_partial : forall name net ts es stack redeem b, get_network name = Ok net ->
  Forall (standard_element name) es -> Forall2 spelled ts es -> words ts stack ->
  serialize net redeem = Ok b -> 1 <= len b <= 1000 ->
  exists sig, make_script_sig net stack redeem = Ok sig /\ sig = concat (map wire (es ++ [Push (smallest b) b])) /\
    deserialize net sig = Ok (join (lit " ") (map text es ++ [hex b])).
Proof.
  intros name net ts es stack redeem b En F Sp W Er L. destruct (script_sig_text name net En ts es stack redeem b F Sp W Er L) as [_ [E D]]. eauto.
Qed.
Print Assumptions make_script_sig_text_partial.
Example make_script_sig_ex :
  make_script_sig BitcoinMain (lit "aabb OP_1") (lit "OP_2 OP_CHECKSIG") = Ok [2; 170; 187; 0x51; 2; 0x52; 0xac] /\
  deserialize BitcoinMain [2; 170; 187; 0x51; 2; 0x52; 0xac] = Ok (lit "aabb OP_1 52ac").
Proof. split; reflexivity. Qed.
Theorem make_script_sig_empty_refuted : make_script_sig BitcoinMain (lit "OP_1") [] = Ok [0x51].
Proof. reflexivity. Qed.
Print Assumptions make_script_sig_empty_refuted.

(* C49: an input with such a script sig is separated again when it is parsed,
   if the redeem script itself can be turned into text *)
Theorem script_sig_separated : forall name net ts es stack redeem b sig i rest, get_network name = Ok net ->
  Forall (standard_element name) es -> Forall2 spelled ts es -> words ts stack ->
  serialize net redeem = Ok b -> 1 <= len b <= 1000 -> make_script_sig net stack redeem = Ok sig ->
  txin_obj i -> ti_script_sig i = sig -> readable_size name (len sig) -> ~ coinbase_input (the_input i) -> ~ refused_script name b ->
  exists i', TxIn_from_bytes net (ti_bytes i ++ rest) = Ok i' /\
    serialize net stack = Ok (ti_stack_script i') /\ ti_redeem_script i' = push (smallest b) b.
Proof.
  intros name net ts es stack redeem b sig i rest En F Sp W Er L Es O Ei R C NR.
  destruct (script_sig_text name net En ts es stack redeem b F Sp W Er L) as [F' [E _]]. rewrite E in Es. apply Ok_inj in Es. subst sig.
  destruct (input_split name net i es (Push (smallest b) b) rest En O) as [i' [P [_ X]]]; try assumption; [rewrite Ei; exact R|].
  destruct (X NR) as [X1 X2]. exists i'. split; [exact P|]. split; [|exact X2]. rewrite X1. apply (c17 name net ts es stack En F Sp W).
Qed.
Print Assumptions script_sig_separated.
(* C49 fails for make_legacy_input: the redeem script is appended as it is, not
   as a push; with a script sig made beforehand the input is the one above *)
Theorem make_legacy_input_exact : forall name net o stack redeem sequence, get_network name = Ok net -> ~ In name decred_names -> outpoint_obj o ->
  (0 <= sequence < 2 ^ 32 -> len stack + len redeem <= 1650 ->
   exists i, make_legacy_input net (AnyOutpoint o) stack redeem sequence = Ok (AnyIn i) /\ txin_obj i /\
     ti_stack_script i = stack /\ ti_redeem_script i = redeem /\
     the_input i = {| in_txid := op_tx_id o; in_index := op_index o; in_script := stack ++ redeem; in_sequence := le_bytes 4 sequence |}) /\
  (0 <= sequence < 2 ^ 32 -> 1650 < len stack + len redeem -> make_legacy_input net (AnyOutpoint o) stack redeem sequence = Err ValueError) /\
  (~ 0 <= sequence < 2 ^ 32 -> make_legacy_input net (AnyOutpoint o) stack redeem sequence = Err OverflowError).
Proof.
  intros name net o stack redeem q En N O. split; [|split].
  - intros R L. exact (input_plain name net En o stack redeem q N O R L).
  - intros R L. exact (input_long name net En (AnyOutpoint o) stack redeem q N L R).
  - intros R. apply (input_overflow net (AnyOutpoint o) stack redeem q R).
Qed.
Print Assumptions make_legacy_input_exact.
Theorem make_legacy_input_refuted : exists o i, make_legacy_input BitcoinMain (AnyOutpoint o) [0x51] [0x52; 0xac] 0 = Ok (AnyIn i) /\ outpoint_obj o /\
  ti_script_sig i = [0x51; 0x52; 0xac] /\ deserialize BitcoinMain (ti_script_sig i) = Ok (lit "OP_1 OP_2 OP_CHECKSIG").
Proof.
  exists (ti_outpoint ex_input). eexists. split; [vm_compute; reflexivity|]. split; [vm_compute; reflexivity|]. split; vm_compute; reflexivity.
Qed.
Print Assumptions make_legacy_input_refuted.

(** * C41 *)

(* C41: outpoints take the displayed (reversed) transaction id *)
Theorem simple_outpoint_fields : forall name net b index tree, get_network name = Ok net -> all_bytes b -> len b = 32 -> 0 <= index < 2 ^ 32 ->
  (~ In name decred_names ->
   exists o, simple_outpoint net (hex b) index tree = Ok (AnyOutpoint o) /\ outpoint_obj o /\ op_tx_id o = rev b /\ op_index o = le_bytes 4 index) /\
  (In name decred_names -> match tree with Some t => 0 <= t < 256 | None => True end ->
   exists o, simple_outpoint net (hex b) index tree = Ok (AnyDecredOutpoint o) /\ doutpoint_obj net o /\
     dop_tx_id o = rev b /\ dop_index o = le_bytes 4 index /\ dop_tree o = [match tree with Some t => t | None => 0 end]).
Proof.
  intros name net b index tree En B L R. apply all_bytes_is_bytes in B. split.
  - intros N. exact (outpoint_plain name net En b index tree N B L R).
  - intros I T. exact (outpoint_decred name net En b index tree I B L R T).
Qed.
Print Assumptions simple_outpoint_fields.
Theorem simple_outpoint_errors : forall name net b index tree, get_network name = Ok net -> all_bytes b ->
  match tree with Some t => 0 <= t < 256 | None => True end ->
  (~ 0 <= index < 2 ^ 32 -> simple_outpoint net (hex b) index tree = Err OverflowError) /\
  (0 <= index < 2 ^ 32 -> len b <> 32 -> simple_outpoint net (hex b) index tree = Err ValueError).
Proof.
  intros name net b index tree En B T. apply all_bytes_is_bytes in B. split.
  - intros R. exact (outpoint_overflow net b index tree B R T).
  - intros R L. exact (outpoint_bad name net En b index tree B L R T).
Qed.
Print Assumptions simple_outpoint_errors.
Example simple_outpoint_ex :
  let id := map Z.of_nat (seq 1 32) in
  (exists o, simple_outpoint BitcoinMain (hex id) 258 None = Ok (AnyOutpoint o) /\ op_bytes o = rev id ++ [2; 1; 0; 0]) /\
  (exists o, simple_outpoint DecredMain (hex id) 258 (Some 1) = Ok (AnyDecredOutpoint o) /\ dop_bytes o = rev id ++ [2; 1; 0; 0; 1]) /\
  simple_outpoint BitcoinMain (lit "aabb") 0 None = Err ValueError.
Proof. split; [eexists; split; vm_compute; reflexivity|]. split; [eexists; split; vm_compute; reflexivity|vm_compute; reflexivity]. Qed.

(* C41: inputs are empty, with sequence 0xFFFFFFFE unless given *)
Theorem simple_unsigned_input_fields : forall name net o sequence, get_network name = Ok net -> ~ In name decred_names -> outpoint_obj o ->
  let q := match sequence with Some q => q | None => 0xFFFFFFFE end in
  (0 <= q < 2 ^ 32 -> exists i, simple_unsigned_input net (AnyOutpoint o) sequence = Ok (AnyIn i) /\ txin_obj i /\
     ti_stack_script i = [] /\ ti_redeem_script i = [] /\
     the_input i = {| in_txid := op_tx_id o; in_index := op_index o; in_script := []; in_sequence := le_bytes 4 q |}) /\
  (~ 0 <= q < 2 ^ 32 -> simple_unsigned_input net (AnyOutpoint o) sequence = Err OverflowError).
Proof.
  intros name net o q0 En N O q. unfold simple_unsigned_input. replace (or_self q0 0xFFFFFFFE) with q by (destruct q0; reflexivity). split.
  - intros R. apply (input_plain name net En o [] [] q N O R). cbn. lia.
  - intros R. apply (input_overflow net (AnyOutpoint o) [] [] q R).
Qed.
Print Assumptions simple_unsigned_input_fields.
Theorem simple_unsigned_input_decred_fields : forall name net o sequence, get_network name = Ok net -> In name decred_names -> doutpoint_obj net o ->
  let q := match sequence with Some q => q | None => 0xFFFFFFFE end in
  0 <= q < 2 ^ 32 -> exists i, simple_unsigned_input net (AnyDecredOutpoint o) sequence = Ok (AnyDecredIn i) /\ dtxin_obj net i /\
    dti_outpoint i = o /\ dti_sequence i = le_bytes 4 q.
Proof.
  intros name net o q0 En I O q R. unfold simple_unsigned_input. replace (or_self q0 0xFFFFFFFE) with q by (destruct q0; reflexivity).
  exact (input_decred name net En o [] [] q I O R).
Qed.
Print Assumptions simple_unsigned_input_decred_fields.
Example simple_unsigned_input_ex : exists i, simple_unsigned_input BitcoinMain (AnyOutpoint (ti_outpoint ex_input)) None = Ok (AnyIn i) /\
  ti_bytes i = repeat 7 32 ++ [1; 0; 0; 0] ++ [0] ++ [0xfe; 0xff; 0xff; 0xff].
Proof. eexists. split; vm_compute; reflexivity. Qed.

(* C41: outputs pay the value to the address *)
Theorem simple_output_fields_partial : forall H name net k h s value, hashes_ok H -> get_network name = Ok net -> ~ In name decred_names ->
  all_bytes h -> len h = hash_len k -> address_for H name net k h s -> 0 <= value < 2 ^ 64 ->
  (exists o, simple_output H net value s = Ok (AnyOut o) /\ txout_obj o /\
     the_output o = {| out_value := le_bytes 8 value; out_script := template k h |}) \/
  (simple_output H net value s = Err ValueError /\ is_witness_payment k = true /\
   exists hrp p, BECH32_HRP net = Some hrp /\ segwit_address hrp 0 h s /\ base58check_of H name p s).
Proof. exact simple_output_pays. Qed.
Print Assumptions simple_output_fields_partial.
Theorem simple_output_by_script : forall H name net s value, hashes_ok H -> get_network name = Ok net ->
  match to_output_script H net s with
  | Err e => simple_output H net value s = Err e
  | Ok script =>
      (~ 0 <= value < 2 ^ 64 -> simple_output H net value s = Err OverflowError) /\
      (0 <= value < 2 ^ 64 -> In name decred_names -> simple_output H net value s = Err ValueError) /\
      (0 <= value < 2 ^ 64 -> ~ In name decred_names ->
        exists o, simple_output H net value s = Ok (AnyOut o) /\ txout_obj o /\ the_output o = {| out_value := le_bytes 8 value; out_script := script |})
  end.
Proof. exact simple_output_exact. Qed.
Print Assumptions simple_output_by_script.
Example simple_output_ex : exists o, simple_output toy BitcoinMain 258 (lit "bc1qw508d6qejxtdg4y5r3zarvary0c5xw7kv8f3t4") = Ok (AnyOut o) /\
  to_bytes_ o = [2; 1; 0; 0; 0; 0; 0; 0; 22; 0; 20; 0x75; 0x1e; 0x76; 0xe8; 0x19; 0x91; 0x96; 0xd4; 0x54; 0x94; 0x1c; 0x45; 0xd1; 0xb3; 0xa3; 0x23; 0xf1; 0x43; 0x3b; 0xd6].
Proof. eexists. split; vm_compute; reflexivity. Qed.

(* C41: transactions.  [version] is 2 and the lock time 0 unless given *)
Theorem simple_unsigned_legacy_tx_fields_partial : forall H name net ins outs version lock expiry pk sg, get_network name = Ok net ->
  ~ In name decred_names -> ~ In name zcash_names ->
  let v := match version with Some v => v | None => 2 end in
  let l := match lock with Some l => l | None => 0 end in
  0 <= v < 2 ^ 32 -> 0 <= l < 2 ^ 32 -> Forall txin_obj ins -> Forall txout_obj outs ->
  1 <= count ins < 2 ^ 64 -> 1 <= count outs < 2 ^ 64 ->
  exists t, simple_unsigned_legacy_tx H net (map AnyIn ins) (map AnyOut outs) version lock expiry None pk sg = Ok (AnyTx t) /\ tx_obj H net t /\
    the_tx t = {| t_version := le_bytes 4 v; t_ins := map the_input ins; t_outs := map the_output outs; t_witness := None; t_lock := le_bytes 4 l |}.
Proof. intros H name net ins outs v lock ex pk sg En. exact (legacy_plain H name net En ins outs v lock ex pk sg). Qed.
Print Assumptions simple_unsigned_legacy_tx_fields_partial.
Theorem simple_unsigned_legacy_tx_overwinter_fields : forall H name net ins outs version lock expiry pk sg, get_network name = Ok net ->
  In name overwinter_names ->
  let l := match lock with Some l => l | None => 0 end in
  let e := match expiry with Some e => e | None => 0 end in
  0 <= l < 2 ^ 32 -> 0 <= e < 2 ^ 32 -> Forall txin_obj ins -> Forall txout_obj outs ->
  overwinter_rules name ins outs (le_bytes 4 l) (le_bytes 4 e) [] None None ->
  exists t, simple_unsigned_legacy_tx H net (map AnyIn ins) (map AnyOut outs) version lock expiry None pk sg = Ok (AnyOverwinterTx t) /\ overwinter_obj H net t /\
    ow_tx_ins t = ins /\ ow_tx_outs t = outs /\ ow_lock_time t = le_bytes 4 l /\ ow_expiry_height t = le_bytes 4 e /\ ow_tx_joinsplits t = [].
Proof. intros H name net ins outs v lock ex pk sg En. exact (legacy_overwinter H name net En ins outs v lock ex pk sg). Qed.
Print Assumptions simple_unsigned_legacy_tx_overwinter_fields.
Theorem simple_unsigned_witness_tx_fields_partial : forall H name net ins outs version lock, get_network name = Ok net ->
  ~ In name decred_names -> ~ In name overwinter_names -> ~ In name sapling_names ->
  let v := match version with Some v => v | None => 2 end in
  let l := match lock with Some l => l | None => 0 end in
  0 <= v < 2 ^ 32 -> 0 <= l < 2 ^ 32 -> Forall txin_obj ins -> Forall txout_obj outs ->
  1 <= count ins < 2 ^ 64 -> 1 <= count outs < 2 ^ 64 ->
  exists t, simple_unsigned_witness_tx H net (map AnyIn ins) (map AnyOut outs) version lock = Ok (AnyTx t) /\ tx_obj H net t /\
    the_tx t = {| t_version := le_bytes 4 v; t_ins := map the_input ins; t_outs := map the_output outs; t_witness := Some (map (fun _ => []) ins); t_lock := le_bytes 4 l |}.
Proof. intros H name net ins outs v lock En. exact (witness_plain H name net En ins outs v lock). Qed.
Print Assumptions simple_unsigned_witness_tx_fields_partial.
Example simple_unsigned_tx_ex :
  (exists t, simple_unsigned_legacy_tx toy BitcoinMain [AnyIn ex_input] [AnyOut ex_output] None (Some 258) None None None None = Ok (AnyTx t) /\
     tx_bytes t = [2; 0; 0; 0; 1] ++ ti_bytes ex_input ++ [1] ++ to_bytes_ ex_output ++ [2; 1; 0; 0]) /\
  (exists t, simple_unsigned_witness_tx toy BitcoinMain [AnyIn ex_input] [AnyOut ex_output] (Some 1) None = Ok (AnyTx t) /\
     tx_bytes t = [1; 0; 0; 0; 0; 1; 1] ++ ti_bytes ex_input ++ [1] ++ to_bytes_ ex_output ++ [0] ++ [0; 0; 0; 0]) /\
  (exists t, simple_unsigned_legacy_tx toy ZcashOverwinterMain [AnyIn ex_input] [AnyOut ex_output] None None (Some 7) None None None = Ok (AnyOverwinterTx t) /\
     ow_expiry_height t = [7; 0; 0; 0]) /\
  txin_obj ex_input /\ txout_obj ex_output.
Proof.
  split; [eexists; split; vm_compute; reflexivity|]. split; [eexists; split; vm_compute; reflexivity|]. split; [eexists; split; vm_compute; reflexivity|].
  split; [split; vm_compute; reflexivity|vm_compute; reflexivity].
Qed.
(* C41 fails on other networks: whatever the arguments, there is no transaction *)
Theorem simple_unsigned_legacy_tx_refuted : forall H name net ins outs version lock expiry js pk sg, get_network name = Ok net ->
  In name decred_names \/ In name sprout_names \/ In name sapling_names ->
  exists e, simple_unsigned_legacy_tx H net ins outs version lock expiry js pk sg = Err e.
Proof. intros H name net ins outs v lock ex js pk sg En. exact (legacy_none H name net En ins outs v lock ex js pk sg). Qed.
Print Assumptions simple_unsigned_legacy_tx_refuted.
Theorem simple_unsigned_witness_tx_refuted : forall H name net ins outs version lock, get_network name = Ok net ->
  In name decred_names \/ In name overwinter_names \/ In name sapling_names ->
  exists e, simple_unsigned_witness_tx H net ins outs version lock = Err e.
Proof. intros H name net ins outs v lock En. exact (witness_none H name net En ins outs v lock). Qed.
Print Assumptions simple_unsigned_witness_tx_refuted.

(* C41: make_tx, with witnesses *)
Theorem make_tx_fields : forall H name net v ins outs lock expiry vb sp so (ws : option (list witness)) js pk sg bs,
  get_network name = Ok net -> ~ In name decred_names -> ~ In name zcash_names ->
  0 <= v < 2 ^ 32 -> 0 <= lock < 2 ^ 32 -> Forall txin_obj ins -> Forall txout_obj outs ->
  match ws with Some l => Forall witness_obj l /\ count l = count ins | None => True end ->
  1 <= count ins < 2 ^ 64 -> 1 <= count outs < 2 ^ 64 ->
  exists t, make_tx H net v (map AnyIn ins) (map AnyOut outs) lock expiry vb sp so (match ws with Some l => Wits l | None => NoWits end) js pk sg bs = Ok (AnyTx t) /\
    tx_obj H net t /\
    the_tx t = {| t_version := le_bytes 4 v; t_ins := map the_input ins; t_outs := map the_output outs;
                  t_witness := match ws with Some l => Some (map the_stack l) | None => None end; t_lock := le_bytes 4 lock |}.
Proof.
  intros H name net v ins outs lock ex vb sp so ws js pk sg bs En N Z Rv Rl Fi Fo W Ci Co. destruct (zcash_parts name Z) as [Z1 [Z2 Z3]].
  apply (make_tx_plain H name net En); try assumption.
  - split; [exact N|]. split; [exact Z2|]. split; [exact Z3|]. contradiction.
  - destruct ws; [apply W|exact I].
  - destruct ws; [right; apply W|exact I].
Qed.
Print Assumptions make_tx_fields.
Theorem make_tx_errors : forall H name net v ins outs lock expiry vb sp so (ws : option (list witness)) js pk sg bs,
  get_network name = Ok net -> ~ In name decred_names -> ~ In name zcash_names ->
  let made := make_tx H net v (map AnyIn ins) (map AnyOut outs) lock expiry vb sp so (match ws with Some l => Wits l | None => NoWits end) js pk sg bs in
  (~ (0 <= v < 2 ^ 32 /\ 0 <= lock < 2 ^ 32) -> made = Err OverflowError) /\
  (0 <= v < 2 ^ 32 -> 0 <= lock < 2 ^ 32 -> ins = [] \/ outs = [] -> made = Err ValueError).
Proof.
  intros H name net v ins outs lock ex vb sp so ws js pk sg bs En N Z. destruct (zcash_parts name Z) as [Z1 [Z2 Z3]].
  assert (plain_family name js) as P by (split; [exact N|]; split; [exact Z2|]; split; [exact Z3|]; contradiction).
  split; [exact (make_tx_overflow H name net En _ _ _ _ _ _ _ _ _ _ _ _ _ P)|exact (make_tx_plain_empty H name net En _ _ _ _ _ _ _ _ ws _ _ _ _ P)].
Qed.
Print Assumptions make_tx_errors.
Theorem make_tx_overwinter_fields : forall H name net v ins outs lock expiry vb sp so ws js pk sg bs, get_network name = Ok net -> In name overwinter_names ->
  0 <= lock < 2 ^ 32 -> 0 <= expiry < 2 ^ 32 -> Forall txin_obj ins -> Forall txout_obj outs -> Forall (sprout_joinsplit_obj net) js ->
  overwinter_rules name ins outs (le_bytes 4 lock) (le_bytes 4 expiry) js pk sg ->
  exists t, make_tx H net v (map AnyIn ins) (map AnyOut outs) lock (Some expiry) vb sp so ws (Some (map AnySproutJs js)) pk sg bs = Ok (AnyOverwinterTx t) /\
    overwinter_obj H net t /\ ow_tx_ins t = ins /\ ow_tx_outs t = outs /\ ow_lock_time t = le_bytes 4 lock /\ ow_expiry_height t = le_bytes 4 expiry /\
    ow_tx_joinsplits t = js /\ ow_joinsplit_pubkey t = needed js pk /\ ow_joinsplit_sig t = needed js sg.
Proof. intros H name net v ins outs lock ex vb sp so ws js pk sg bs En. exact (make_tx_overwinter H name net En v ins outs lock ex vb sp so ws js pk sg bs). Qed.
Print Assumptions make_tx_overwinter_fields.
Theorem make_tx_sapling_fields : forall H name net v ins outs lock expiry vb sp so ws js pk sg bs, get_network name = Ok net -> In name sapling_names ->
  0 <= lock < 2 ^ 32 -> 0 <= expiry < 2 ^ 32 -> 0 <= vb < 2 ^ 64 -> Forall txin_obj ins -> Forall txout_obj outs ->
  Forall (spend_obj net) sp -> Forall (shielded_output_obj net) so -> Forall (sapling_joinsplit_obj net) js ->
  sapling_rules name ins outs (le_bytes 4 lock) (le_bytes 4 expiry) (le_bytes 8 vb) sp so js pk sg bs ->
  exists t, make_tx H net v (map AnyIn ins) (map AnyOut outs) lock (Some expiry) vb (Some sp) (Some so) ws (Some (map AnySaplingJs js)) pk sg bs = Ok (AnySaplingTx t) /\
    sapling_obj H net t /\ sa_tx_ins t = ins /\ sa_tx_outs t = outs /\ sa_lock_time t = le_bytes 4 lock /\ sa_expiry_height t = le_bytes 4 expiry /\
    sa_value_balance t = le_bytes 8 vb /\ sa_tx_shielded_spends t = sp /\ sa_tx_shielded_outputs t = so /\ sa_tx_joinsplits t = js.
Proof. intros H name net v ins outs lock ex vb sp so ws js pk sg bs En. exact (make_tx_sapling H name net En v ins outs lock ex vb sp so ws js pk sg bs). Qed.
Print Assumptions make_tx_sapling_fields.
Example make_tx_sapling_ex : exists t, make_tx toy ZcashSaplingMain 4 [AnyIn ex_input] [AnyOut ex_output] 258 (Some 7) 0 (Some []) (Some []) NoWits (Some []) None None None
  = Ok (AnySaplingTx t) /\ sa_lock_time t = [2; 1; 0; 0].
Proof. eexists. split; vm_compute; reflexivity. Qed.
(* value balances are signed (ZIP 243), but negative ones are not accepted *)
Theorem make_tx_sapling_balance_refuted : forall H name net v ins outs lock expiry vb sp so ws js pk sg bs, get_network name = Ok net -> In name sapling_names ->
  0 <= lock < 2 ^ 32 -> 0 <= expiry < 2 ^ 32 -> vb < 0 ->
  make_tx H net v ins outs lock (Some expiry) vb sp so ws js pk sg bs = Err OverflowError.
Proof.
  intros H name net v ins outs lock ex vb sp so ws js pk sg bs En I Rl Re R. unfold make_tx. destruct (proj2 (proj2 (families name)) I) as [N1 [N2 N3]].
  rewrite (has_false name net _ _ (decred_only_names name net En) N1), (has_false name net _ _ (LZcash.sprout_has name net En) N2),
    (has_false name net _ _ (LZcash.overwinter_has name net En) N3), (has_true name net _ _ (LZcash.sapling_has name net En) I).
  cbn [andb i2le_padded_opt]. rewrite !padded4, padded8, !(word_Ok 4) by (cbn; lia). rewrite word_Err by lia. reflexivity.
Qed.
Print Assumptions make_tx_sapling_balance_refuted.

(** * C54: witnesses and length prefixes *)

Theorem make_witness_stack : forall l,
  (Forall (fun d => len d < 2 ^ 64) l -> count l < 2 ^ 64 -> exists w, make_witness l = Ok w /\ witness_obj w /\ the_stack w = l) /\
  (Exists (fun d => 2 ^ 64 <= len d) l \/ 2 ^ 64 <= count l -> make_witness l = Err ValueError).
Proof. intros l. split; [apply make_witness_Ok|apply make_witness_long]. Qed.
Print Assumptions make_witness_stack.
Theorem length_prepend_wire : forall b, length_prepend b = if len b <? 2 ^ 64 then Ok (string_wire b) else Err ValueError.
Proof. exact length_prepend_exact. Qed.
Print Assumptions length_prepend_wire.
Example make_witness_ex : exists w, make_witness [[1; 2]; []] = Ok w /\ wit_bytes w = [2; 2; 1; 2; 0].
Proof. eexists. split; vm_compute; reflexivity. Qed.
Example length_prepend_ex : length_prepend (repeat 7 253) = Ok ([253; 253; 0] ++ repeat 7 253).
Proof. vm_compute. reflexivity. Qed.
