(* Lemmas about MPrograms.v *)
From Coq Require Import String.
From Verif Require Import Py SNum SNet SHash SScript SAddr SInterp STx SSig SCopy SZcash SSign SZSign SPrograms
  MNet MUtils MShared MAddr MScript MTx MZcash MBuilder MExamples MPrograms
  LBase LBase58 LNet LTx LScript LAddr LBuilder LBuilderTx LSig LSigTop LInterp LExamples LZcashTx LSapling LZcashTop LSign LZSign LTrunc LVarint LCopy
  PScript PAddr PTx PSig PBuilder PCopy PInterp PZcash PZip PSign PZSign PExamples.
Open Scope list_scope.
Open Scope Z_scope.
Ltac Zify.zify_post_hook ::= idtac.

Lemma two_pushes name net sg key : get_network name = Ok net -> all_bytes sg -> all_bytes key -> 1 <= len sg <= 520 -> 1 <= len key <= 520 ->
  exists s, serialize net (hex sg ++ lit " " ++ hex key) = Ok s /\ zlen s <= 1100 /\ words [hex sg; hex key] (hex sg ++ lit " " ++ hex key).
Proof.
  intros En B1 B2 L1 L2. pose proof (serialize_standard name net [Push (smallest sg) sg; Push (smallest key) key] En) as S.
  cbn [map text join concat wire] in S. rewrite app_nil_r in S. exists (push (smallest sg) sg ++ push (smallest key) key). split.
  - apply S. repeat constructor; (assumption || lia).
  - split; [rewrite zlen_app; pose proof (push_length sg); pose proof (push_length key); lia|].
    change (hex sg ++ lit " " ++ hex key) with (join (lit " ") [hex sg; hex key]). apply words_join. repeat constructor; apply hex_is_word; (assumption || lia).
Qed.

Lemma owned_code H name net key p : hashes_ok H -> get_network name = Ok net -> owns H net key p ->
  script_code_of H net p = Ok (string_wire (out_script (previous H name key p))) /\ make_p2pkh_output_script H net key = Ok (out_script (previous H name key p)).
Proof.
  intros K En (A & _). destruct (p2pkh_address_agrees H name net key true K En) as (s & E & T). unfold make_p2pkh_address in A. rewrite E in A. injection A as A.
  unfold script_code_of. rewrite <- A, T. rewrite (make_p2pkh_output_script_template H name net key En). cbn [bind previous out_script]. split; [|reflexivity].
  destruct (key_hash_ok H name key K) as [_ L]. unfold string_wire. f_equal. assert (len (template P2PKH (key_hash H name key)) = 25) as -> by (cbn [template]; unfold len in *; rewrite !app_length; cbn [length]; lia). reflexivity.
Qed.

Lemma owned_input H name net key p : get_network name = Ok net -> ~ In name decred_names -> owns H net key p ->
  exists i, input_of net p = Ok (AnyIn i) /\ txin_obj i /\ ti_stack_script i = [] /\ ti_redeem_script i = [] /\ refers_to p (the_input i).
Proof.
  intros En ND (_ & (id & B & L & E) & R & _). destruct (proj1 (simple_outpoint_fields name net id (pr_index p) None En B L R) ND) as (o & Eo & Oo & T & X).
  destruct (proj1 (simple_unsigned_input_fields name net o None En ND Oo) ltac:(lia)) as (i & Ei & Oi & Es & Er & Fi).
  exists i. unfold input_of. rewrite E, Eo. cbn [bind]. split; [exact Ei|]. split; [exact Oi|]. split; [exact Es|]. split; [exact Er|].
  exists id. rewrite Fi. cbn [in_txid in_index in_sequence]. rewrite T, X. auto.
Qed.

Lemma input_size i : txin_obj i -> zlen (input_wire (the_input i)) <= 1700.
Proof.
  intros O. apply txin_obj_iff in O. destruct O as (Oo & Lq & Ls & _). apply outpoint_obj_iff in Oo. unfold input_wire, outpoint_wire, string_wire, the_input. cbn [in_txid in_index in_script in_sequence].
  change (len (ti_script_sig i)) with (zlen (ti_script_sig i)). rewrite !zlen_app, zlen_compactsize. destruct Oo as (A & B & _).
  destruct (_ <? 253); [lia|]. destruct (_ <? 2 ^ 16); [lia|]. destruct (_ <? 2 ^ 32); lia.
Qed.
Lemma output_size H name net s script o value : hashes_ok H -> get_network name = Ok net -> MAddr.to_output_script H net s = Ok script ->
  the_output o = {| out_value := le_bytes 8 value; out_script := script |} -> zlen (output_wire (the_output o)) <= 100.
Proof.
  intros K En E ->. unfold output_wire, string_wire. cbn [out_value out_script]. rewrite !zlen_app.
  destruct (to_output_script_standard H name net s script K En E) as (k & v & h & -> & L & _).
  assert (zlen (template k h) <= 34) as T.
  { change (len h) with (zlen h) in L. destruct k; cbn [template hash_len] in *; rewrite ?zlen_app in *; cbn [zlen length Z.of_nat] in *; unfold zlen in *; cbn [length] in *; rewrite ?app_length; cbn [length]; lia. }
  change (len (template k h)) with (zlen (template k h)). rewrite zlen_compactsize. destruct (Z.ltb_spec (zlen (template k h)) 253); [|lia].
  assert (zlen (le_bytes 8 value) = 8) as -> by apply zlen_le_bytes. lia.
Qed.

Lemma small_layout i1 i2 o : txin_obj i1 -> txin_obj i2 -> zlen (output_wire (the_output o)) <= 100 ->
  forall lock expiry balance, zlen lock = 4 -> zlen expiry = 4 -> zlen balance = 8 ->
  len (sapling_layout [i1; i2] [o] lock expiry balance [] [] [] None None None) <= 100000.
Proof.
  intros O1 O2 Lo l e b Ll Le Lb. pose proof (input_size i1 O1). pose proof (input_size i2 O2).
  change (len ?x) with (zlen x). unfold sapling_layout, inputs_wire, outputs_wire, joinsplits_wire, vector_wire. cbn [map concat opt count length]. rewrite !app_nil_r, !zlen_app, Ll, Le, Lb.
  change (zlen sapling_header) with 8. change (count []) with 0. change (zlen (compactsize 0)) with 1. 
  change (zlen (compactsize (count [the_input i1; the_input i2]))) with 1. change (zlen (compactsize (count [the_output o]))) with 1. lia.
Qed.

(* one signed input *)
Lemma sign_in W H name net (dig : digester) n key p i d sign : hashes_ok H -> get_network name = Ok net -> owns H net key p -> usable_key key -> signer W key sign ->
  txin_obj i -> ti_redeem_script i = [] -> dig (Z.of_nat n) (string_wire (out_script (previous H name key p))) (out_value (previous H name key p)) ZAll false = Ok d ->
  exists i', signed_in net i (sign d) (hex key) = Ok i' /\ zcash_signed_input W H net dig n i (previous H name key p) i'.
Proof.
  intros K En Ow (Bk & Lk) Sg Oi Er D. destruct (Sg d) as (sg & -> & Ec & Bs & Ls & Ls').
  assert (len (sg ++ [1]) = len sg + 1) as L1 by (unfold len; rewrite app_length; cbn [length]; lia). assert (0 <= len sg) by (unfold len; lia).
  destruct (two_pushes name net (sg ++ [1]) key En) as (s & Es & Lz & Wd); [apply Forall_app; split; [exact Bs|repeat constructor; lia]|exact Bk|lia|exact Lk|].
  assert (exists i', TxIn_copy i None (Some s) None None = Ok i') as (i' & Ei).
  { unfold TxIn_copy, or_self. rewrite TxIn_spec, Er, app_nil_r, (op36 i Oi). apply txin_obj_iff in Oi. destruct Oi as (_ & -> & _).
    destruct (Z.leb_spec (zlen s) 1650); [|lia]. eexists. reflexivity. }
  exists i'. split; [unfold signed_in; rewrite Es; cbn [bind]; exact Ei|].
  exists key, sg, ZAll, false, d, (hex (sg ++ [1]) ++ lit " " ++ hex key), s.
  split; [exact (proj2 (owned_code H name net key p K En Ow))|]. split; [exact D|]. split; [discriminate|]. split; [exact Ec|]. split; [exact Bs|]. split; [exact Ls|]. split; [exact Ls'|].
  split; [exact Bk|]. split; [exact Lk|]. split; [exact Wd|]. split; [exact Es|]. split; [exact Er|exact Ei].
Qed.

Lemma copied_refers p i i' : txin_obj i -> refers_to p (the_input i) -> (exists s, TxIn_copy i None (Some s) None None = Ok i') -> refers_to p (the_input i').
Proof.
  intros O (id & E1 & E2 & E3 & E4) (s & C). destruct (copy_txin i None (Some s) None None O) as (_ & _ & X). destruct (X i' C) as (X1 & X2 & X3 & X4 & _).
  exists id. unfold the_input in *. cbn [in_txid in_index in_sequence updated] in *. rewrite X1, X4. auto.
Qed.

(* a transaction of the original class made without witnesses is without witnesses, and
   so are its copies *)
Lemma Tx_keeps H net v f ins outs ws l t : Tx H net v f ins outs ws l = Ok t -> tx_flag t = f /\ tx_tx_witnesses t = ws.
Proof. intros E. destruct (LCopy.tx_fields H net v f ins outs ws l t E) as (_ & A & _ & _ & B & _). auto. Qed.
Lemma unsigned_plain H net ins outs v l t : simple_unsigned_legacy_tx H net ins outs v l None None None None = Ok (AnyTx t) -> plain t.
Proof.
  unfold simple_unsigned_legacy_tx, make_tx. cbn [andb or_self]. intros E.
  repeat match type of E with
  | (if ?b then _ else _) = _ => destruct b
  | bind ?x _ = _ => destruct x eqn:?; cbn [bind] in E; [|discriminate E]
  end; try discriminate E.
  injection E as <-. match goal with X : Tx _ _ _ _ _ _ _ _ = Ok _ |- _ => exact (Tx_keeps _ _ _ _ _ _ _ _ _ X) end.
Qed.
Lemma copied_plain H net t v ins outs l t' : plain t -> Tx_copy H net t v None ins outs None l = Ok t' -> plain t'.
Proof. intros [A B] E. unfold Tx_copy in E. rewrite A, B in E. exact (Tx_keeps _ _ _ _ _ _ _ _ _ E). Qed.

(* the scriptSigs of the contract are short enough for an input *)
Lemma contract_sigs name net sh pkh0 tm pkh1 : get_network name = Ok net -> ~ In name decred_names -> all_bytes sh -> all_bytes pkh0 -> all_bytes tm -> all_bytes pkh1 ->
  len sh = 32 -> len pkh0 = 20 -> 1 <= len tm <= 5 -> len pkh1 = 20 ->
  let redeem := htlc_redeem_script (hex sh) (hex pkh0) (hex tm) (hex pkh1) in
  serialize net redeem = Ok (htlc sh pkh0 tm pkh1) /\
  (forall sg pk secret ssig, all_bytes sg -> all_bytes pk -> all_bytes secret -> 1 <= len sg <= 320 -> 1 <= len pk <= 320 -> 1 <= len secret <= 320 ->
   make_script_sig net (sapling_stack_script_execute (hex sg) (hex pk) (hex secret)) redeem = Ok ssig -> len ssig <= 1650) /\
  (forall sg pk ssig, all_bytes sg -> all_bytes pk -> 1 <= len sg <= 320 -> 1 <= len pk <= 320 ->
   make_script_sig net (sapling_stack_script_refund (hex sg) (hex pk)) redeem = Ok ssig -> len ssig <= 1650).
Proof.
  intros En ND B1 B2 B3 B4 L1 L2 L3 L4 redeem.
  assert (serialize net redeem = Ok (htlc sh pkh0 tm pkh1)) as Eb by (apply (htlc_serialize name net En ND); (assumption || lia)).
  pose proof (htlc_length sh pkh0 tm pkh1) as Lb. assert (1 <= len (htlc sh pkh0 tm pkh1)) as Lb' by (unfold htlc, len; cbn; lia).
  split; [exact Eb|]. split.
  - intros sg pk secret ssig B5 B6 B7 L5 L6 L7 E. pose proof (execute_standard name ND sg pk secret B5 B6 B7 ltac:(lia) ltac:(lia) ltac:(lia)) as F. destruct (text_words name _ F) as [W Sp].
    destruct (make_script_sig_text_partial name net _ _ _ redeem _ En F Sp W Eb ltac:(lia)) as (sig & E1 & E2 & _).
    pose proof (eq_trans (eq_sym E1) E) as X. apply Ok_inj in X. rewrite <- X, E2. eapply Z.le_trans; [apply (wires_length 325)|vm_compute; discriminate].
    pose proof (data_length sg). pose proof (data_length pk). pose proof (data_length secret). pose proof (push_length (htlc sh pkh0 tm pkh1)).
    constructor; [lia|]. constructor; [lia|]. constructor; [lia|]. constructor; [vm_compute; discriminate|]. constructor; [cbn [wire]; lia|constructor].
  - intros sg pk ssig B5 B6 L5 L6 E. pose proof (refund_standard name ND sg pk B5 B6 ltac:(lia) ltac:(lia)) as F. destruct (text_words name _ F) as [W Sp].
    destruct (make_script_sig_text_partial name net _ _ _ redeem _ En F Sp W Eb ltac:(lia)) as (sig & E1 & E2 & _).
    pose proof (eq_trans (eq_sym E1) E) as X. apply Ok_inj in X. rewrite <- X, E2. eapply Z.le_trans; [apply (wires_length 325)|vm_compute; discriminate].
    pose proof (data_length sg). pose proof (data_length pk). pose proof (push_length (htlc sh pkh0 tm pkh1)).
    constructor; [lia|]. constructor; [lia|]. constructor; [vm_compute; discriminate|]. constructor; [cbn [wire]; lia|constructor].
Qed.
