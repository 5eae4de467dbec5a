(* C65: the script templates of riemann/script/examples.py do what they say when they are
   filled in with hex and run.  [run], [spends], [truthy], [locktime_reached] are in
   SInterp.v, [key_hash], [template] in SAddr.v, [scriptnum_value] in SNum.v. *)
From Coq Require Import String.
From Verif Require Import Py SNum SNet SHash SScript SAddr SInterp STx MNet MUtils MShared MScript MTx MBuilder MExamples
  LBase LBase58 LNet LScript LAddr LBuilder LInterp LExamples PUtils PScript PBuilder PInterp.
Open Scope list_scope.
Open Scope Z_scope.

(** * Two of two signatures *)

(* on any stack: an empty element and below the top two signatures, the first under the
   first key, the second under the second key *)
Theorem msig_two_two_run : forall cx name net pk0 pk1, get_network name = Ok net -> ~ In name decred_names ->
  all_bytes pk0 -> all_bytes pk1 -> 1 <= len pk0 <= 520 -> 1 <= len pk1 <= 520 ->
  exists b, serialize net (msig_two_two (hex pk0) (hex pk1)) = Ok b /\
    forall s, count s <= 996 ->
    ((exists after, run cx b s = Some after /\ top_true after = true) <->
     exists sig0 sig1 rest, s = sig1 :: sig0 :: [] :: rest /\
       cx_checksig cx sig0 pk0 = Some true /\ cx_checksig cx sig1 pk1 = Some true).
Proof.
  intros cx name net pk0 pk1 En ND B0 B1 L0 L1. exists (msig pk0 pk1). split; [apply (msig_serialize name net En ND); (assumption || lia)|].
  intros s Ls. rewrite (run_msig cx pk0 pk1 s L0 L1 Ls). split.
  - intros (after & E & T). destruct s as [|sig1 [|sig0 [|d rest]]]; try discriminate.
    destruct (cx_checksig cx sig1 pk1) as [[]|] eqn:C1; [| |discriminate]; (destruct d; [|discriminate]).
    + destruct (cx_checksig cx sig0 pk0) as [b|] eqn:C0; [|discriminate]. injection E as <-. cbn [top_true] in T. rewrite truthy_bool in T. subst b. exists sig0, sig1, rest. auto.
    + injection E as <-. discriminate.
  - intros (sig0 & sig1 & rest & -> & C0 & C1). rewrite C0, C1. eexists. split; reflexivity.
Qed.
Print Assumptions msig_two_two_run.

(* as a P2SH output, with the stack template *)
Theorem msig_two_two_spends : forall H cx name net pk0 pk1 sig0 sig1 segwit, hashes_ok H -> hashing H cx -> get_network name = Ok net -> ~ In name decred_names ->
  all_bytes pk0 -> all_bytes pk1 -> all_bytes sig0 -> all_bytes sig1 ->
  1 <= len pk0 <= 75 -> 1 <= len pk1 <= 75 -> 1 <= len sig0 <= 520 -> 1 <= len sig1 <= 520 ->
  exists script sig,
    make_p2sh_output_script H net (msig_two_two (hex pk0) (hex pk1)) = Ok script /\
    make_script_sig net (msig_two_two_stack_script (hex sig0) (hex sig1)) (msig_two_two (hex pk0) (hex pk1)) = Ok sig /\
    (spends cx segwit sig script [] = true <-> cx_checksig cx sig0 pk0 = Some true /\ cx_checksig cx sig1 pk1 = Some true).
Proof.
  intros H cx name net pk0 pk1 sig0 sig1 segwit K Hc En ND B0 B1 S0 S1 L0 L1 M0 M1.
  assert (serialize net (msig_two_two (hex pk0) (hex pk1)) = Ok (msig pk0 pk1)) as Eb by (apply (msig_serialize name net En ND); (assumption || lia)).
  pose proof (msig_length pk0 pk1) as Lb. assert (1 <= len (msig pk0 pk1)) as Lb' by (unfold msig, len; cbn; lia).
  pose proof (msig_stack_standard name ND sig0 sig1 S0 S1 ltac:(lia) ltac:(lia)) as F.
  destruct (text_words name _ F) as [W Sp].
  destruct (make_script_sig_text_partial name net _ _ _ (msig_two_two (hex pk0) (hex pk1)) (msig pk0 pk1) En F Sp W Eb ltac:(lia)) as (sig & E1 & E2 & _).
  exists (template P2SH (key_hash H name (msig pk0 pk1))), sig.
  assert (make_p2sh_output_script H net (msig_two_two (hex pk0) (hex pk1)) = Ok (template P2SH (key_hash H name (msig pk0 pk1)))) as Es
    by (rewrite (make_p2sh_output_script_template H name net _ En), Eb; reflexivity).
  split; [exact Es|]. split; [exact E1|].
  assert (len sig <= 10000) as Ls.
  { rewrite E2. eapply Z.le_trans; [apply (wires_length 523)|vm_compute; discriminate].
    pose proof (data_length sig0). pose proof (data_length sig1). pose proof (push_length (msig pk0 pk1)).
    constructor; [vm_compute; discriminate|]. repeat (constructor; [cbn [wire] in *; lia|]). constructor. }
  rewrite (p2sh_input_spends H cx name net _ _ _ _ _ _ segwit sig K Hc En ND F Sp W eq_refl ltac:(vm_compute; discriminate) Eb ltac:(lia) (fun _ => msig_program pk0 pk1) Es E1 Ls).
  unfold msig_stack_elements, data. cbn [map rev pushed app Z.eqb]. rewrite run_msig; [|lia|lia|vm_compute; discriminate]. split.
  - intros (_ & _ & after & E & T). destruct (cx_checksig cx sig1 pk1) as [[]|] eqn:C1; [| |discriminate].
    + destruct (cx_checksig cx sig0 pk0) as [b|]; [|discriminate]. injection E as <-. cbn [top_true] in T. rewrite truthy_bool in T. subst b. auto.
    + injection E as <-. discriminate.
  - intros [C0 C1]. split; [repeat constructor; cbn [pushed]; try lia; vm_compute; discriminate|]. split; [lia|]. rewrite C0, C1. eexists. split; reflexivity.
Qed.
Print Assumptions msig_two_two_spends.
Example msig_two_two_ex :
  let cx := toy_context 0 in
  let redeem := msig_two_two (lit "020709") (lit "020808") in
  serialize BitcoinMain redeem = Ok [82; 3; 2; 7; 9; 3; 2; 8; 8; 82; 174] /\
  exists script, make_p2sh_output_script toy BitcoinMain redeem = Ok script /\
  (exists sig, make_script_sig BitcoinMain (msig_two_two_stack_script (lit "30020709") (lit "30020808")) redeem = Ok sig /\ spends cx true sig script [] = true) /\
  (exists sig, make_script_sig BitcoinMain (msig_two_two_stack_script (lit "30020808") (lit "30020709")) redeem = Ok sig /\ spends cx true sig script [] = false).
Proof.
  cbv zeta. split; [vm_compute; reflexivity|]. eexists. split; [vm_compute; reflexivity|]. split; eexists; (split; [vm_compute; reflexivity|vm_compute; reflexivity]).
Qed.

(** * Hash time locks *)

(* on any stack; [claimed] and [refunded] are in SInterp.v *)
Theorem htlc_run : forall cx name net sh pkh0 tm pkh1, get_network name = Ok net -> ~ In name decred_names ->
  all_bytes sh -> all_bytes pkh0 -> all_bytes tm -> all_bytes pkh1 ->
  1 <= len sh <= 520 -> 1 <= len pkh0 <= 520 -> 1 <= len tm <= 520 -> 1 <= len pkh1 <= 520 ->
  exists b, serialize net (htlc_redeem_script (hex sh) (hex pkh0) (hex tm) (hex pkh1)) = Ok b /\
    forall s, count s <= 999 ->
    ((exists after, run cx b s = Some after /\ top_true after = true) <-> claimed cx sh pkh0 s \/ refunded cx tm pkh1 s).
Proof.
  intros cx name net sh pkh0 tm pkh1 En ND B1 B2 B3 B4 L1 L2 L3 L4. exists (htlc sh pkh0 tm pkh1). split; [apply (htlc_serialize name net En ND); (assumption || lia)|].
  intros s Ls. rewrite (run_htlc cx sh pkh0 tm pkh1 s L1 L2 L3 L4 Ls). unfold claimed, refunded. split.
  - intros (after & E & T). destruct s as [|x r]; [discriminate|]. destruct (truthy x) eqn:X.
    + left. destruct r as [|secret [|pk [|sig q]]]; try discriminate. destruct (same sh (cx_sha256 cx secret)) eqn:Q1; [|discriminate]. cbn [andb] in E.
      destruct (same pkh0 (h160 cx pk)) eqn:Q2; [|discriminate]. apply same_true in Q1. apply same_true in Q2.
      destruct (cx_checksig cx sig pk) as [b|] eqn:C; [|discriminate]. injection E as <-. cbn [top_true] in T. rewrite truthy_bool in T. subst b.
      exists x, secret, pk, sig, q. repeat split; auto.
    + right. destruct r as [|pk [|sig q]]; try discriminate. destruct (Z.leb_spec (len tm) 5); [|discriminate]. cbn [andb] in E.
      destruct (locktime_reached cx (scriptnum_value tm)) eqn:Q1; [|discriminate]. cbn [andb] in E.
      destruct (same pkh1 (h160 cx pk)) eqn:Q2; [|discriminate]. apply same_true in Q2.
      destruct (cx_checksig cx sig pk) as [b|] eqn:C; [|discriminate]. injection E as <-. cbn [top_true] in T. rewrite truthy_bool in T. subst b.
      exists x, pk, sig, q. repeat split; auto.
  - intros [(x & secret & pk & sig & rest & -> & X & Q1 & Q2 & C)|(x & pk & sig & rest & -> & X & L & Q1 & Q2 & C)].
    + rewrite X. unfold h160. rewrite Q1, Q2, !same_refl, C. eexists. split; reflexivity.
    + rewrite X. unfold h160. destruct (Z.leb_spec (len tm) 5); [|lia]. rewrite Q1, Q2, !same_refl, C. eexists. split; reflexivity.
Qed.
Print Assumptions htlc_run.

(* an output that pays to the hash of the script is spent in one of these two ways, or with
   another script of the same hash *)
Theorem htlc_output_spent : forall H cx name net sh pkh0 tm pkh1 script segwit sig wit, hashes_ok H -> hashing H cx -> get_network name = Ok net -> ~ In name decred_names ->
  all_bytes sh -> all_bytes pkh0 -> all_bytes tm -> all_bytes pkh1 ->
  1 <= len sh <= 520 -> 1 <= len pkh0 <= 520 -> 1 <= len tm <= 520 -> 1 <= len pkh1 <= 520 ->
  make_p2sh_output_script H net (htlc_redeem_script (hex sh) (hex pkh0) (hex tm) (hex pkh1)) = Ok script ->
  spends cx segwit sig script wit = true ->
  exists redeem s b, serialize net (htlc_redeem_script (hex sh) (hex pkh0) (hex tm) (hex pkh1)) = Ok b /\
    run cx sig [] = Some (redeem :: s) /\ key_hash H name redeem = key_hash H name b /\
    (redeem <> b \/ claimed cx sh pkh0 s \/ refunded cx tm pkh1 s).
Proof.
  intros H cx name net sh pkh0 tm pkh1 script segwit sig wit K Hc En ND B1 B2 B3 B4 L1 L2 L3 L4 Es Y.
  destruct (htlc_run cx name net sh pkh0 tm pkh1 En ND B1 B2 B3 B4 L1 L2 L3 L4) as (b & Eb & R).
  apply (p2sh_output_spent H cx name net _ b script segwit sig wit K Hc En ND Eb Es) in Y.
  destruct Y as (_ & redeem & before & after & R1 & N & Q & R2 & T & _). exists redeem, before, b. split; [exact Eb|]. split; [exact R1|]. split; [exact Q|].
  destruct (list_eq_dec Z.eq_dec redeem b) as [->|D]; [right|left; exact D]. apply R; [lia|]. eauto.
Qed.
Print Assumptions htlc_output_spent.

(* the two ways with the stack templates of sapling_htlc_example.py *)
Theorem htlc_execute_spends : forall H cx name net sh pkh0 tm pkh1 sig pk secret segwit, hashes_ok H -> hashing H cx -> get_network name = Ok net -> ~ In name decred_names ->
  all_bytes sh -> all_bytes pkh0 -> all_bytes tm -> all_bytes pkh1 -> all_bytes sig -> all_bytes pk -> all_bytes secret ->
  len sh = 32 -> len pkh0 = 20 -> 1 <= len tm <= 5 -> len pkh1 = 20 -> 1 <= len sig <= 520 -> 1 <= len pk <= 520 -> 1 <= len secret <= 520 ->
  let redeem := htlc_redeem_script (hex sh) (hex pkh0) (hex tm) (hex pkh1) in
  exists script ssig, make_p2sh_output_script H net redeem = Ok script /\
    make_script_sig net (sapling_stack_script_execute (hex sig) (hex pk) (hex secret)) redeem = Ok ssig /\
    (spends cx segwit ssig script [] = true <->
     h_sha256 H secret = sh /\ key_hash H name pk = pkh0 /\ cx_checksig cx sig pk = Some true).
Proof.
  intros H cx name net sh pkh0 tm pkh1 sg pk secret segwit K Hc En ND B1 B2 B3 B4 B5 B6 B7 L1 L2 L3 L4 L5 L6 L7 redeem.
  assert (serialize net redeem = Ok (htlc sh pkh0 tm pkh1)) as Eb by (apply (htlc_serialize name net En ND); (assumption || lia)).
  pose proof (htlc_length sh pkh0 tm pkh1) as Lb. assert (1 <= len (htlc sh pkh0 tm pkh1)) as Lb' by (unfold htlc, len; cbn; lia).
  pose proof (execute_standard name ND sg pk secret B5 B6 B7 ltac:(lia) ltac:(lia) ltac:(lia)) as F. destruct (text_words name _ F) as [W Sp].
  destruct (make_script_sig_text_partial name net _ _ _ redeem _ En F Sp W Eb ltac:(lia)) as (sig & E1 & E2 & _).
  exists (template P2SH (key_hash H name (htlc sh pkh0 tm pkh1))), sig.
  assert (make_p2sh_output_script H net redeem = Ok (template P2SH (key_hash H name (htlc sh pkh0 tm pkh1)))) as Es
    by (rewrite (make_p2sh_output_script_template H name net _ En), Eb; reflexivity).
  split; [exact Es|]. split; [exact E1|].
  assert (len sig <= 10000) as Ls.
  { rewrite E2. eapply Z.le_trans; [apply (wires_length 523)|vm_compute; discriminate].
    pose proof (data_length sg). pose proof (data_length pk). pose proof (data_length secret). pose proof (push_length (htlc sh pkh0 tm pkh1)).
    constructor; [lia|]. constructor; [lia|]. constructor; [lia|]. constructor; [vm_compute; discriminate|]. constructor; [cbn [wire]; lia|constructor]. }
  rewrite (p2sh_input_spends H cx name net _ _ _ _ _ _ segwit sig K Hc En ND F Sp W eq_refl ltac:(vm_compute; discriminate) Eb ltac:(lia) (fun _ => htlc_program sh pkh0 tm pkh1) Es E1 Ls).
  unfold execute_elements, data. cbn [map rev pushed app Z.eqb Pos.eqb]. rewrite run_htlc; [|lia|lia|lia|lia|vm_compute; discriminate].
  change (truthy [81 - 80]) with true. cbv iota. rewrite (h160_key_hash H cx name Hc ND). destruct Hc as [-> _]. split.
  - intros (_ & _ & after & E & T). destruct (same sh (h_sha256 H secret)) eqn:Q1; [|discriminate]. cbn [andb] in E.
    destruct (same pkh0 (key_hash H name pk)) eqn:Q2; [|discriminate]. apply same_true in Q1. apply same_true in Q2.
    destruct (cx_checksig cx sg pk) as [b|]; [|discriminate]. injection E as <-. cbn [top_true] in T. rewrite truthy_bool in T. subst b. auto.
  - intros (Q1 & Q2 & C). split; [repeat constructor; cbn [pushed]; try lia; vm_compute; discriminate|]. split; [lia|]. rewrite Q1, Q2, !same_refl, C. eexists. split; reflexivity.
Qed.
Print Assumptions htlc_execute_spends.
Theorem htlc_refund_spends : forall H cx name net sh pkh0 tm pkh1 sig pk segwit, hashes_ok H -> hashing H cx -> get_network name = Ok net -> ~ In name decred_names ->
  all_bytes sh -> all_bytes pkh0 -> all_bytes tm -> all_bytes pkh1 -> all_bytes sig -> all_bytes pk ->
  len sh = 32 -> len pkh0 = 20 -> 1 <= len tm <= 5 -> len pkh1 = 20 -> 1 <= len sig <= 520 -> 1 <= len pk <= 520 ->
  let redeem := htlc_redeem_script (hex sh) (hex pkh0) (hex tm) (hex pkh1) in
  exists script ssig, make_p2sh_output_script H net redeem = Ok script /\
    make_script_sig net (sapling_stack_script_refund (hex sig) (hex pk)) redeem = Ok ssig /\
    (spends cx segwit ssig script [] = true <->
     locktime_reached cx (scriptnum_value tm) = true /\ key_hash H name pk = pkh1 /\ cx_checksig cx sig pk = Some true).
Proof.
  intros H cx name net sh pkh0 tm pkh1 sg pk segwit K Hc En ND B1 B2 B3 B4 B5 B6 L1 L2 L3 L4 L5 L6 redeem.
  assert (serialize net redeem = Ok (htlc sh pkh0 tm pkh1)) as Eb by (apply (htlc_serialize name net En ND); (assumption || lia)).
  pose proof (htlc_length sh pkh0 tm pkh1) as Lb. assert (1 <= len (htlc sh pkh0 tm pkh1)) as Lb' by (unfold htlc, len; cbn; lia).
  pose proof (refund_standard name ND sg pk B5 B6 ltac:(lia) ltac:(lia)) as F. destruct (text_words name _ F) as [W Sp].
  destruct (make_script_sig_text_partial name net _ _ _ redeem _ En F Sp W Eb ltac:(lia)) as (sig & E1 & E2 & _).
  exists (template P2SH (key_hash H name (htlc sh pkh0 tm pkh1))), sig.
  assert (make_p2sh_output_script H net redeem = Ok (template P2SH (key_hash H name (htlc sh pkh0 tm pkh1)))) as Es
    by (rewrite (make_p2sh_output_script_template H name net _ En), Eb; reflexivity).
  split; [exact Es|]. split; [exact E1|].
  assert (len sig <= 10000) as Ls.
  { rewrite E2. eapply Z.le_trans; [apply (wires_length 523)|vm_compute; discriminate].
    pose proof (data_length sg). pose proof (data_length pk). pose proof (push_length (htlc sh pkh0 tm pkh1)).
    constructor; [lia|]. constructor; [lia|]. constructor; [vm_compute; discriminate|]. constructor; [cbn [wire]; lia|constructor]. }
  rewrite (p2sh_input_spends H cx name net _ _ _ _ _ _ segwit sig K Hc En ND F Sp W eq_refl ltac:(vm_compute; discriminate) Eb ltac:(lia) (fun _ => htlc_program sh pkh0 tm pkh1) Es E1 Ls).
  unfold refund_elements, data. cbn [map rev pushed app Z.eqb Pos.eqb]. rewrite run_htlc; [|lia|lia|lia|lia|vm_compute; discriminate].
  change (truthy []) with false. cbv iota. rewrite (h160_key_hash H cx name Hc ND). destruct (Z.leb_spec (len tm) 5); [|lia]. split.
  - intros (_ & _ & after & E & T). destruct (locktime_reached cx (scriptnum_value tm)); [|discriminate]. cbn [andb] in E.
    destruct (same pkh1 (key_hash H name pk)) eqn:Q2; [|discriminate]. apply same_true in Q2.
    destruct (cx_checksig cx sg pk) as [b|]; [|discriminate]. injection E as <-. cbn [top_true] in T. rewrite truthy_bool in T. subst b. auto.
  - intros (Q1 & Q2 & C). split; [repeat constructor; cbn [pushed]; try lia; vm_compute; discriminate|]. split; [lia|]. rewrite Q1, Q2, same_refl, C. eexists. split; reflexivity.
Qed.
Print Assumptions htlc_refund_spends.

(* with a lock time written by i2le_script: the refund waits for exactly that height or time *)
Theorem htlc_refund_after : forall H cx name net sh pkh0 t pkh1 sig pk segwit, hashes_ok H -> hashing H cx -> get_network name = Ok net -> ~ In name decred_names ->
  all_bytes sh -> all_bytes pkh0 -> all_bytes pkh1 -> all_bytes sig -> all_bytes pk ->
  len sh = 32 -> len pkh0 = 20 -> len pkh1 = 20 -> 1 <= len sig <= 520 -> 1 <= len pk <= 520 -> 0 < t < 2 ^ 32 ->
  exists timeout, i2le_script t = Ok timeout /\
  let redeem := htlc_redeem_script (hex sh) (hex pkh0) timeout (hex pkh1) in
  exists script ssig, make_p2sh_output_script H net redeem = Ok script /\
    make_script_sig net (sapling_stack_script_refund (hex sig) (hex pk)) redeem = Ok ssig /\
    (spends cx segwit ssig script [] = true <->
     ((t < 500000000 <-> cx_locktime cx < 500000000) /\ t <= cx_locktime cx /\ cx_sequence cx <> 0xffffffff) /\
     key_hash H name pk = pkh1 /\ cx_checksig cx sig pk = Some true).
Proof.
  intros H cx name net sh pkh0 t pkh1 sg pk segwit K Hc En ND B1 B2 B4 B5 B6 L1 L2 L4 L5 L6 T.
  destruct (i2le_script_positive_partial t ltac:(lia)) as (tm & E & Bt & M & V & _).
  { apply Z.lt_le_trans with (2 ^ 34); [lia|]. apply Z.le_trans with (256 ^ 5); [vm_compute; discriminate|]. apply Z.pow_le_mono_r; lia. }
  pose proof (scriptnum_short tm t Bt M V ltac:(lia)) as Lt. exists (hex tm). split; [exact E|]. cbv zeta.
  destruct (htlc_refund_spends H cx name net sh pkh0 tm pkh1 sg pk segwit K Hc En ND B1 B2 Bt B4 B5 B6 L1 L2 Lt L4 L5 L6) as (script & ssig & E1 & E2 & E3).
  exists script, ssig. split; [exact E1|]. split; [exact E2|]. rewrite E3, V. unfold locktime_reached.
  destruct (Z.leb_spec 0 t); [|lia]. cbn [andb]. rewrite !andb_true_iff, Bool.eqb_true_iff, negb_true_iff, Z.eqb_neq, Z.leb_le.
  destruct (Z.ltb_spec t 500000000), (Z.ltb_spec (cx_locktime cx) 500000000); intuition (try lia; try discriminate).
Qed.
Print Assumptions htlc_refund_after.

(* the stack templates of script/examples.py cannot be serialized *)
Theorem htlc_stack_templates_refuted : forall name net sig pk secret, get_network name = Ok net ->
  all_bytes sig -> all_bytes pk -> all_bytes secret -> 1 <= len sig <= 1000 -> 1 <= len pk <= 1000 -> 1 <= len secret <= 1000 ->
  serialize net (htlc_stack_script_execute (hex sig) (hex pk) (hex secret)) = Err ValueError /\
  serialize net (htlc_stack_script_refund (hex sig) (hex pk)) = Err ValueError.
Proof.
  intros name net sig pk secret En B1 B2 B3 L1 L2 L3. destruct (true_false_tokens name net En) as [T F]. split.
  - change (htlc_stack_script_execute (hex sig) (hex pk) (hex secret)) with (join (lit " ") (map hex [sig; pk; secret] ++ [lit "OP_TRUE"])).
    apply (serialize_bad_end name); auto. split; [discriminate|repeat constructor].
  - change (htlc_stack_script_refund (hex sig) (hex pk)) with (join (lit " ") (map hex [sig; pk] ++ [lit "OP_FALSE"])).
    apply (serialize_bad_end name); auto. split; [discriminate|repeat constructor].
Qed.
Print Assumptions htlc_stack_templates_refuted.

(* the lock time is reached at 200 and not at 100; the number 150 is written 9600 *)
Example htlc_ex :
  let sh := hex (h_sha256 toy [5; 5]) in let pkh0 := hex (h_rmd160 toy (h_sha256 toy [2; 7; 9])) in
  let pkh1 := hex (h_rmd160 toy (h_sha256 toy [2; 8; 8])) in
  let redeem := htlc_redeem_script sh pkh0 (lit "9600") pkh1 in
  i2le_script 150 = Ok (lit "9600") /\
  exists script, make_p2sh_output_script toy BitcoinMain redeem = Ok script /\
  (exists sig, make_script_sig BitcoinMain (sapling_stack_script_execute (lit "30020709") (lit "020709") (lit "0505")) redeem = Ok sig /\
     spends (toy_context 100) true sig script [] = true) /\
  (exists sig, make_script_sig BitcoinMain (sapling_stack_script_execute (lit "30020709") (lit "020709") (lit "0506")) redeem = Ok sig /\
     spends (toy_context 100) true sig script [] = false) /\
  (exists sig, make_script_sig BitcoinMain (sapling_stack_script_refund (lit "30020808") (lit "020808")) redeem = Ok sig /\
     spends (toy_context 100) true sig script [] = false /\ spends (toy_context 200) true sig script [] = true).
Proof.
  cbv zeta. split; [vm_compute; reflexivity|]. eexists. split; [vm_compute; reflexivity|].
  split; [eexists; split; [vm_compute; reflexivity|vm_compute; reflexivity]|]. split; [eexists; split; [vm_compute; reflexivity|vm_compute; reflexivity]|].
  eexists. split; [vm_compute; reflexivity|]. split; [vm_compute; reflexivity|vm_compute; reflexivity].
Qed.

(** * Single keys and hashes *)

(* filled in with a hash *)
Theorem p2pkh_script_pubkey_partial : forall name net h, get_network name = Ok net -> ~ In name decred_names ->
  all_bytes h -> len h = 20 -> serialize net (p2pkh_script_pubkey (hex h)) = Ok (template P2PKH h).
Proof. intros name net h En ND. apply (p2pkh_serialize name net En ND). Qed.
Print Assumptions p2pkh_script_pubkey_partial.

(* with the script sig template *)
Theorem p2pkh_templates_spend : forall H cx name net pubkey sig pk segwit, hashes_ok H -> hashing H cx -> get_network name = Ok net -> ~ In name decred_names ->
  all_bytes sig -> all_bytes pk -> 1 <= len sig <= 520 -> 1 <= len pk <= 520 ->
  exists script ssig, serialize net (p2pkh_script_pubkey (hex (key_hash H name pubkey))) = Ok script /\ serialize net (p2pkh_script_sig (hex sig) (hex pk)) = Ok ssig /\
    (spends cx segwit ssig script [] = true <-> key_hash H name pk = key_hash H name pubkey /\ cx_checksig cx sig pk = Some true).
Proof.
  intros H cx name net pubkey sig pk segwit K Hc En ND B1 B2 L1 L2. destruct (key_hash_ok H name pubkey K) as [B L].
  assert (words [hex sig; hex pk] (p2pkh_script_sig (hex sig) (hex pk))) as W.
  { change (p2pkh_script_sig (hex sig) (hex pk)) with (join (lit " ") [hex sig; hex pk]). apply words_join. repeat constructor; apply hex_is_word; (assumption || lia). }
  destruct (p2pkh_input_spends H cx name net pubkey _ segwit sig pk _ K Hc En ND (make_p2pkh_output_script_template H name net pubkey En) B1 B2 ltac:(lia) ltac:(lia) W) as (ssig & E1 & E2).
  exists (template P2PKH (key_hash H name pubkey)), ssig. split; [apply (p2pkh_serialize name net En ND); assumption|]. split; [exact E1|]. rewrite E2. intuition lia.
Qed.
Print Assumptions p2pkh_templates_spend.

(* filled in with a key, as its comment says, nobody can spend it *)
Theorem p2pkh_script_pubkey_refuted : forall H cx name net pk, hashes_ok H -> hashing H cx -> get_network name = Ok net -> ~ In name decred_names ->
  all_bytes pk -> 1 <= len pk <= 1000 -> len pk <> 20 ->
  exists script, serialize net (p2pkh_script_pubkey (hex pk)) = Ok script /\ forall segwit sig wit, spends cx segwit sig script wit = false.
Proof.
  intros H cx name net pk K [_ Hc] En ND B L N. eexists. split; [apply (p2pkh_key_serialize name net En ND); assumption|]. intros segwit sig wit. unfold spends.
  destruct (run cx sig []) as [s1|]; [|reflexivity]. rewrite run_p2pkh_other; [reflexivity|exact N|lia|]. intros m. rewrite Hc. apply K.
Qed.
Print Assumptions p2pkh_script_pubkey_refuted.

Theorem p2sh_script_pubkey_exact : forall name net h, get_network name = Ok net -> ~ In name decred_names ->
  all_bytes h -> len h = 20 -> serialize net (p2sh_script_pubkey (hex h)) = Ok (template P2SH h).
Proof. intros name net h En ND. apply (p2sh_serialize name net En ND). Qed.
Print Assumptions p2sh_script_pubkey_exact.

(* filled in with a hash *)
Theorem p2w_partial : forall name net h, get_network name = Ok net -> ~ In name decred_names -> all_bytes h ->
  (len h = 20 -> serialize net (p2w (hex h)) = Ok (template P2WPKH h)) /\
  (len h = 32 -> serialize net (p2w (hex h)) = Ok (template P2WSH h)).
Proof.
  intros name net h En ND B. split; intros L; rewrite (p2w_serialize name net En ND) by (assumption || lia); unfold smallest; rewrite L; cbn [Z.leb Z.compare Pos.compare Pos.compare_cont push template app]; rewrite L; reflexivity.
Qed.
Print Assumptions p2w_partial.

(* filled in with a witness script after its length, as its comment says, anybody can spend it *)
Theorem p2w_refuted : forall cx name net b, get_network name = Ok net -> ~ In name decred_names -> all_bytes b -> 40 <= len b <= 517 ->
  exists d script, length_prepend b = Ok d /\ serialize net (p2w (hex d)) = Ok script /\ forall segwit, spends cx segwit [] script [] = true.
Proof.
  intros cx name net b En ND B L. destruct (prefixed b B L) as (x & d & E & Bd & Ld & X). exists (x :: d).
  assert (1 <= len (x :: d) <= 1000) as Ld' by lia. exists (0 :: push (smallest (x :: d)) (x :: d)).
  split; [rewrite length_prepend_wire; destruct (Z.ltb_spec (len b) (2 ^ 64)); [rewrite E; reflexivity|lia]|].
  split; [apply (p2w_serialize name net En ND); assumption|]. intros segwit. apply (spends_anyone cx); assumption.
Qed.
Print Assumptions p2w_refuted.
Example single_ex :
  serialize BitcoinMain (p2pkh_script_pubkey (hex (h_rmd160 toy [1]))) = Ok (template P2PKH (h_rmd160 toy [1])) /\
  serialize BitcoinMain (p2pkh_script_pubkey (lit "020709")) = Ok [118; 169; 3; 2; 7; 9; 136; 172] /\
  serialize BitcoinMain (p2pkh_script_sig (lit "30020709") (lit "020709")) = Ok [4; 48; 2; 7; 9; 3; 2; 7; 9] /\
  serialize BitcoinMain (p2sh_script_pubkey (hex (h_rmd160 toy [1]))) = Ok (template P2SH (h_rmd160 toy [1])) /\
  serialize BitcoinMain (p2w (hex (h_sha256 toy [1]))) = Ok (template P2WSH (h_sha256 toy [1])) /\
  (exists d, length_prepend (repeat 81 40) = Ok d /\ serialize BitcoinMain (p2w (hex d)) = Ok ([0; 41; 40] ++ repeat 81 40)).
Proof. do 5 (split; [vm_compute; reflexivity|]). eexists. split; [vm_compute; reflexivity|vm_compute; reflexivity]. Qed.
