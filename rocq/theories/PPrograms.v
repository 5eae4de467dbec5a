(* C89: the programs in riemann/examples.  MPrograms.v has them as functions of their
   constants; what they are given is described in SPrograms.v. *)
From Coq Require Import String.
From Verif Require Import Py SNum SNet SHash SScript SBase58 SBech32 SAddr SInterp STx SSig SCopy SZcash SSign SZSign SClass SPrograms
  MNet MUtils MShared MAddr MScript MTx MZcash MBuilder MClass MExamples MPrograms
  LBase LBase58 LNet LTx LScript LAddr LBuilder LBuilderTx LSig LSigTop LInterp LExamples LZcashTx LSapling LZcashTop LSign LZSign LTrunc LPrograms
  PScript PAddr PTx PSig PBuilder PCopy PInterp PZcash PZip PSign PZSign PExamples PPay PClass.
Open Scope list_scope.
Open Scope Z_scope.
Ltac Zify.zify_post_hook ::= idtac.

(** * sapling_example.py *)

(* whatever its constants are, it stops with an exception; with good constants it stops
   where the transaction is made (simple.unsigned_legacy_tx passes None for the lists of
   shielded spends and outputs) *)
Theorem sapling_example_refuted : forall H name net p1 p2 value address pk1 pk2 sign1 sign2,
  get_network name = Ok net -> In name sapling_names ->
  (exists e, sapling_example H net p1 p2 value address pk1 pk2 sign1 sign2 = Err e) /\
  (forall key1 key2 script, hashes_ok H -> owns H net key1 p1 -> owns H net key2 p2 -> MAddr.to_output_script H net address = Ok script -> 0 <= value < 2 ^ 64 ->
   sapling_example H net p1 p2 value address pk1 pk2 sign1 sign2 = Err TypeError).
Proof.
  intros H name net p1 p2 value address pk1 pk2 sign1 sign2 En Z. destruct (proj2 (proj2 (families name)) Z) as [ND [N2 N3]]. split.
  - unfold sapling_example, sapling_example_with. do 5 (apply bind_Err; intros ? ?).
    match goal with |- context [simple_unsigned_legacy_tx H net ?i ?o None None None None None None] =>
      destruct (simple_unsigned_legacy_tx_refuted H name net i o None None None None None None En (or_intror (or_intror Z))) as [e ->] end. exists e. reflexivity.
  - intros key1 key2 script K O1 O2 E R. unfold sapling_example, sapling_example_with.
    rewrite (proj1 (owned_code H name net key1 p1 K En O1)), (proj1 (owned_code H name net key2 p2 K En O2)).
    destruct (owned_input H name net key1 p1 En ND O1) as (i1 & -> & _). destruct (owned_input H name net key2 p2 En ND O2) as (i2 & -> & _).
    pose proof (simple_output_by_script H name net address value K En) as S. rewrite E in S. destruct (proj2 (proj2 S) R ND) as (o & -> & _). cbn [bind].
    clear - En Z. unfold sapling_names in Z. cbn [In] in Z. repeat (destruct Z as [<-|Z]; [apply Ok_inj in En; subst net; reflexivity|]). contradiction.
Qed.
Print Assumptions sapling_example_refuted.

(* C89, full statement: the programs print what their comments say.  Here: with the lists
   that the constructor asks for, the printed transaction has the two inputs, pays the
   address, and is accepted *)
Theorem sapling_example_repaired_partial : forall W H name net p1 p2 key1 key2 value address script sign1 sign2,
  hashes_ok H -> get_network name = Ok net -> In name sapling_names ->
  owns H net key1 p1 -> owns H net key2 p2 -> usable_key key1 -> usable_key key2 -> signer W key1 sign1 -> signer W key2 sign2 ->
  MAddr.to_output_script H net address = Ok script -> 0 <= value < 2 ^ 64 ->
  exists t, sapling_example_repaired H net p1 p2 value address (hex key1) (hex key2) sign1 sign2 = Ok (hex (sa_bytes t)) /\ sapling_obj H net t /\
    Forall2 refers_to [p1; p2] (map the_input (sa_tx_ins t)) /\
    map the_output (sa_tx_outs t) = [{| out_value := le_bytes 8 value; out_script := script |}] /\
    accepts_all (sapling_accepted W H name t) [previous H name key1 p1; previous H name key2 p2].
Proof.
  intros W H name net p1 p2 key1 key2 value address script sign1 sign2 K En Z O1 O2 U1 U2 S1 S2 E R. destruct (proj2 (proj2 (families name)) Z) as [ND [N2 N3]].
  unfold sapling_example_repaired, sapling_example_with.
  rewrite (proj1 (owned_code H name net key1 p1 K En O1)), (proj1 (owned_code H name net key2 p2 K En O2)).
  destruct (owned_input H name net key1 p1 En ND O1) as (i1 & -> & I1 & _ & Q1 & F1). destruct (owned_input H name net key2 p2 En ND O2) as (i2 & -> & I2 & _ & Q2 & F2).
  pose proof (simple_output_by_script H name net address value K En) as S. rewrite E in S. destruct (proj2 (proj2 S) R ND) as (o & -> & Oo & Fo). cbn [bind].
  pose proof (output_size H name net address script o value K En E Fo) as Lo.
  destruct (make_tx_sapling_fields H name net 2 [i1; i2] [o] 0 0 0 [] [] NoWits [] None None None En Z) as (t & Et & Ot & T1 & T2 & T3 & T4 & T5 & T6 & T7 & T8); try lia; try (constructor; fail).
  { constructor; [exact I1|constructor; [exact I2|constructor]]. }
  { constructor; [exact Oo|constructor]. }
  { split; [exact Z|]. split; [apply zlen_le_bytes|]. split; [apply zlen_le_bytes|]. split; [apply zlen_le_bytes|]. split; [reflexivity|]. split; [reflexivity|]. split; [intros X; contradiction X; auto|].
    split; [left; reflexivity|]. split; [vm_compute; discriminate|]. split; [congruence|]. split; [left; discriminate|].
    apply (small_layout i1 i2 o I1 I2 Lo); apply zlen_le_bytes. }
  cbn [map] in Et. rewrite Et. cbn [bind].
  pose (V := (fun p => le_bytes 8 (pr_value p)) : prevout -> bytes).
  assert (forall p key, owns H net key p -> i2le_padded (pr_value p) 8 = Ok (V p)) as Ev by (intros p key (_ & _ & _ & Rv); rewrite padded8, word_Ok by (cbn; lia); reflexivity).
  rewrite (Ev p1 key1 O1), (Ev p2 key2 O2). cbn [bind].
  assert (forall n i p key, nth_error [i1; i2] n = Some i -> exists d, sapling_digester H net t (Z.of_nat n) (string_wire (out_script (previous H name key p))) (V p) ZAll false = Ok d /\
    sapling_sighash_all H net t false (Some (V p)) (Z.of_nat n) false (Some (string_wire (out_script (previous H name key p)))) = Ok d) as D.
  { intros n i p key Ei. rewrite <- T1 in Ei. eexists. split; [exact (sapling_sighash_partial H net t ZAll false n i (out_script (previous H name key p)) (V p) Ot Ei ltac:(discriminate) ltac:(left; discriminate))|].
    exact (sapling_sighash_partial H net t ZAll false n i (out_script (previous H name key p)) (V p) Ot Ei ltac:(discriminate) ltac:(left; discriminate)). }
  destruct (D 0%nat i1 p1 key1 eq_refl) as (d1 & D1 & D1'). destruct (D 1%nat i2 p2 key2 eq_refl) as (d2 & D2 & D2'). change (Z.of_nat 0) with 0 in *. change (Z.of_nat 1) with 1 in *.
  rewrite D1', D2'. cbn [bind].
  destruct (sign_in W H name net (sapling_digester H net t) 0 key1 p1 i1 d1 sign1 K En O1 U1 S1 I1 Q1 D1) as (j1 & -> & J1).
  destruct (sign_in W H name net (sapling_digester H net t) 1 key2 p2 i2 d2 sign2 K En O2 U2 S2 I2 Q2 D2) as (j2 & -> & J2). cbn [bind].
  destruct (sapling_transaction_accepted W H name net t [previous H name key1 p1; previous H name key2 p2] [j1; j2] K En Z Ot) as [A B]; [rewrite T1; reflexivity|rewrite T1; reflexivity| |].
  { rewrite T1. apply (two_inputs _ _ _ (fun n i o i' => zcash_signed_input W H net (sapling_digester H net t) n i o i')); assumption. }
  destruct (signed_inputs W H net (sapling_digester H net t) [i1; i2] [previous H name key1 p1; previous H name key2 p2] [j1; j2]) as (Fj & _); [constructor; [exact I1|constructor; [exact I2|constructor]]|reflexivity|reflexivity| |].
  { apply (two_inputs _ _ _ (fun n i o i' => zcash_signed_input W H net (sapling_digester H net t) n i o i')); assumption. }
  inversion Fj as [|? ? Oj1 Fj']; subst. inversion Fj' as [|? ? Oj2 _]; subst.
  destruct B as (t' & C).
  { rewrite T2, T3, T4, T5, T6, T7, T8. destruct (sapling_needed H net t Ot) as (M1 & M2 & M3). rewrite T6, T7, T8 in *. cbn [needed] in M1, M2, M3. rewrite M1, M2, M3.
    apply (small_layout j1 j2 o Oj1 Oj2 Lo); apply zlen_le_bytes. }
  rewrite C. cbn [bind]. destruct (A t' C) as (Ot' & _ & Ac). exists t'. split; [reflexivity|]. split; [exact Ot'|].
  destruct (copy_sapling H net t (Some [j1; j2]) None None None None None None None None None None Ot) as (_ & _ & X). destruct (X t' C) as (X1 & X2 & _). cbn [updated] in X1, X2.
  rewrite X1, X2, T2. split; [|split; [cbn [map]; rewrite Fo; reflexivity|exact Ac]].
  cbn [map]. constructor; [|constructor; [|constructor]].
  - apply (copied_refers p1 i1 j1 I1 F1). destruct J1 as (? & ? & ? & ? & ? & ? & s & J1). exists s. apply J1.
  - apply (copied_refers p2 i2 j2 I2 F2). destruct J2 as (? & ? & ? & ? & ? & ? & s & J2). exists s. apply J2.
Qed.
Print Assumptions sapling_example_repaired_partial.

(* two outputs of two keys; a signature is the key and a part of the digest *)
Definition ex_world : world :=
  {| ecdsa := fun key d sig => Some (same sig (key ++ map (fun x => x mod 256) (firstn 4 d))); other_digest := fun _ _ => []; other_opcode := fun _ _ => None |}.
Definition ex_sign (key d : bytes) : str := hex ((key ++ map (fun x => x mod 256) (firstn 4 d)) ++ [1]).
Definition ex_address (key : bytes) : str := match make_p2pkh_address small ZcashSaplingMain key with Ok (Some a) => a | _ => [] end.
Definition ex_prevout (key : bytes) (index : Z) : prevout :=
  {| pr_address := ex_address key; pr_tx_id := hex (repeat 7 32); pr_index := index; pr_value := 9 |}.
Example sapling_example_ex :
  sapling_example small ZcashSaplingMain (ex_prevout [2; 7; 9] 0) (ex_prevout [3; 8; 8] 5) 17 (ex_address [2; 1; 1]) (hex [2; 7; 9]) (hex [3; 8; 8]) (ex_sign [2; 7; 9]) (ex_sign [3; 8; 8]) = Err TypeError /\
  exists t, sapling_example_repaired small ZcashSaplingMain (ex_prevout [2; 7; 9] 0) (ex_prevout [3; 8; 8] 5) 17 (ex_address [2; 1; 1]) (hex [2; 7; 9]) (hex [3; 8; 8]) (ex_sign [2; 7; 9]) (ex_sign [3; 8; 8]) = Ok (hex (sa_bytes t)) /\
    accepts_all (sapling_accepted ex_world small (lit "zcash_sapling_main") t)
      [previous small (lit "zcash_sapling_main") [2; 7; 9] (ex_prevout [2; 7; 9] 0); previous small (lit "zcash_sapling_main") [3; 8; 8] (ex_prevout [3; 8; 8] 5)].
Proof.
  assert (forall n, 0 <= n < 10 -> owns small ZcashSaplingMain [2; 7; 9] (ex_prevout [2; 7; 9] n) /\ owns small ZcashSaplingMain [3; 8; 8] (ex_prevout [3; 8; 8] n)) as Ow.
  { intros n Hn. split; (split; [vm_compute; reflexivity|]); (split; [exists (repeat 7 32); split; [apply Forall_forall; intros x I; apply repeat_spec in I; subst; lia|split; reflexivity]|]); cbn [ex_prevout pr_index pr_value]; lia. }
  assert (forall key, all_bytes key -> len key = 3 -> usable_key key /\ signer ex_world key (ex_sign key)) as Sg.
  { intros key B L. split; [split; [exact B|lia]|]. intros d. exists (key ++ map (fun x => x mod 256) (firstn 4 d)). split; [reflexivity|]. split; [cbn [ex_world ecdsa]; rewrite same_refl; reflexivity|].
    split; [apply Forall_app; split; [exact B|apply Forall_map, Forall_forall; intros x _; apply Z.mod_pos_bound; lia]|].
    pose proof (firstn_le_length 4 d). unfold len in *. rewrite app_length, map_length. lia. }
  destruct (Sg [2; 7; 9] ltac:(repeat constructor; lia) eq_refl) as [U1 S1]. destruct (Sg [3; 8; 8] ltac:(repeat constructor; lia) eq_refl) as [U2 S2].
  destruct (MAddr.to_output_script small ZcashSaplingMain (ex_address [2; 1; 1])) as [script|] eqn:Ea; [|vm_compute in Ea; discriminate Ea].
  split.
  - exact (proj2 (sapling_example_refuted small (lit "zcash_sapling_main") ZcashSaplingMain (ex_prevout [2; 7; 9] 0) (ex_prevout [3; 8; 8] 5) 17 (ex_address [2; 1; 1]) (hex [2; 7; 9]) (hex [3; 8; 8]) (ex_sign [2; 7; 9]) (ex_sign [3; 8; 8]) eq_refl ltac:(left; reflexivity))
      [2; 7; 9] [3; 8; 8] script small_ok (proj1 (Ow 0 ltac:(lia))) (proj2 (Ow 5 ltac:(lia))) Ea ltac:(lia)).
  - destruct (sapling_example_repaired_partial ex_world small (lit "zcash_sapling_main") ZcashSaplingMain (ex_prevout [2; 7; 9] 0) (ex_prevout [3; 8; 8] 5) [2; 7; 9] [3; 8; 8] 17 (ex_address [2; 1; 1]) script (ex_sign [2; 7; 9]) (ex_sign [3; 8; 8])
      small_ok eq_refl ltac:(left; reflexivity) (proj1 (Ow 0 ltac:(lia))) (proj2 (Ow 5 ltac:(lia))) U1 U2 S1 S2 Ea ltac:(lia)) as (t & E & _ & _ & _ & A).
    exists t. split; [exact E|exact A].
Qed.

(** * sapling_tx_parsing.py *)

(* it fails for every transaction: copy wants the new expiry height as four bytes *)
Theorem sapling_tx_parsing_refuted : forall H name net v t, get_network name = Ok net -> In name sapling_names -> sapling_obj H net t -> sapling_tx_value v t ->
  sapling_tx_parsing H net v =
  Err (match sa_tx_shielded_outputs t, sa_tx_joinsplits t with _ :: _, _ :: _ => ValueError | _, _ => IndexError end).
Proof.
  intros H name net v t En Z O (attrs & -> & _ & _ & (a1 & E1 & _) & (a2 & E2 & _) & (a3 & E3 & V3) & (a4 & E4 & V4) & (a5 & E5 & V5) & (a6 & E6 & _) & (a7 & E7 & (us & -> & U)) &
    (a8 & E8 & (js & -> & J)) & (a9 & E9 & _) & (a10 & E10 & _) & (a11 & E11 & _) & _).
  apply sapling_obj_iff in O. destruct O as (Fi & Fo & Fs & Fu & Fj & A & _). apply (sa_rules_iff name net En _ _ _ _ _ _ _ _ _ _ _ Fi Fo Fs Fu Fj) in A. destruct A as (_ & A3 & A4 & A5 & _).
  unfold sapling_tx_parsing, copy_with_expiry. cbn [attribute]. rewrite E4. cbn [bind].
  assert (exists n, le_integer a4 = Ok n) as (n & ->) by (unfold holds in V4; destruct a4; try discriminate V4; eexists; reflexivity). cbn [bind]. rewrite E7. cbn [bind first_item].
  inversion U as [|u0 x us' xs Hu U' Eu]; subst; [reflexivity|]. cbn [bind].
  destruct Hu as (ua & -> & Hu). destruct Hu as (_ & _ & _ & (ue & Eu' & _) & _). cbn [attribute]. rewrite Eu'. cbn [bind]. rewrite E8. cbn [bind first_item].
  inversion J as [|j0 y js' ys Hj J' Ej]; subst; [reflexivity|]. cbn [bind].
  destruct Hj as (ja & -> & Hj). destruct Hj as (_ & _ & _ & _ & _ & _ & _ & _ & (jz & Ejz & (za & -> & Hz)) & _). cbn [attribute]. rewrite Ejz. cbn [bind attribute].
  destruct Hz as (_ & _ & (zc & Ezc & _)). rewrite Ezc. cbn [bind]. rewrite E1, E2, E3, E5, E6, E9, E10, E11. cbn [bind].
  unfold call_SaplingTx.
  assert (zcash_only net = Ok tt /\ net_has net (lit "sapling") = true) as [-> ->].
  { clear - En Z. unfold sapling_names in Z. cbn [In] in Z. repeat (destruct Z as [<-|Z]; [apply Ok_inj in En; subst net; split; reflexivity|]). contradiction. }
  cbn [bind negb guard]. unfold sized at 1. unfold holds in V3. rewrite V3. change (zlen (sa_lock_time t)) with (len (sa_lock_time t)). rewrite A3. reflexivity.
Qed.
Print Assumptions sapling_tx_parsing_refuted.
(* one with a shielded output and a JoinSplit, where all but the last statement goes well *)
Definition ex_parsed_joinsplit : sapling_joinsplit :=
  match SaplingJoinsplit ZcashSaplingMain (zrepeat 0 8) (zrepeat 0 8) (zrepeat 1 32) (zrepeat 2 64) (zrepeat 3 64) (zrepeat 4 32) (zrepeat 5 32) (zrepeat 6 64) ex_sapling_proof (zrepeat 7 1202) with
  | Ok j => j | Err _ => Build_joinsplit _ [] [] [] [] [] [] [] [] ex_sapling_proof [] [] end.
Example sapling_tx_parsing_ex : exists v t, sapling_obj small ZcashSaplingMain t /\ sapling_tx_value v t /\ sapling_tx_parsing small ZcashSaplingMain v = Err ValueError.
Proof.
  pose (t := sa_of small ZcashSaplingMain [ex_input] [ex_output] (zrepeat 0 4) (zrepeat 1 4) (zrepeat 255 8) [] [ex_shielded_output] [ex_parsed_joinsplit] (Some (zrepeat 3 32)) (Some (zrepeat 3 64)) (Some (zrepeat 3 64))).
  assert (SaplingTx small ZcashSaplingMain [ex_input] [ex_output] (zrepeat 0 4) (zrepeat 1 4) (zrepeat 255 8) (Some []) (Some [ex_shielded_output]) (Some [ex_parsed_joinsplit]) (Some (zrepeat 3 32)) (Some (zrepeat 3 64)) (Some (zrepeat 3 64)) = Ok t) as E.
  { apply SaplingTx_Ok. split; [vm_compute; reflexivity|reflexivity]. }
  assert (sapling_obj small ZcashSaplingMain t) as O.
  { destruct ex_spend_obj as [_ U]. split; [constructor; [split; reflexivity|constructor]|]. split; [constructor; [reflexivity|constructor]|]. split; [constructor|]. split; [constructor; [exact U|constructor]|]. split; [|exact E]. constructor; [|constructor]. split; vm_compute; reflexivity. }
  destruct (sapling_zkproof_call ZcashSaplingMain (PBytes (zrepeat 1 48)) (PBytes (zrepeat 2 96)) (PBytes (zrepeat 3 48)) _ _ _ eq_refl eq_refl eq_refl) as (z & _ & Vz).
  destruct (shielded_output_call ZcashSaplingMain (PBytes (zrepeat 4 32)) (PBytes (zrepeat 5 32)) (PBytes (zrepeat 6 32)) (PBytes (zrepeat 7 580)) (PBytes (zrepeat 8 80)) z _ _ _ _ _ _ eq_refl eq_refl eq_refl eq_refl eq_refl Vz) as (u & _ & Vu).
  destruct (sapling_joinsplit_call ZcashSaplingMain (PBytes (zrepeat 0 8)) (PBytes (zrepeat 0 8)) (PBytes (zrepeat 1 32)) (PBytes (zrepeat 2 64)) (PBytes (zrepeat 3 64)) (PBytes (zrepeat 4 32)) (PBytes (zrepeat 5 32)) (PBytes (zrepeat 6 64)) z (PBytes (zrepeat 7 1202))
    _ _ _ _ _ _ _ _ _ _ eq_refl eq_refl eq_refl eq_refl eq_refl eq_refl eq_refl eq_refl Vz eq_refl) as (j & _ & Vj).
  destruct (txin_call (PBytes (repeat 7 32 ++ [1; 0; 0; 0])) (PBytes [0]) (PBytes []) (PBytes (repeat 255 4)) {| op_tx_id := repeat 7 32; op_index := [1; 0; 0; 0]; op_bytes := repeat 7 32 ++ [1; 0; 0; 0] |} _ _ _ eq_refl (or_introl eq_refl) (or_introl eq_refl) eq_refl) as (i & _ & Vi).
  destruct (txout_call (PBytes [5; 0; 0; 0; 0; 0; 0; 0]) (PBytes [81]) _ _ eq_refl eq_refl) as (o & _ & Vo).
  pose proof (sapling_tx_call small ZcashSaplingMain (PList [i]) (PList [o]) (PBytes (zrepeat 0 4)) (PBytes (zrepeat 1 4)) (PBytes (zrepeat 255 8)) (PList []) (PList [u]) (PList [j]) (PBytes (zrepeat 3 32)) (PBytes (zrepeat 3 64)) (PBytes (zrepeat 3 64))
    [ex_input] [ex_output] (zrepeat 0 4) (zrepeat 1 4) (zrepeat 255 8) (Some []) (Some [ex_shielded_output]) (Some [ex_parsed_joinsplit]) (Some (zrepeat 3 32)) (Some (zrepeat 3 64)) (Some (zrepeat 3 64))) as C.
  rewrite E in C. destruct C as (v & _ & Vt); try reflexivity; try (split; [discriminate|]); try (eexists; split; [reflexivity|]); try (constructor; [assumption|constructor]); try constructor.
  exists v, t. split; [exact O|]. split; [exact Vt|]. apply (sapling_tx_parsing_refuted small (lit "zcash_sapling_main") ZcashSaplingMain v t eq_refl ltac:(left; reflexivity) O Vt).
Qed.

(** * p2pkh_op_return.py *)

(* simple.py has no p2pkh_input, so the program never gets to the end *)
Theorem op_return_refuted : forall H net version sequence lock sender receiver tx_id index value fee note sign,
  (exists e, op_return_program H net version sequence lock sender receiver tx_id index value fee note sign = Err e) /\
  (forall r, op_return_unsigned H net version sequence lock sender receiver tx_id index value fee note = Ok r ->
   op_return_program H net version sequence lock sender receiver tx_id index value fee note sign = Err AttributeError).
Proof.
  intros. unfold op_return_program, op_return_with. destruct (op_return_unsigned _ _ _ _ _ _ _ _ _ _ _ _) as [[[o t] d]|e]; cbn; split; intros; try (eexists; reflexivity); try discriminate; reflexivity.
Qed.
Print Assumptions op_return_refuted.

(* up to there: the transaction is as described, and the digest is the original one for
   the script code 0x14 <hash>, which is neither the scriptPubKey (the size in front is
   missing, so its first byte is taken for it) nor what BIP143 signs *)
Theorem op_return_digest_partial : forall H name net version sequence lock sender receiver id index value fee note,
  hashes_ok H -> get_network name = Ok net -> In name segwit_names -> no_fork_id name ->
  all_bytes sender -> all_bytes receiver -> all_bytes id -> len id = 32 -> all_bytes note -> len note <= 77 ->
  0 <= version < 2 ^ 32 -> 0 <= sequence < 2 ^ 32 -> 0 <= lock < 2 ^ 32 -> 0 <= index < 2 ^ 32 -> 0 <= value - fee < 2 ^ 64 ->
  let program := op_return_unsigned H net version sequence lock (hex sender) (hex receiver) (hex id) index value fee note in
  (program = Err ValueError /\ (ambiguous H name net sender \/ ambiguous H name net receiver)) \/
  exists o t, program = Ok (AnyOutpoint o, AnyTx t, double_hash H name (legacy_preimage All false 0 (20 :: key_hash H name sender) (the_tx t))) /\
    tx_obj H net t /\
    the_tx t = {| t_version := le_bytes 4 version;
                  t_ins := [{| in_txid := rev id; in_index := le_bytes 4 index; in_script := []; in_sequence := le_bytes 4 sequence |}];
                  t_outs := [{| out_value := le_bytes 8 (value - fee); out_script := template P2WPKH (key_hash H name receiver) |};
                             {| out_value := le_bytes 8 0; out_script := 0x6a :: push (if len note <=? 75 then Direct else Pushdata1) note |}];
                  t_witness := None; t_lock := le_bytes 4 lock |}.
Proof.
  intros H name net version sequence lock sender receiver id index value fee note K En Sg NF Bs Br Bi Li Bn Ln Rv Rs Rl Ri Ra program.
  assert (~ In name decred_names /\ ~ In name zcash_names) as [ND NZ].
  { clear - Sg. unfold segwit_names in Sg. cbn [map In] in Sg. repeat (destruct Sg as [<-|Sg]; [split; intros X; vm_compute in X; repeat (destruct X as [X|X]; [discriminate X|]); exact X|]). contradiction. }
  subst program. unfold op_return_unsigned. rewrite (fromhex_hex sender), (fromhex_hex receiver) by assumption. cbn [bind].
  destruct (p2wpkh_address_agrees_partial H name net sender true K En Sg) as (s & Es & As). destruct (p2wpkh_address_agrees_partial H name net receiver true K En Sg) as (r & Er & Ar).
  unfold make_p2wpkh_address. rewrite Es, Er. cbn [bind present].
  destruct (proj1 (simple_outpoint_fields name net id index None En Bi Li Ri) ND) as (o & -> & Oo & Ot & Oi). cbn [bind].
  destruct (proj1 (simple_unsigned_input_fields name net o (Some sequence) En ND Oo) Rs) as (i & -> & Ii & _ & _ & Ei). cbn [bind].
  rewrite (proj1 (make_p2wpkh_output_script_template H name net sender En) Sg) in As. rewrite (proj1 (make_p2wpkh_output_script_template H name net receiver En) Sg) in Ar.
  pose proof (simple_output_by_script H name net r (value - fee) K En) as So.
  destruct Ar as [Ar|(Ar & hrp & p & A)].
  2:{ left. rewrite Ar in So. rewrite So. split; [reflexivity|]. right. exists r, hrp, p. exact A. }
  rewrite Ar in So. destruct (proj2 (proj2 So) Ra ND) as (u & -> & Ou & Eu). cbn [bind].
  destruct (op_return_output_partial name net note En ND Bn Ln) as (v & -> & Ov & Ev & _). cbn [bind].
  destruct (simple_unsigned_legacy_tx_fields_partial H name net [i] [u; v] (Some version) (Some lock) None None None En ND NZ Rv Rl) as (t & Et & Ot' & Tt).
  { constructor; [exact Ii|constructor]. } { constructor; [exact Ou|constructor; [exact Ov|constructor]]. } { cbn; lia. } { cbn; lia. }
  cbn [map] in Et. rewrite Et. cbn [bind].
  destruct As as [As|(As & hrp & p & A)].
  2:{ left. rewrite As. split; [reflexivity|]. left. exists s, hrp, p. exact A. }
  right. rewrite As. cbn [bind]. exists o, t.
  pose proof (unsigned_plain _ _ _ _ _ _ _ Et) as P.
  change (sighash_all H net t 0 (template P2WPKH (key_hash H name sender)) None false) with (sighash_all H net t (Z.of_nat 0) (compactsize 0 ++ 20 :: key_hash H name sender) None false).
  rewrite (legacy_all_size_ignored H name net t 0 0 (20 :: key_hash H name sender) None false En NF Ot' P).
  - cbn [bind]. split; [reflexivity|]. split; [exact Ot'|]. rewrite Tt. cbn [map]. rewrite Ei, Eu, Ev, Ot, Oi. reflexivity.
  - rewrite Tt. cbn [t_ins map length]. lia.
  - lia.
  - right. lia.
  - pose proof (proj2 (key_hash_ok H name sender K)) as X. unfold len in *. cbn [length]. lia.
Qed.
Print Assumptions op_return_digest_partial.

(* whatever simple.p2pkh_input were, what the program prints is not accepted: it spends
   a segwit output, and the transaction has no witness *)
Theorem op_return_spend_refuted : forall W H name net helper version sequence lock sender receiver tx_id index value fee note sign t amount key,
  hashes_ok H -> In name segwit_names ->
  op_return_with H net (Some helper) version sequence lock sender receiver tx_id index value fee note sign = Ok t ->
  accepted W H name (the_tx t) 0 amount (template P2WPKH (key_hash H name key)) = false.
Proof.
  intros W H name net helper version sequence lock sender receiver tx_id index value fee note sign t amount key K Sg E.
  assert (plain t) as [P _].
  { unfold op_return_with, op_return_unsigned in E.
    repeat match type of E with
    | bind ?x _ = _ => destruct x eqn:?; cbn [bind] in E; [|discriminate E]
    | (let (_, _) := ?x in _) = _ => destruct x
    | match ?x with AnyTx _ => _ | _ => _ end = _ => destruct x; try discriminate E
    | match ?x with AnyIn _ => _ | _ => _ end = _ => destruct x; try discriminate E
    end.
    repeat match goal with
    | X : bind ?x _ = Ok _ |- _ => destruct x eqn:?; cbn [bind] in X; [|discriminate X]
    | X : match ?x with AnyTx _ => _ | _ => _ end = Ok _ |- _ => destruct x eqn:?; try discriminate X
    end.
    match goal with X : Ok (_, _, _) = Ok (_, _, _) |- _ => injection X as <- <- <- end.
    match goal with X : simple_unsigned_legacy_tx _ _ _ _ _ _ _ _ _ _ = Ok (AnyTx _) |- _ => apply unsigned_plain in X; exact (copied_plain _ _ _ _ _ _ _ _ X E) end. }
  pose proof (proj2 (key_hash_ok H name key K)) as L.
  apply (no_witness_refuted W H name (the_tx t) 0 amount (key_hash H name key) _ Sg); [|left; exact L|rewrite L; reflexivity].
  unfold witness_of, the_tx. cbn [t_witness]. rewrite P. reflexivity.
Qed.
Print Assumptions op_return_spend_refuted.

(* nor is the digest the one that is checked if the key's P2PKH output is spent *)
Theorem op_return_digest_refuted : forall H name net t o version sequence lock sender receiver id index value fee note d,
  hashes_ok H -> get_network name = Ok net -> In name segwit_names -> no_fork_id name ->
  all_bytes sender -> all_bytes receiver -> all_bytes id -> len id = 32 -> all_bytes note -> len note <= 77 ->
  0 <= version < 2 ^ 32 -> 0 <= sequence < 2 ^ 32 -> 0 <= lock < 2 ^ 32 -> 0 <= index < 2 ^ 32 -> 0 <= value - fee < 2 ^ 64 ->
  op_return_unsigned H net version sequence lock (hex sender) (hex receiver) (hex id) index value fee note = Ok (o, AnyTx t, d) ->
  double_hash H name (legacy_preimage All false 0 (template P2PKH (key_hash H name sender)) (the_tx t)) = d ->
  collision (double_hash H name) [legacy_preimage All false 0 (20 :: key_hash H name sender) (the_tx t);
                                  legacy_preimage All false 0 (template P2PKH (key_hash H name sender)) (the_tx t)].
Proof.
  intros H name net t o version sequence lock sender receiver id index value fee note d K En Sg NF Bs Br Bi Li Bn Ln Rv Rs Rl Ri Ra E D.
  destruct (op_return_digest_partial H name net version sequence lock sender receiver id index value fee note K En Sg NF Bs Br Bi Li Bn Ln Rv Rs Rl Ri Ra) as [(X & _)|(o' & t' & X & Ot & Tt)]; rewrite X in E; [discriminate E|].
  injection E as _ <- <-. pose proof (proj2 (key_hash_ok H name sender K)) as L.
  assert (plain t') as P.
  { unfold op_return_unsigned in X.
    repeat match goal with
    | Y : bind ?x _ = Ok _ |- _ => destruct x eqn:?; cbn [bind] in Y; [|discriminate Y]
    | Y : match ?x with AnyTx _ => _ | _ => _ end = Ok _ |- _ => destruct x eqn:?; try discriminate Y
    end.
    injection X as _ <- _. match goal with Y : simple_unsigned_legacy_tx _ _ _ _ _ _ _ _ _ _ = Ok (AnyTx _) |- _ => exact (unsigned_plain _ _ _ _ _ _ _ Y) end. }
  set (i := {| in_txid := rev id; in_index := le_bytes 4 index; in_script := []; in_sequence := le_bytes 4 sequence |}) in *.
  assert (nth_error (t_ins (the_tx t')) 0 = Some i) as Ni by (rewrite Tt; reflexivity).
  assert (0 < length (t_ins (the_tx t')))%nat as Nl by (rewrite Tt; cbn [t_ins length]; lia).
  assert (len (20 :: key_hash H name sender) = 21) as L1 by (unfold len in *; cbn [length]; lia).
  assert (len (template P2PKH (key_hash H name sender)) = 25) as L2 by (unfold template, len in *; rewrite !app_length; cbn [length]; lia).
  assert (forall code, len code = 21 \/ len code = 25 -> digest H All net t' (Z.of_nat 0) (string_wire code) None false = Ok (double_hash H name (legacy_preimage All false 0 code (the_tx t')))) as Dg.
  { intros code Lc. cbn [digest]. rewrite (legacy_all_partial H name net t' 0 code None false En NF Ot P Nl); [|right; lia|lia]. destruct (Z.leb_spec (len code) 1650); [reflexivity|lia]. }
  pose proof (Dg _ (or_introl L1)) as D1. pose proof (Dg _ (or_intror L2)) as D2. rewrite D in D2.
  assert (forall n, n = 21 \/ n = 25 -> readable_size name n /\ n < 2 ^ 64) as Rd by (intros n Hn; split; [right|]; lia).
  destruct (Rd _ (or_introl L1)) as [R1 R1']. destruct (Rd _ (or_intror L2)) as [R2 R2'].
  destruct (legacy_binds H name net t' t' 0 0 i i _ _ None None All All false false _ En NF Ot Ot P P Ni Ni R1 R2 R1' R2' D1 D2) as [C|(_ & _ & _ & _ & C)]; [exact C|].
  rewrite <- C in L2. lia.
Qed.
Print Assumptions op_return_digest_refuted.
(* the constants of the file, with shorter keys: the note, the amounts and the identifier *)
Definition ex_note : bytes := lit "made with " ++ [0xe2; 0x9d; 0xa4] ++ lit " by riemann".
Definition ex_op_return : res (any_outpoint * any_tx * bytes) :=
  op_return_unsigned small BitcoinMain 1 0xfffffffe 0 (hex [2; 7; 9]) (hex [2; 8; 8]) (hex (repeat 0xff 32)) 0 1000 10 ex_note.
Example op_return_ex :
  op_return_program small BitcoinMain 1 0xfffffffe 0 (hex [2; 7; 9]) (hex [2; 8; 8]) (hex (repeat 0xff 32)) 0 1000 10 ex_note (fun d => hex d) = Err AttributeError /\
  (exists o t d, ex_op_return = Ok (AnyOutpoint o, AnyTx t, d) /\ map (fun x => len (to_output_script x)) (tx_tx_outs t) = [22; 26] /\
     d = sha256d small (legacy_preimage All false 0 (20 :: h_rmd160 small (h_sha256 small [2; 7; 9])) (the_tx t)) /\
     d <> sha256d small (legacy_preimage All false 0 (template P2PKH (h_rmd160 small (h_sha256 small [2; 7; 9]))) (the_tx t))) /\
  exists t, op_return_with small BitcoinMain (Some (fun o sig pk seq => s <- serialize BitcoinMain (sig ++ lit " " ++ pk) ;; make_legacy_input BitcoinMain o s [] seq))
    1 0xfffffffe 0 (hex [2; 7; 9]) (hex [2; 8; 8]) (hex (repeat 0xff 32)) 0 1000 10 ex_note (fun d => hex d) = Ok t /\ map ti_script_sig (tx_tx_ins t) <> [[]].
Proof.
  split; [vm_compute; reflexivity|]. split.
  - eexists. eexists. eexists. split; [vm_compute; reflexivity|]. split; [vm_compute; reflexivity|]. split; [vm_compute; reflexivity|]. vm_compute. discriminate.
  - eexists. split; [vm_compute; reflexivity|]. vm_compute. discriminate.
Qed.

(** * sapling_htlc_example.py *)

(* simple.py has neither empty_outpoint nor p2sh_input, so the program never gets to the end *)
Theorem htlc_example_refuted : forall H net secret pk0 pk1 timeout value sg,
  (exists e, htlc_example H net secret pk0 pk1 timeout value sg = Err e) /\
  (forall r, htlc_payment H net secret pk0 pk1 timeout value = Ok r -> htlc_example H net secret pk0 pk1 timeout value sg = Err AttributeError).
Proof.
  intros. unfold htlc_example, htlc_example_with. destruct (htlc_payment _ _ _ _ _ _ _) as [[[r a] o]|e]; cbn; split; intros; try (eexists; reflexivity); try discriminate; reflexivity.
Qed.
Print Assumptions htlc_example_refuted.

(* with the two helpers put together from tx_builder.py, the output pays the amount to the
   contract, the first input takes it with the secret and a signature, the second one with
   a signature once the lock time is reached *)
Theorem htlc_example_repaired_partial : forall H cx name net o secret pk0 pk1 tm value sg sequence segwit,
  hashes_ok H -> hashing H cx -> get_network name = Ok net -> ~ In name decred_names -> outpoint_obj o ->
  all_bytes secret -> all_bytes pk0 -> all_bytes pk1 -> all_bytes tm -> all_bytes sg ->
  1 <= len secret <= 320 -> 1 <= len pk0 <= 320 -> 1 <= len pk1 <= 320 -> 1 <= len sg <= 320 -> 1 <= len tm <= 5 ->
  0 <= value < 2 ^ 64 -> 0 <= sequence < 2 ^ 32 ->
  exists u execute refund,
    htlc_example_with H net (Some (Ok (AnyOutpoint o))) (Some (p2sh_input net sequence)) (hex secret) (hex pk0) (hex pk1) (hex tm) value (hex sg) =
      Ok (AnyOut u, AnyIn execute, AnyIn refund) /\
    out_value (the_output u) = le_bytes 8 value /\
    Forall (fun i => in_txid i = op_tx_id o /\ in_index i = op_index o /\ in_sequence i = le_bytes 4 sequence) [the_input execute; the_input refund] /\
    (spends cx segwit (in_script (the_input execute)) (out_script (the_output u)) [] = true <-> cx_checksig cx sg pk0 = Some true) /\
    (spends cx segwit (in_script (the_input refund)) (out_script (the_output u)) [] = true <->
     locktime_reached cx (scriptnum_value tm) = true /\ cx_checksig cx sg pk1 = Some true).
Proof.
  intros H cx name net o secret pk0 pk1 tm value sg sequence segwit K Hc En ND Oo Bs B0 B1 Bt Bg Ls L0 L1 Lg Lt Rv Rq.
  assert (len (h_sha256 H secret) = 32 /\ all_bytes (h_sha256 H secret)) as [Lh Bh] by (destruct K as (K & _); apply K).
  destruct (key_hash_ok H name pk0 K) as [Bk0 Lk0]. destruct (key_hash_ok H name pk1 K) as [Bk1 Lk1].
  destruct (contract_sigs name net _ _ tm _ En ND Bh Bk0 Bt Bk1 Lh Lk0 Lt Lk1) as (Eb & Se & Sr).
  destruct (htlc_execute_spends H cx name net _ _ tm _ sg pk0 secret segwit K Hc En ND Bh Bk0 Bt Bk1 Bg B0 Bs Lh Lk0 Lt Lk1 ltac:(lia) ltac:(lia) ltac:(lia)) as (script & se & Es & Ee & Ye).
  destruct (htlc_refund_spends H cx name net _ _ tm _ sg pk1 segwit K Hc En ND Bh Bk0 Bt Bk1 Bg B1 Lh Lk0 Lt Lk1 ltac:(lia) ltac:(lia)) as (script' & sr & Es' & Er & Yr).
  pose proof (eq_trans (eq_sym Es') Es) as X. apply Ok_inj in X. subst script'.
  specialize (Se sg pk0 secret se Bg B0 Bs Lg L0 Ls Ee). specialize (Sr sg pk1 sr Bg B1 Lg L1 Er).
  destruct (p2sh_address_agrees H name net _ _ true K En Eb) as (address & Ea & Eo). rewrite Es in Eo.
  pose proof (simple_output_by_script H name net address value K En) as So. rewrite Eo in So. destruct (proj2 (proj2 So) Rv ND) as (u & Eu & _ & Tu).
  destruct (proj1 (make_legacy_input_exact name net o se [] sequence En ND Oo) Rq ltac:(change (len []) with 0; lia)) as (i & Ei & _ & _ & _ & Ti).
  destruct (proj1 (make_legacy_input_exact name net o sr [] sequence En ND Oo) Rq ltac:(change (len []) with 0; lia)) as (j & Ej & _ & _ & _ & Tj).
  exists u, i, j. split.
  - unfold htlc_example_with, htlc_payment. rewrite !fromhex_hex by assumption. cbn [bind]. unfold sha256. rewrite !(hash160_key_hash H name net _ En). unfold MUtils.sha256 in *.
    rewrite Ea. cbn [bind present]. rewrite Eu. cbn [bind member]. unfold p2sh_input. rewrite Ee. cbn [bind]. rewrite Ei. cbn [bind]. rewrite Er. cbn [bind]. rewrite Ej. reflexivity.
  - rewrite Tu, Ti, Tj. cbn [out_value out_script in_script in_txid in_index in_sequence]. rewrite !app_nil_r. split; [reflexivity|].
    split; [repeat constructor|]. split; [rewrite Ye; tauto|rewrite Yr; tauto].
Qed.
Print Assumptions htlc_example_repaired_partial.

(* the timeout in the file, 'deadbeef', is a negative number, which OP_CHECKLOCKTIMEVERIFY
   refuses: the output is only spent with the secret, or with another script of its hash *)
Theorem htlc_example_timeout_refuted : forall H cx name net sh pkh0 pkh1 script segwit sg wit,
  hashes_ok H -> hashing H cx -> get_network name = Ok net -> ~ In name decred_names ->
  all_bytes sh -> all_bytes pkh0 -> all_bytes pkh1 -> len sh = 32 -> len pkh0 = 20 -> len pkh1 = 20 ->
  let redeem := htlc_redeem_script (hex sh) (hex pkh0) (lit "deadbeef") (hex pkh1) in
  make_p2sh_output_script H net redeem = Ok script -> spends cx segwit sg script wit = true ->
  exists r s b, serialize net redeem = Ok b /\ run cx sg [] = Some (r :: s) /\ key_hash H name r = key_hash H name b /\ (r <> b \/ claimed cx sh pkh0 s).
Proof.
  intros H cx name net sh pkh0 pkh1 script segwit sg wit K Hc En ND B0 B1 B2 L0 L1 L2 redeem Es Y. unfold redeem in *. change (lit "deadbeef") with (hex [0xde; 0xad; 0xbe; 0xef]) in *.
  destruct (htlc_output_spent H cx name net sh pkh0 [0xde; 0xad; 0xbe; 0xef] pkh1 script segwit sg wit K Hc En ND B0 B1) as (r & s & b & E1 & E2 & E3 & C); try assumption; try lia.
  { repeat constructor; lia. } { cbn; lia. }
  exists r, s, b. split; [exact E1|]. split; [exact E2|]. split; [exact E3|]. destruct C as [C|[C|C]]; [left; exact C|right; exact C|].
  exfalso. destruct C as (x & pk & sig & rest & _ & _ & _ & C & _). vm_compute in C. discriminate C.
Qed.
Print Assumptions htlc_example_timeout_refuted.
(* both ways with one of the keys each: the same signature does for both in the program *)
Definition ex_context (locktime : Z) : context :=
  {| cx_locktime := locktime; cx_sequence := 0; cx_checksig := fun sig key => Some (same sig [4; 4; 4]);
     cx_other := fun _ _ => None; cx_sha256 := h_sha256 small; cx_rmd160 := h_rmd160 small |}.
Definition ex_contract (timeout : str) : res (any_out * any_in * any_in) :=
  htlc_example_with small ZcashSaplingMain (Some (Ok (AnyOutpoint {| op_tx_id := repeat 0 32; op_index := repeat 0 4; op_bytes := repeat 0 36 |})))
    (Some (p2sh_input ZcashSaplingMain 0)) (hex [50; 50]) (hex [2; 2]) (hex [3; 3]) timeout 500000 (hex [4; 4; 4]).
Example htlc_example_ex :
  htlc_example small ZcashSaplingMain (hex [50; 50]) (hex [2; 2]) (hex [3; 3]) (lit "9600") 500000 (hex [4; 4; 4]) = Err AttributeError /\
  (exists u i j, ex_contract (lit "9600") = Ok (AnyOut u, AnyIn i, AnyIn j) /\
    spends (ex_context 100) false (ti_script_sig i) (to_output_script u) [] = true /\
    spends (ex_context 100) false (ti_script_sig j) (to_output_script u) [] = false /\
    spends (ex_context 200) false (ti_script_sig j) (to_output_script u) [] = true) /\
  (exists u i j, ex_contract (lit "deadbeef") = Ok (AnyOut u, AnyIn i, AnyIn j) /\
    spends (ex_context 100) false (ti_script_sig i) (to_output_script u) [] = true /\
    spends (ex_context (2 ^ 32 - 1)) false (ti_script_sig j) (to_output_script u) [] = false).
Proof.
  split; [vm_compute; reflexivity|]. split.
  - eexists. eexists. eexists. split; [vm_compute; reflexivity|]. split; [vm_compute; reflexivity|]. split; vm_compute; reflexivity.
  - eexists. eexists. eexists. split; [vm_compute; reflexivity|]. split; vm_compute; reflexivity.
Qed.
