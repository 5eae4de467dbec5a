(* Lemmas about the script templates: how they serialize and what they do when they are run *)
From Coq Require Import String.
From Verif Require Import Py LBase SNum SHash SNet SScript SAddr STx MUtils MNet MScript MExamples SInterp LUtils LNet LScript LInterp.
Open Scope list_scope.
Open Scope Z_scope.
Ltac Zify.zify_post_hook ::= idtac.

Definition word (w : str) : Prop := w <> [] /\ Forall (fun c => py_space c = false) w.

Lemma words_join ws : Forall word ws -> words ws (join (lit " ") ws).
Proof.
  assert (forall w ws sep, Forall (fun c => py_space c = true) sep -> Forall word (w :: ws) -> words (w :: ws) (sep ++ join (lit " ") (w :: ws))) as K.
  { intros w vs. revert w. induction vs as [|v vs IH]; intros w sep S F; inversion F as [|? ? [W1 W2] F']; subst.
    - cbn [join]. rewrite <- (app_nil_r w) at 2. apply words_cons; try assumption; [apply words_nil; constructor|intros c t E; discriminate].
    - change (join (lit " ") (w :: v :: vs)) with (w ++ (lit " " ++ join (lit " ") (v :: vs))).
      apply words_cons; try assumption; [apply IH; [repeat constructor|exact F']|]. intros c t E. injection E as <- _. reflexivity. }
  destruct ws as [|w ws]; intros F; [apply words_nil; constructor|]. apply (K w ws []); [constructor|exact F].
Qed.

Lemma hex_is_word d : all_bytes d -> 1 <= len d -> word (hex d).
Proof.
  intros B L. split; [|apply hex_no_space, all_bytes_is_bytes, B]. intros E. apply (f_equal zlen) in E. rewrite zlen_hex, zlen_nil in E. change (zlen d) with (len d) in E. lia.
Qed.

(** * serializing *)

Lemma opcode_words name c n : In (c, n) (opcodes_of name) -> word n.
Proof.
  assert (forall l, forallb (fun p => negb (leqb (snd p) []) && forallb (fun x => negb (py_space x)) (snd p)) l = true -> In (c, n) l -> word n) as K.
  { intros l F I. rewrite forallb_forall in F. specialize (F _ I). cbn [snd] in F. apply andb_true_iff in F. destruct F as [F1 F2]. split.
    - intros ->. discriminate.
    - apply Forall_forall. intros x X. rewrite forallb_forall in F2. specialize (F2 x X). destruct (py_space x); [discriminate|reflexivity]. }
  unfold opcodes_of. destruct in_dec; apply K; vm_compute; reflexivity.
Qed.

Lemma text_words name es : Forall (standard_element name) es -> words (map text es) (join (lit " ") (map text es)) /\ Forall2 spelled (map text es) es.
Proof.
  intros F. split.
  - apply words_join. apply Forall_forall. intros w I. apply in_map_iff in I. destruct I as [e [<- I]]. rewrite Forall_forall in F. specialize (F e I).
    destruct e as [c n|f d]; cbn [text standard_element] in *; [apply (opcode_words name c), F|]. destruct F as [B [L _]]. apply hex_is_word; [exact B|lia].
  - clear F. induction es as [|e es IH]; [constructor|]. constructor; [left; reflexivity|exact IH].
Qed.

Lemma serialize_texts name net es : get_network name = Ok net -> Forall (standard_element name) es ->
  serialize net (join (lit " ") (map text es)) = Ok (concat (map wire es)).
Proof. intros En F. destruct (text_words name es F) as [W Sp]. apply (c17 name net _ es _ En F Sp W). Qed.

Lemma bitcoin_op name c n : ~ In name decred_names ->
  existsb (fun o => (fst o =? c) && leqb (snd o) n) bitcoin_opcodes && negb (c =? 171) = true -> standard_element name (Op c n).
Proof.
  intros N E. apply andb_true_iff in E. destruct E as [E C]. split; [|lia]. unfold opcodes_of. destruct in_dec; [contradiction|].
  apply existsb_exists in E. destruct E as [[c' n'] [I E]]. cbn [fst snd] in E. apply andb_true_iff in E. destruct E as [E1 E2].
  apply Z.eqb_eq in E1. apply leqb_eq in E2. subst. exact I.
Qed.

Lemma push_element name d : all_bytes d -> 1 <= len d <= 1000 -> standard_element name (Push (smallest d) d).
Proof. intros B L. cbn. auto. Qed.

(** * the elements of the templates *)

Definition data (d : bytes) : element := Push (smallest d) d.

Definition msig_elements (pk0 pk1 : bytes) : list element :=
  [Op 82 (lit "OP_2"); data pk0; data pk1; Op 82 (lit "OP_2"); Op 174 (lit "OP_CHECKMULTISIG")].

Definition htlc_elements (sh pkh0 tm pkh1 : bytes) : list element :=
  [Op 99 (lit "OP_IF"); Op 168 (lit "OP_SHA256"); data sh; Op 136 (lit "OP_EQUALVERIFY"); Op 118 (lit "OP_DUP"); Op 169 (lit "OP_HASH160"); data pkh0;
   Op 103 (lit "OP_ELSE"); data tm; Op 177 (lit "OP_CHECKLOCKTIMEVERIFY"); Op 117 (lit "OP_DROP"); Op 118 (lit "OP_DUP"); Op 169 (lit "OP_HASH160"); data pkh1;
   Op 104 (lit "OP_ENDIF"); Op 136 (lit "OP_EQUALVERIFY"); Op 172 (lit "OP_CHECKSIG")].

Lemma msig_text pk0 pk1 : msig_two_two (hex pk0) (hex pk1) = join (lit " ") (map text (msig_elements pk0 pk1)).
Proof. reflexivity. Qed.
Lemma htlc_text sh pkh0 tm pkh1 : htlc_redeem_script (hex sh) (hex pkh0) (hex tm) (hex pkh1) = join (lit " ") (map text (htlc_elements sh pkh0 tm pkh1)).
Proof. reflexivity. Qed.

(** * running *)

Section Run.
Context (cx : context).

Lemma step_if x s a cs o : forallb (fun b => b) cs = true -> o + 1 <= 201 -> zlen s + zlen a <= 1000 ->
  step cx (IOp 99) {| stack := x :: s; alt := a; conds := cs; ops := o |} = Some {| stack := s; alt := a; conds := truthy x :: cs; ops := o + 1 |}.
Proof.
  intros E O L. unfold step. cbn [ops]. change (96 <? 99) with true. cbv iota. destruct (Z.ltb_spec 201 (o + 1)); [lia|]. change (disabled 99) with false. cbn [orb].
  change ((99 <=? 99) && (99 <=? 104)) with true. cbv iota. unfold control, executing. cbn [conds stack alt]. rewrite E. cbn [Z.eqb Pos.eqb orb].
  unfold small_stacks. cbn [stack alt]. destruct (Z.leb_spec (zlen s + zlen a) 1000); [reflexivity|lia].
Qed.
Lemma step_if_nil a cs o : forallb (fun b => b) cs = true -> step cx (IOp 99) {| stack := []; alt := a; conds := cs; ops := o |} = None.
Proof.
  intros E. unfold step. cbn [ops]. change (96 <? 99) with true. cbv iota. destruct (Z.ltb_spec 201 (o + 1)); [reflexivity|]. change (disabled 99) with false. cbn [orb].
  change ((99 <=? 99) && (99 <=? 104)) with true. cbv iota. unfold control, executing. cbn [conds stack alt]. rewrite E. reflexivity.
Qed.
Lemma step_else b s a cs o : o + 1 <= 201 -> zlen s + zlen a <= 1000 ->
  step cx (IOp 103) {| stack := s; alt := a; conds := b :: cs; ops := o |} = Some {| stack := s; alt := a; conds := negb b :: cs; ops := o + 1 |}.
Proof.
  intros O L. unfold step. cbn [ops]. change (96 <? 103) with true. cbv iota. destruct (Z.ltb_spec 201 (o + 1)); [lia|]. change (disabled 103) with false. cbn [orb].
  change ((99 <=? 103) && (103 <=? 104)) with true. cbv iota. unfold control. cbn [conds stack alt Z.eqb Pos.eqb orb].
  unfold small_stacks. cbn [stack alt]. destruct (Z.leb_spec (zlen s + zlen a) 1000); [reflexivity|lia].
Qed.
Lemma step_endif b s a cs o : o + 1 <= 201 -> zlen s + zlen a <= 1000 ->
  step cx (IOp 104) {| stack := s; alt := a; conds := b :: cs; ops := o |} = Some {| stack := s; alt := a; conds := cs; ops := o + 1 |}.
Proof.
  intros O L. unfold step. cbn [ops]. change (96 <? 104) with true. cbv iota. destruct (Z.ltb_spec 201 (o + 1)); [lia|]. change (disabled 104) with false. cbn [orb].
  change ((99 <=? 104) && (104 <=? 104)) with true. cbv iota. unfold control. cbn [conds stack alt Z.eqb Pos.eqb orb].
  unfold small_stacks. cbn [stack alt]. destruct (Z.leb_spec (zlen s + zlen a) 1000); [reflexivity|lia].
Qed.

Ltac sizes := rewrite ?zlen_cons, ?zlen_nil in *; lia.
Ltac fits := match goal with |- context [?x <=? 1000] => destruct (Z.leb_spec x 1000); [|exfalso; sizes] end.
Ltac op := rewrite step_op; [|reflexivity..|lia]; cbn [operate Z.eqb Pos.eqb Z.leb Z.compare Pos.compare Pos.compare_cont andb orb Z.add Pos.add Pos.succ]; try reflexivity.
Ltac pushd := rewrite step_push by reflexivity; match goal with |- context [len ?d <=? 520] => destruct (Z.leb_spec (len d) 520); [|exfalso; lia] end; cbn [andb]; fits.

Ltac skipd := rewrite step_skip_push; [|reflexivity|sizes]; match goal with |- context [len ?d <=? 520] => destruct (Z.leb_spec (len d) 520); [|exfalso; lia] end.
Ltac skipo := rewrite step_skip_op; [|reflexivity|reflexivity|lia|lia|sizes]; cbn [Z.add Pos.add Pos.succ].

Definition htlc (sh pkh0 tm pkh1 : bytes) : bytes := concat (map wire (htlc_elements sh pkh0 tm pkh1)).

Lemma data_code d : 1 <= len d <= 1000 -> code_ok (data d).
Proof. apply smallest_code. Qed.
Lemma data_length d : zlen (wire (data d)) <= len d + 3.
Proof. apply push_length. Qed.

Lemma htlc_length sh pkh0 tm pkh1 : len (htlc sh pkh0 tm pkh1) <= len sh + len pkh0 + len tm + len pkh1 + 25.
Proof.
  change (len (htlc sh pkh0 tm pkh1)) with (zlen (htlc sh pkh0 tm pkh1)). unfold htlc, htlc_elements. cbn [map concat].
  pose proof (data_length sh). pose proof (data_length pkh0). pose proof (data_length tm). pose proof (data_length pkh1).
  rewrite !zlen_app, zlen_nil. cbn [wire]. unfold data in *. cbn [wire] in *. rewrite !zlen_cons, !zlen_nil. lia.
Qed.

Lemma run_htlc sh pkh0 tm pkh1 s1 : 1 <= len sh <= 520 -> 1 <= len pkh0 <= 520 -> 1 <= len tm <= 520 -> 1 <= len pkh1 <= 520 -> zlen s1 <= 999 ->
  run cx (htlc sh pkh0 tm pkh1) s1 =
  match s1 with
  | [] => None
  | x :: r =>
      if truthy x
      then match r with
           | secret :: pk :: sig :: q =>
               if same sh (cx_sha256 cx secret) && same pkh0 (h160 cx pk)
               then match cx_checksig cx sig pk with Some b => Some (bool_bytes b :: q) | None => None end
               else None
           | _ => None
           end
      else match r with
           | pk :: sig :: q =>
               if (len tm <=? 5) && locktime_reached cx (scriptnum_value tm) && same pkh1 (h160 cx pk)
               then match cx_checksig cx sig pk with Some b => Some (bool_bytes b :: q) | None => None end
               else None
           | _ => None
           end
  end.
Proof.
  intros L1 L2 L3 L4 LS. pose proof (htlc_length sh pkh0 tm pkh1) as LL. unfold htlc in *. rewrite run_wires; [| |lia].
  2:{ repeat (constructor; [first [apply data_code; lia | cbn [code_ok]; lia]|]). constructor. }
  unfold start, htlc_elements, data. cbn [map instr_of Z.eqb steps].
  destruct s1 as [|x r]; [rewrite step_if_nil by reflexivity; reflexivity|]. pose proof (zlen_nonneg r).
  rewrite step_if; [|reflexivity|lia|sizes]. destruct (truthy x).
  - destruct r as [|secret r]; [op|]. op. fits. pushd. op.
    destruct (same sh (cx_sha256 cx secret)); [|destruct r as [|? [|]]; reflexivity]. cbn [andb]. fits.
    destruct r as [|pk r]; [op|]. op. fits. op. fits. pushd.
    rewrite step_else; [|lia|sizes]. cbn [negb Z.add Pos.add Pos.succ].
    skipd. skipo. skipo. skipo. skipo. skipd.
    rewrite step_endif; [|lia|sizes]. cbn [Z.add Pos.add Pos.succ]. op. fold (h160 cx pk).
    destruct (same pkh0 (h160 cx pk)); [|destruct r; reflexivity]. fits.
    destruct r as [|sig q]; [op|]. op. destruct (cx_checksig cx sig pk); [|reflexivity]. fits. reflexivity.
  - skipo. skipd. skipo. skipo. skipo. skipd. rewrite step_else; [|lia|sizes]. cbn [negb Z.add Pos.add Pos.succ].
    pushd. op. destruct ((len tm <=? 5) && locktime_reached cx (scriptnum_value tm)) eqn:T; [|destruct r as [|? [|]]; reflexivity]. cbn [andb]. fits.
    op. fits. destruct r as [|pk r]; [op|]. op. fits. op. fits. pushd.
    rewrite step_endif; [|lia|sizes]. cbn [Z.add Pos.add Pos.succ]. op. fold (h160 cx pk).
    destruct (same pkh1 (h160 cx pk)); [|destruct r; reflexivity]. fits.
    destruct r as [|sig q]; [op|]. op. destruct (cx_checksig cx sig pk); [|reflexivity]. fits. reflexivity.
Qed.

Definition msig (pk0 pk1 : bytes) : bytes := concat (map wire (msig_elements pk0 pk1)).

Lemma msig_length pk0 pk1 : len (msig pk0 pk1) <= len pk0 + len pk1 + 9.
Proof.
  change (len (msig pk0 pk1)) with (zlen (msig pk0 pk1)). unfold msig, msig_elements. cbn [map concat].
  pose proof (data_length pk0). pose proof (data_length pk1).
  rewrite !zlen_app, zlen_nil. cbn [wire]. unfold data in *. cbn [wire] in *. rewrite !zlen_cons, !zlen_nil. lia.
Qed.

Lemma run_msig pk0 pk1 s1 : 1 <= len pk0 <= 520 -> 1 <= len pk1 <= 520 -> zlen s1 <= 996 ->
  run cx (msig pk0 pk1) s1 =
  match s1 with
  | sig1 :: sig0 :: d :: q =>
      match cx_checksig cx sig1 pk1, d with
      | Some true, [] => match cx_checksig cx sig0 pk0 with Some b => Some (bool_bytes b :: q) | None => None end
      | Some false, [] => Some (bool_bytes false :: q)
      | _, _ => None
      end
  | _ => None
  end.
Proof.
  intros L1 L2 LS. pose proof (msig_length pk0 pk1) as LL. unfold msig in *. rewrite run_wires; [| |lia].
  2:{ repeat (constructor; [first [apply data_code; lia | cbn [code_ok]; lia]|]). constructor. }
  pose proof (zlen_nonneg s1).
  change (msig_elements pk0 pk1) with ([Op 82 (lit "OP_2"); data pk0; data pk1; Op 82 (lit "OP_2")] ++ [Op 174 (lit "OP_CHECKMULTISIG")]).
  rewrite map_app, steps_app.
  rewrite steps_values; [|repeat (constructor; [first [apply data_code; lia | cbn [code_ok]; lia]|]); constructor|reflexivity|rewrite !zlen_cons, zlen_nil; lia].
  unfold data. cbn [forallb pushed small Z.eqb Pos.eqb map rev app]. unfold small. change (len [82 - 80] <=? 520) with true.
  destruct (Z.leb_spec (len pk0) 520); [|lia]. destruct (Z.leb_spec (len pk1) 520); [|lia]. cbn [andb instr_of Z.eqb steps]. unfold start.
  rewrite step_op; [|reflexivity..|lia].
  change (operate cx 174 ([82 - 80] :: pk1 :: pk0 :: [82 - 80] :: s1) [] (0 + 1))
    with (match multisig cx ([2] :: pk1 :: pk0 :: [2] :: s1) 1 with Some (r, o') => Some (r, @nil bytes, o') | None => None end).
  assert (multisig cx ([2] :: pk1 :: pk0 :: [2] :: s1) 1 =
    if 2 <=? zlen s1 then match check_sigs cx [pk1; pk0] (firstn 2 s1), skipn 2 s1 with Some b, [] :: r => Some (bool_bytes b :: r, 3) | _, _ => None end else None) as ->.
  { unfold multisig. change (scriptnum_value [2]) with 2. rewrite !zlen_cons.
    destruct (Z.leb_spec 2 (1 + (1 + (1 + zlen s1)))); [|lia]. reflexivity. }
  destruct s1 as [|sig1 [|sig0 s1]]; [reflexivity|reflexivity|]. rewrite !zlen_cons in *. pose proof (zlen_nonneg s1).
  destruct (Z.leb_spec 2 (1 + (1 + zlen s1))); [|lia]. cbn [firstn skipn].
  cbn [check_sigs length Nat.ltb Nat.leb]. destruct (cx_checksig cx sig1 pk1) as [[]|].
  - destruct (cx_checksig cx sig0 pk0) as [[]|]; (destruct s1 as [|[|] q]; [reflexivity| |reflexivity]); try reflexivity; rewrite ?zlen_cons, ?zlen_nil in *;
    match goal with |- context [?x <=? 1000] => destruct (Z.leb_spec x 1000); [reflexivity|lia] end.
  - destruct s1 as [|[|] q]; [reflexivity| |reflexivity]. rewrite ?zlen_cons, ?zlen_nil in *.
    match goal with |- context [?x <=? 1000] => destruct (Z.leb_spec x 1000); [reflexivity|lia] end.
  - destruct s1 as [|[|] q]; reflexivity.
Qed.
End Run.

(** * the templates as scripts *)

Section Templates.
Context (name : str) (net : network) (En : get_network name = Ok net) (ND : ~ In name decred_names).

Ltac ops := repeat (constructor; [first [apply push_element; assumption | apply bitcoin_op; [exact ND|vm_compute; reflexivity]]|]); constructor.

Lemma htlc_serialize sh pkh0 tm pkh1 : all_bytes sh -> all_bytes pkh0 -> all_bytes tm -> all_bytes pkh1 ->
  1 <= len sh <= 1000 -> 1 <= len pkh0 <= 1000 -> 1 <= len tm <= 1000 -> 1 <= len pkh1 <= 1000 ->
  serialize net (htlc_redeem_script (hex sh) (hex pkh0) (hex tm) (hex pkh1)) = Ok (htlc sh pkh0 tm pkh1).
Proof using All. intros. rewrite htlc_text. apply (serialize_texts name net _ En). unfold htlc_elements, data. ops. Qed.

Lemma msig_serialize pk0 pk1 : all_bytes pk0 -> all_bytes pk1 -> 1 <= len pk0 <= 1000 -> 1 <= len pk1 <= 1000 ->
  serialize net (msig_two_two (hex pk0) (hex pk1)) = Ok (msig pk0 pk1).
Proof using All. intros. rewrite msig_text. apply (serialize_texts name net _ En). unfold msig_elements, data. ops. Qed.

Definition execute_elements (sig pk secret : bytes) : list element := [data sig; data pk; data secret; Op 81 (lit "OP_1")].
Definition refund_elements (sig pk : bytes) : list element := [data sig; data pk; Op 0 (lit "OP_0")].
Definition msig_stack_elements (sig0 sig1 : bytes) : list element := [Op 0 (lit "OP_0"); data sig0; data sig1].

Lemma execute_standard sig pk secret : all_bytes sig -> all_bytes pk -> all_bytes secret -> 1 <= len sig <= 1000 -> 1 <= len pk <= 1000 -> 1 <= len secret <= 1000 ->
  Forall (standard_element name) (execute_elements sig pk secret).
Proof using ND. intros. unfold execute_elements, data. ops. Qed.
Lemma refund_standard sig pk : all_bytes sig -> all_bytes pk -> 1 <= len sig <= 1000 -> 1 <= len pk <= 1000 -> Forall (standard_element name) (refund_elements sig pk).
Proof using ND. intros. unfold refund_elements, data. ops. Qed.
Lemma msig_stack_standard sig pk : all_bytes sig -> all_bytes pk -> 1 <= len sig <= 1000 -> 1 <= len pk <= 1000 -> Forall (standard_element name) (msig_stack_elements sig pk).
Proof using ND. intros. unfold msig_stack_elements, data. ops. Qed.

Lemma p2pkh_serialize h : all_bytes h -> len h = 20 -> serialize net (p2pkh_script_pubkey (hex h)) = Ok (template P2PKH h).
Proof using All.
  intros B L. rewrite p2pkh_wires by exact L. assert (1 <= len h <= 1000) by lia.
  change (p2pkh_script_pubkey (hex h)) with (join (lit " ") (map text [Op 118 (lit "OP_DUP"); Op 169 (lit "OP_HASH160"); data h; Op 136 (lit "OP_EQUALVERIFY"); Op 172 (lit "OP_CHECKSIG")])).
  rewrite (serialize_texts name net _ En); [|unfold data; ops]. unfold data. unfold smallest. rewrite L. reflexivity.
Qed.
Lemma p2sh_serialize h : all_bytes h -> len h = 20 -> serialize net (p2sh_script_pubkey (hex h)) = Ok (template P2SH h).
Proof using All.
  intros B L. rewrite p2sh_wires by exact L. assert (1 <= len h <= 1000) by lia.
  change (p2sh_script_pubkey (hex h)) with (join (lit " ") (map text [Op 169 (lit "OP_HASH160"); data h; Op 135 (lit "OP_EQUAL")])).
  rewrite (serialize_texts name net _ En); [|unfold data; ops]. unfold data. unfold smallest. rewrite L. reflexivity.
Qed.
Lemma p2w_serialize d : all_bytes d -> 1 <= len d <= 1000 -> serialize net (p2w (hex d)) = Ok (0 :: push (smallest d) d).
Proof using All.
  intros B L. change (p2w (hex d)) with (join (lit " ") (map text [Op 0 (lit "OP_0"); data d])).
  rewrite (serialize_texts name net _ En); [|unfold data; ops]. unfold data. cbn [map wire concat app]. rewrite app_nil_r. reflexivity.
Qed.
Lemma p2pkh_key_serialize d : all_bytes d -> 1 <= len d <= 1000 ->
  serialize net (p2pkh_script_pubkey (hex d)) = Ok (concat (map wire [Op 118 []; Op 169 []; data d; Op 136 []; Op 172 []])).
Proof using All.
  intros B L.
  change (p2pkh_script_pubkey (hex d)) with (join (lit " ") (map text [Op 118 (lit "OP_DUP"); Op 169 (lit "OP_HASH160"); data d; Op 136 (lit "OP_EQUALVERIFY"); Op 172 (lit "OP_CHECKSIG")])).
  rewrite (serialize_texts name net _ En); [|unfold data; ops]. reflexivity.
Qed.
End Templates.

Lemma htlc_program sh pkh0 tm pkh1 : program (htlc sh pkh0 tm pkh1) = None.
Proof. apply program_first; lia. Qed.

Lemma msig_program pk0 pk1 : program (msig pk0 pk1) = None.
Proof.
  unfold msig, msig_elements. cbn [map concat wire app]. unfold data. cbn [wire]. unfold smallest.
  destruct (Z.leb_spec (len pk0) 75); [|destruct (Z.leb_spec (len pk0) 255)]; cbn [push app]; unfold program.
  2,3: rewrite !andb_false_r; reflexivity.
  assert (len (pk0 ++ wire (data pk1) ++ [82; 174]) =? len pk0 = false) as E.
  { change (len (pk0 ++ wire (data pk1) ++ [82; 174])) with (zlen (pk0 ++ wire (data pk1) ++ [82; 174])). rewrite !zlen_app. change (zlen pk0) with (len pk0).
    change (zlen [82; 174]) with 2. pose proof (zlen_nonneg (wire (data pk1))). lia. }
  unfold data in E. cbn [wire] in E. unfold smallest in E. rewrite E, !andb_false_r. reflexivity.
Qed.

(* what 160 bits of hash are never equal to *)
Lemma run_p2pkh_other cx d s : len d <> 20 -> 1 <= len d <= 1000 -> (forall m, len (cx_rmd160 cx m) = 20) ->
  run cx (concat (map wire [Op 118 []; Op 169 []; data d; Op 136 []; Op 172 []])) s = None.
Proof.
  intros N L K. assert (len (concat (map wire [Op 118 []; Op 169 []; data d; Op 136 []; Op 172 []])) <= 10000) as LL.
  { cbn [map concat]. pose proof (data_length d). change (len ?x) with (zlen x). rewrite !zlen_app, zlen_nil. cbn [wire]. rewrite !zlen_cons, !zlen_nil. unfold data in *. cbn [wire] in *. lia. }
  rewrite run_wires; [| |exact LL].
  2:{ repeat (constructor; [first [apply data_code; lia | cbn [code_ok]; lia]|]). constructor. }
  unfold start, data. cbn [map instr_of Z.eqb steps].
  rewrite step_op; [|reflexivity..|lia]. cbn [operate Z.eqb Pos.eqb Z.leb Z.compare Pos.compare Pos.compare_cont andb orb].
  destruct s as [|x s]; [reflexivity|]. cbn [Z.add]. match goal with |- context [if ?c then _ else None] => destruct c; [|reflexivity] end.
  rewrite step_op; [|reflexivity..|lia]. cbn [operate Z.eqb Pos.eqb Z.leb Z.compare Pos.compare Pos.compare_cont andb orb].
  match goal with |- context [if ?c then _ else None] => destruct c; [|reflexivity] end.
  rewrite step_push by reflexivity. match goal with |- context [if ?c then _ else None] => destruct c; [|reflexivity] end.
  rewrite step_op; [|reflexivity..|lia]. cbn [operate Z.eqb Pos.eqb Z.leb Z.compare Pos.compare Pos.compare_cont andb orb].
  destruct (same d (cx_rmd160 cx (cx_sha256 cx x))) eqn:E; [|reflexivity]. apply same_true in E. exfalso. apply N. rewrite E. apply K.
Qed.

(* a Script number of 6 bytes or more is large *)
Lemma scriptnum_short b n : all_bytes b -> scriptnum_minimal b -> scriptnum_value b = n -> 0 < n < 2 ^ 39 -> 1 <= len b <= 5.
Proof.
  intros B M V R. apply all_bytes_is_bytes in B. destruct (exists_last (l := b)) as [p [y E]].
  { intros ->. vm_compute in V. lia. }
  subst b. apply Forall_app in B. destruct B as [Bp By]. inversion By as [|? ? Hy _]; subst. unfold is_byte in Hy.
  assert (len (p ++ [y]) = zlen p + 1) as Lp by (change (len (p ++ [y])) with (zlen (p ++ [y])); rewrite zlen_app; reflexivity).
  pose proof (zlen_nonneg p) as P0. pose proof (from_le_range p Bp) as Rp.
  unfold scriptnum_value in R. rewrite last_last, Lp, le_value_from_le, from_le_app in R. cbn [from_le] in R. replace (y + 256 * 0) with y in R by lia.
  split; [lia|]. rewrite Lp. destruct (Z.le_gt_cases (zlen p) 4) as [|G]; [lia|]. exfalso.
  assert (256 ^ 5 <= 256 ^ zlen p) as Pw by (apply Z.pow_le_mono_r; lia). change (256 ^ 5) with (2 ^ 40) in Pw.
  destruct (Z.ltb_spec y 128).
  - destruct M as [M|[M|(q & x & y' & M & X)]].
    + apply app_eq_nil in M. destruct M; discriminate.
    + rewrite last_last in M. destruct (Z.eq_dec y 0) as [->|]; [apply M; reflexivity|]. nia.
    + change [x; y'] with ([x] ++ [y']) in M. rewrite app_assoc in M. apply app_inj_tail in M. destruct M as [-> ->].
      apply Forall_app in Bp. destruct Bp as [Bq _]. pose proof (from_le_range q Bq) as Rq. rewrite from_le_app in R. cbn [from_le] in R.
      rewrite zlen_app in *. change (zlen [x]) with 1 in *. assert (256 ^ 4 <= 256 ^ zlen q) as Pq by (apply Z.pow_le_mono_r; lia).
      change (256 ^ 4) with (2 ^ 32) in Pq. nia.
  - replace (zlen p + 1 - 1) with (zlen p) in R by lia. nia.
Qed.

(* OP_TRUE and OP_FALSE are no names of opcodes *)
Lemma true_false_tokens name net : get_network name = Ok net ->
  serialize_token net (lit "OP_TRUE") = Err ValueError /\ serialize_token net (lit "OP_FALSE") = Err ValueError.
Proof.
  intros En. apply (supported_forall (fun _ net => match serialize_token net (lit "OP_TRUE"), serialize_token net (lit "OP_FALSE") with Err ValueError, Err ValueError => true | _, _ => false end)) in En; [|vm_compute; reflexivity].
  destruct (serialize_token net (lit "OP_TRUE")) as [|[]]; try discriminate. destruct (serialize_token net (lit "OP_FALSE")) as [|[]]; try discriminate. auto.
Qed.

Lemma serialize_bad_end name net ds t e : get_network name = Ok net -> Forall (fun d => all_bytes d /\ 1 <= len d <= 1000) ds -> word t -> serialize_token net t = Err e ->
  serialize net (join (lit " ") (map hex ds ++ [t])) = Err e.
Proof.
  intros En F W T. unfold serialize. assert (words (map hex ds ++ [t]) (join (lit " ") (map hex ds ++ [t]))) as Ws.
  { apply words_join. apply Forall_app. split; [|constructor; [exact W|constructor]]. apply Forall_forall. intros w I. apply in_map_iff in I. destruct I as [d [<- I]].
    rewrite Forall_forall in F. destruct (F d I) as [B L]. apply hex_is_word; [exact B|lia]. }
  rewrite (words_split _ _ Ws). clear Ws. assert (mapM (serialize_token net) (map hex ds ++ [t]) = Err e) as ->; [|reflexivity].
  induction F as [|d ds [B L] F IH]; cbn [map app mapM]; [rewrite T; reflexivity|].
  destruct (text_ne (Push (smallest d) d) name net En (push_element name d B L)) as (_ & _ & E). cbn [text] in E. rewrite E. cbn [bind]. rewrite IH. reflexivity.
Qed.

Lemma wires_length k es : Forall (fun e => zlen (wire e) <= k) es -> len (concat (map wire es)) <= k * zlen es.
Proof.
  change (len (concat (map wire es))) with (zlen (concat (map wire es))).
  induction 1 as [|e es E F IH]; [cbn; lia|]. cbn [map concat]. rewrite zlen_app, zlen_cons. lia.
Qed.

Lemma prefixed b : all_bytes b -> 40 <= len b <= 517 ->
  exists x d, string_wire b = x :: d /\ all_bytes (x :: d) /\ 41 <= len (x :: d) <= 520 /\ x <> 0.
Proof.
  intros B L. unfold string_wire. unfold compactsize. destruct (Z.ltb_spec (len b) 253).
  - exists (len b), b. split; [reflexivity|]. split; [constructor; [lia|exact B]|]. split; [|lia]. change (len (len b :: b)) with (zlen (len b :: b)). rewrite zlen_cons. change (zlen b) with (len b). lia.
  - destruct (Z.ltb_spec (len b) (2 ^ 16)); [|lia]. exists 253, (le_bytes 2 (len b) ++ b). split; [reflexivity|].
    split; [constructor; [lia|]; apply Forall_app; split; [|exact B]|].
    + unfold le_bytes. cbn [seq map]. repeat constructor; apply Z.mod_pos_bound; lia.
    + split; [|lia]. change (len (253 :: le_bytes 2 (len b) ++ b)) with (zlen (253 :: le_bytes 2 (len b) ++ b)). rewrite zlen_cons, zlen_app. change (zlen b) with (len b).
      change (zlen (le_bytes 2 (len b))) with 2. lia.
Qed.

Lemma spends_anyone cx segwit x d : 41 <= len (x :: d) <= 520 -> x <> 0 ->
  spends cx segwit [] (0 :: push (smallest (x :: d)) (x :: d)) [] = true.
Proof.
  intros L X. unfold spends. rewrite run_nil. remember (x :: d) as e eqn:De.
  assert (program (0 :: push (smallest e) e) = None) as P.
  { unfold smallest. destruct (Z.leb_spec (len e) 75); [|destruct (Z.leb_spec (len e) 255)]; cbn [push app]; unfold program.
    - destruct (Z.leb_spec (len e) 40); [lia|]. rewrite !andb_false_r. reflexivity.
    - rewrite !andb_false_r. reflexivity.
    - rewrite !andb_false_r. reflexivity. }
  assert (is_p2sh (0 :: push (smallest e) e) = false) as Q.
  { unfold is_p2sh. destruct (same (firstn 2 (0 :: push (smallest e) e)) [169; 20]) eqn:Y; [|rewrite andb_false_r; reflexivity].
    apply same_true in Y. cbn [firstn] in Y. discriminate. }
  assert (0 :: push (smallest e) e = concat (map wire [Op 0 []; data e])) as W by (cbn [map wire data concat app]; rewrite app_nil_r; reflexivity).
  assert (run cx (0 :: push (smallest e) e) [] = Some [e; []]) as R.
  { rewrite W. rewrite run_values; [| |reflexivity|vm_compute; discriminate|].
    - unfold data. cbn [forallb pushed map rev app Z.eqb]. unfold small. destruct (Z.leb_spec (len e) 520); [reflexivity|lia].
    - constructor; [left; reflexivity|]. constructor; [apply data_code; lia|constructor].
    - eapply Z.le_trans; [apply (wires_length 523)|vm_compute; discriminate]. pose proof (data_length e). constructor; [vm_compute; discriminate|constructor; [cbv beta; unfold data in *; cbn [wire] in *; lia|constructor]]. }
  rewrite R. replace (if segwit then program (0 :: push (smallest e) e) else None) with (@None (Z * bytes)) by (rewrite P; destruct segwit; reflexivity).
  rewrite Q. cbn [top_true]. rewrite andb_true_r. subst e. destruct d as [|y d]; [change (len [x]) with 1 in L; lia|].
  unfold truthy. cbn [removelast existsb]. destruct (Z.eqb_spec x 0); [contradiction|]. reflexivity.
Qed.
