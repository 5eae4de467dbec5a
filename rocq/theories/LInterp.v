(* Lemmas about running the scripts that the library builds *)
From Coq Require Import String.
From Verif Require Import Py LBase SNum SHash SNet SScript SAddr MUtils SInterp LUtils LNet LScript.
Open Scope list_scope.
Open Scope Z_scope.
Ltac Zify.zify_post_hook ::= idtac.

Lemma same_true a b : same a b = true <-> a = b.
Proof. unfold same. destruct (list_eq_dec Z.eq_dec a b); split; congruence. Qed.
Lemma same_refl a : same a a = true.
Proof. apply same_true. reflexivity. Qed.

Lemma truthy_bool b : truthy (bool_bytes b) = b.
Proof. destruct b; reflexivity. Qed.

(** * decoding *)

Definition instr_of (e : element) : instr :=
  match e with Op c _ => if c =? 0 then IPush [] else IOp c | Push _ d => IPush d end.

Definition code_ok (e : element) : Prop :=
  match e with Op c _ => c = 0 \/ 79 <= c <= 255 
              | Push f d => match f with Direct => 1 <= len d <= 75 | Pushdata1 => len d <= 255 | Pushdata2 => len d <= 65535 end
              end.

Lemma opcodes_range name c n : In (c, n) (opcodes_of name) -> c = 0 \/ 79 <= c <= 255.
Proof.
  assert (forall l, forallb (fun p => (fst p =? 0) || ((79 <=? fst p) && (fst p <=? 255))) l = true -> In (c, n) l -> c = 0 \/ 79 <= c <= 255) as K.
  { intros l F I. rewrite forallb_forall in F. specialize (F _ I). cbn [fst] in F. lia. }
  unfold opcodes_of. destruct in_dec; apply K; vm_compute; reflexivity.
Qed.

Lemma element_code name e : element_ok name e -> code_ok e.
Proof. destruct e as [c n|f d]; intros E; [apply (opcodes_range name c n), E|destruct E as [_ E]; exact E]. Qed.

Lemma take_app n a b : len a = n -> take n (a ++ b) = Some (a, b).
Proof.
  intros E. unfold take. change (len (a ++ b)) with (zlen (a ++ b)). rewrite zlen_app. pose proof (zlen_nonneg b).
  change (len a) with (zlen a) in E. destruct (Z.ltb_spec (zlen a + zlen b) n); [lia|].
  rewrite (firstn_app_zlen a b n E), (skipn_app_zlen a b n E). reflexivity.
Qed.

Lemma next_wire e r : code_ok e -> next (wire e ++ r) = Some (instr_of e, r).
Proof.
  destruct e as [c n|f d]; cbn [code_ok wire instr_of]; intros K.
  - unfold next. cbn [app]. destruct (Z.eqb_spec c 0) as [->|N].
    + cbn [Z.leb Z.compare]. unfold take. pose proof (zlen_nonneg r). change (len r) with (zlen r). destruct (Z.ltb_spec (zlen r) 0); [lia|]. reflexivity.
    + destruct (Z.leb_spec c 75); [lia|]. destruct (Z.eqb_spec c 76); [lia|]. destruct (Z.eqb_spec c 77); [lia|]. destruct (Z.eqb_spec c 78); [lia|]. reflexivity.
  - rename K into L. destruct f; cbn [push app]; unfold next.
    + destruct (Z.leb_spec (len d) 75); [|lia]. rewrite take_app by reflexivity. reflexivity.
    + cbn [Z.leb Z.compare Pos.compare Pos.compare_cont Z.eqb Pos.eqb].
      change (len d :: d ++ r) with ([len d] ++ d ++ r). rewrite take_app by reflexivity.
      replace (le_value [len d]) with (len d) by (cbn [le_value]; lia). rewrite take_app by reflexivity. reflexivity.
    + cbn [Z.leb Z.compare Pos.compare Pos.compare_cont Z.eqb Pos.eqb].
      rewrite <- app_assoc. rewrite take_app by reflexivity.
      assert (le_value (le_bytes 2 (len d)) = len d) as ->.
      { unfold le_bytes. cbn [seq map le_value]. change (Z.of_nat 0) with 0. change (Z.of_nat 1) with 1.
        change (256 ^ 0) with 1. change (256 ^ 1) with 256. rewrite Z.div_1_r. assert (0 <= len d) by (unfold len; lia).
        pose proof (Z.div_mod (len d) 256). rewrite (Z.mod_small (len d / 256)); [lia|]. split; [apply Z.div_pos; lia|]. apply Z.div_lt_upper_bound; lia. }
      rewrite take_app by reflexivity. reflexivity.
Qed.

Lemma wire_nonempty e : (1 <= length (wire e))%nat.
Proof. destruct e as [c n|[] d]; cbn [wire push length]; lia. Qed.

Lemma decode_wires es : Forall code_ok es -> decode (concat (map wire es)) = Some (map instr_of es).
Proof.
  intros F. unfold decode. assert (forall fuel, (length (concat (map wire es)) <= fuel)%nat -> decode_from fuel (concat (map wire es)) = Some (map instr_of es)) as K.
  { induction F as [|e es E F IH]; intros fuel L; [destruct fuel; reflexivity|].
    cbn [map concat] in *. pose proof (wire_nonempty e) as W. rewrite app_length in L. destruct fuel as [|fuel]; [lia|].
    cbn [decode_from]. rewrite next_wire by exact E. rewrite IH by lia.
    destruct (wire e ++ concat (map wire es)) eqn:X; [|reflexivity]. apply (f_equal (@length Z)) in X. rewrite app_length in X. cbn [length] in X. lia. }
  apply K. lia.
Qed.

(** * running *)

Section Run.
Context (cx : context).

Definition start (s : list bytes) : state := {| stack := s; alt := []; conds := []; ops := 0 |}.

Definition finish (o : option state) : option (list bytes) :=
  match o with Some st => match conds st with [] => Some (stack st) | _ => None end | None => None end.

Lemma run_wires es s : Forall code_ok es -> len (concat (map wire es)) <= 10000 ->
  run cx (concat (map wire es)) s = finish (steps cx (map instr_of es) (start s)).
Proof.
  intros F L. unfold run. destruct (Z.ltb_spec 10000 (len (concat (map wire es)))); [lia|]. rewrite decode_wires by exact F. reflexivity.
Qed.

Lemma steps_app is js st : steps cx (is ++ js) st = match steps cx is st with Some st' => steps cx js st' | None => None end.
Proof. revert st. induction is as [|i is IH]; intros st; [reflexivity|]. cbn [app steps]. destruct (step cx i st); [apply IH|reflexivity]. Qed.

(* a push, when the script is executing *)
Lemma step_push d s a cs o : forallb (fun b => b) cs = true ->
  step cx (IPush d) {| stack := s; alt := a; conds := cs; ops := o |} =
  if (len d <=? 520) && (zlen s + 1 + zlen a <=? 1000)
  then Some {| stack := d :: s; alt := a; conds := cs; ops := o |} else None.
Proof.
  intros E. unfold step, executing. cbn [conds]. rewrite E. cbn [stack alt conds ops].
  destruct (Z.ltb_spec 520 (len d)), (Z.leb_spec (len d) 520); try lia; [reflexivity|]. cbn [andb].
  unfold small_stacks. cbn [stack alt]. rewrite zlen_cons. replace (1 + zlen s + zlen a) with (zlen s + 1 + zlen a) by lia. reflexivity.
Qed.

Lemma step_skip_push d s a cs o : forallb (fun b => b) cs = false -> zlen s + zlen a <= 1000 ->
  step cx (IPush d) {| stack := s; alt := a; conds := cs; ops := o |} =
  if len d <=? 520 then Some {| stack := s; alt := a; conds := cs; ops := o |} else None.
Proof.
  intros E L. unfold step, executing. cbn [conds]. rewrite E.
  destruct (Z.ltb_spec 520 (len d)), (Z.leb_spec (len d) 520); try lia; [reflexivity|]. unfold small_stacks. cbn [stack alt].
  destruct (Z.leb_spec (zlen s + zlen a) 1000); [reflexivity|lia].
Qed.

(* an opcode, when the script is executing *)
Lemma step_op c s a cs o : forallb (fun b => b) cs = true -> disabled c = false -> 104 < c -> o + 1 <= 201 ->
  step cx (IOp c) {| stack := s; alt := a; conds := cs; ops := o |} =
  match operate cx c s a (o + 1) with
  | Some (s', a', o') => if zlen s' + zlen a' <=? 1000 then Some {| stack := s'; alt := a'; conds := cs; ops := o' |} else None
  | None => None
  end.
Proof.
  intros E D C O. unfold step, executing. cbn [conds stack alt ops]. rewrite E, D. replace (96 <? c) with true by lia.
  replace ((99 <=? c) && (c <=? 104)) with false by lia. destruct (Z.ltb_spec 201 (o + 1)); [lia|]. cbn [orb].
  destruct (operate cx c s a (o + 1)) as [[[s' a'] o']|]; reflexivity.
Qed.

Lemma step_skip_op c s a cs o : forallb (fun b => b) cs = false -> disabled c = false -> 104 < c -> o + 1 <= 201 -> zlen s + zlen a <= 1000 ->
  step cx (IOp c) {| stack := s; alt := a; conds := cs; ops := o |} = Some {| stack := s; alt := a; conds := cs; ops := o + 1 |}.
Proof.
  intros E D C O L. unfold step, executing. cbn [conds stack alt ops]. rewrite E, D. replace (96 <? c) with true by lia.
  replace ((99 <=? c) && (c <=? 104)) with false by lia. destruct (Z.ltb_spec 201 (o + 1)); [lia|]. cbn [orb].
  unfold small_stacks. cbn [stack alt]. destruct (Z.leb_spec (zlen s + zlen a) 1000); [reflexivity|lia].
Qed.

(** * templates *)

Lemma p2pkh_wires h : len h = 20 ->
  template P2PKH h = concat (map wire [Op 118 []; Op 169 []; Push Direct h; Op 136 []; Op 172 []]).
Proof. intros L. cbn [map concat wire push template app]. rewrite L. reflexivity. Qed.

Lemma p2sh_wires h : len h = 20 -> template P2SH h = concat (map wire [Op 169 []; Push Direct h; Op 135 []]).
Proof. intros L. cbn [map concat wire push template app]. rewrite L. reflexivity. Qed.

Lemma program_wires h : 1 <= len h <= 75 -> 0 :: len h :: h = concat (map wire [Op 0 []; Push Direct h]).
Proof. intros L. cbn [map concat wire push app]. rewrite app_nil_r. reflexivity. Qed.

Definition h160 (m : bytes) : bytes := cx_rmd160 cx (cx_sha256 cx m).

Ltac codes := repeat (constructor; [cbn [code_ok]; lia|]); constructor.

Lemma run_p2pkh h s1 : len h = 20 ->
  run cx (template P2PKH h) s1 =
  match s1 with
  | pk :: sig :: r =>
      if (zlen r <=? 996) && same h (h160 pk)
      then match cx_checksig cx sig pk with Some b => Some (bool_bytes b :: r) | None => None end
      else None
  | _ => None
  end.
Proof.
  intros L. assert (len (template P2PKH h) <= 10000) as LL.
  { cbn [template]. change (len ([118; 169; 20] ++ h ++ [136; 172])) with (zlen ([118; 169; 20] ++ h ++ [136; 172])).
    rewrite !zlen_app. change (zlen h) with (len h). rewrite L. cbn. lia. }
  rewrite (p2pkh_wires h L) in *. rewrite run_wires; [|codes|exact LL]. unfold start. cbn [map instr_of Z.eqb steps].
  rewrite step_op; [|reflexivity..|lia]. cbn [operate Z.eqb Pos.eqb Z.leb Z.compare Pos.compare Pos.compare_cont andb orb].
  destruct s1 as [|pk s1]; [reflexivity|]. cbn [Z.add].
  destruct s1 as [|sig r].
  { change (zlen [pk; pk] + zlen (@nil bytes) <=? 1000) with true. cbv iota.
    rewrite step_op; [|reflexivity..|lia]. cbn [operate Z.eqb Pos.eqb Z.leb Z.compare Pos.compare Pos.compare_cont andb orb].
    change (zlen [cx_rmd160 cx (cx_sha256 cx pk); pk] + zlen (@nil bytes) <=? 1000) with true. cbv iota.
    rewrite step_push by reflexivity. rewrite L. change ((20 <=? 520) && (zlen [cx_rmd160 cx (cx_sha256 cx pk); pk] + 1 + zlen (@nil bytes) <=? 1000)) with true. cbv iota.
    rewrite step_op; [|reflexivity..|lia]. cbn [operate Z.eqb Pos.eqb Z.leb Z.compare Pos.compare Pos.compare_cont andb orb].
    destruct (same h (cx_rmd160 cx (cx_sha256 cx pk))); [|reflexivity].
    change (zlen [pk] + zlen (@nil bytes) <=? 1000) with true. cbv iota.
    rewrite step_op; [|reflexivity..|lia]. reflexivity. }
  pose proof (zlen_nonneg r) as R. rewrite !zlen_cons, zlen_nil.
  destruct (Z.leb_spec (1 + (1 + (1 + zlen r)) + 0) 1000) as [A|A].
  2:{ destruct (Z.leb_spec (zlen r) 996); [lia|]. reflexivity. }
  rewrite step_op; [|reflexivity..|lia]. cbn [operate Z.eqb Pos.eqb Z.leb Z.compare Pos.compare Pos.compare_cont andb orb].
  rewrite !zlen_cons, zlen_nil. destruct (Z.leb_spec (1 + (1 + (1 + zlen r)) + 0) 1000); [|lia].
  rewrite step_push by reflexivity. rewrite L. cbn [Z.leb Z.compare Pos.compare Pos.compare_cont andb orb]. rewrite !zlen_cons, zlen_nil.
  destruct (Z.leb_spec (1 + (1 + (1 + zlen r)) + 1 + 0) 1000), (Z.leb_spec (zlen r) 996); try lia; [|reflexivity]. cbn [andb].
  rewrite step_op; [|reflexivity..|lia]. cbn [operate Z.eqb Pos.eqb Z.leb Z.compare Pos.compare Pos.compare_cont andb orb].
  fold (h160 pk). destruct (same h (h160 pk)); [|reflexivity]. rewrite !zlen_cons, zlen_nil.
  destruct (Z.leb_spec (1 + (1 + zlen r) + 0) 1000); [|lia].
  rewrite step_op; [|reflexivity..|lia]. cbn [operate Z.eqb Pos.eqb Z.leb Z.compare Pos.compare Pos.compare_cont andb orb].
  destruct (cx_checksig cx sig pk) as [b|]; [|reflexivity]. rewrite !zlen_cons, zlen_nil.
  destruct (Z.leb_spec (1 + zlen r + 0) 1000); [|lia]. reflexivity.
Qed.

Lemma run_p2sh h s1 : len h = 20 ->
  run cx (template P2SH h) s1 =
  match s1 with
  | x :: r => if zlen r <=? 998 then Some (bool_bytes (same h (h160 x)) :: r) else None
  | [] => None
  end.
Proof.
  intros L. assert (len (template P2SH h) <= 10000) as LL.
  { cbn [template]. change (len ([169; 20] ++ h ++ [135])) with (zlen ([169; 20] ++ h ++ [135])).
    rewrite !zlen_app. change (zlen h) with (len h). rewrite L. cbn. lia. }
  rewrite (p2sh_wires h L) in *. rewrite run_wires; [|codes|exact LL]. unfold start. cbn [map instr_of Z.eqb steps].
  rewrite step_op; [|reflexivity..|lia]. cbn [operate Z.eqb Pos.eqb Z.leb Z.compare Pos.compare Pos.compare_cont andb orb].
  destruct s1 as [|x r]; [reflexivity|]. cbn [Z.add]. pose proof (zlen_nonneg r) as R. rewrite !zlen_cons, zlen_nil.
  destruct (Z.leb_spec (1 + zlen r + 0) 1000); [|destruct (Z.leb_spec (zlen r) 998); [lia|reflexivity]].
  rewrite step_push by reflexivity. rewrite L. cbn [Z.leb Z.compare Pos.compare Pos.compare_cont andb orb]. rewrite !zlen_cons, zlen_nil.
  destruct (Z.leb_spec (1 + zlen r + 1 + 0) 1000), (Z.leb_spec (zlen r) 998); try lia; [|reflexivity].
  rewrite step_op; [|reflexivity..|lia]. cbn [operate Z.eqb Pos.eqb Z.leb Z.compare Pos.compare Pos.compare_cont andb orb].
  fold (h160 x). rewrite !zlen_cons, zlen_nil. destruct (Z.leb_spec (1 + zlen r + 0) 1000); [|lia]. reflexivity.
Qed.

(* a version 0 program and nothing else *)
Lemma run_program h : 1 <= len h <= 75 -> run cx (0 :: len h :: h) [] = Some [h; []].
Proof.
  intros L. assert (len (0 :: len h :: h) <= 10000) as LL.
  { change (len (0 :: len h :: h)) with (zlen (0 :: len h :: h)). rewrite !zlen_cons. change (zlen h) with (len h). lia. }
  rewrite (program_wires h L) in *. rewrite run_wires; [|codes|exact LL]. unfold start. cbn [map instr_of Z.eqb steps].
  rewrite step_push by reflexivity. change ((len [] <=? 520) && (zlen (@nil bytes) + 1 + zlen (@nil bytes) <=? 1000)) with true. cbv iota.
  rewrite step_push by reflexivity. destruct (Z.leb_spec (len h) 520); [|lia]. reflexivity.
Qed.


(* pushes one after the other *)
Definition small (d : bytes) : bool := len d <=? 520.

Lemma step_value e s : code_ok e -> is_push e = true -> zlen s + 1 <= 1000 ->
  step cx (instr_of e) (start s) = if small (pushed e) then Some (start (pushed e :: s)) else None.
Proof.
  intros K P L. unfold start, small. destruct e as [c n|f d]; cbn [is_push instr_of pushed] in *.
  - destruct (Z.eqb_spec c 0) as [->|N0].
    + rewrite step_push by reflexivity. destruct (Z.leb_spec (zlen s + 1 + zlen (@nil bytes)) 1000) as [X|X]; [reflexivity|rewrite zlen_nil in X; lia].
    + cbn [orb] in P. unfold step. cbn [ops stack alt conds executing forallb]. destruct (Z.ltb_spec 96 c); [lia|].
      assert (disabled c = false) as ->.
      { unfold disabled. cbn [existsb]. repeat match goal with |- context [c =? ?k] => destruct (Z.eqb_spec c k); [lia|] end. reflexivity. }
      change (201 <? 0 + 0) with false. cbn [orb]. replace ((99 <=? c) && (c <=? 104)) with false by lia.
      assert (operate cx c s [] (0 + 0) = Some ((if c =? 79 then [129] else [c - 80]) :: s, [], 0)) as ->.
      { unfold operate. destruct (Z.eqb_spec c 79); [reflexivity|]. replace ((81 <=? c) && (c <=? 96)) with true by lia. reflexivity. }
      unfold executing. cbn [conds forallb small_stacks stack alt]. unfold small_stacks. cbn [stack alt]. rewrite zlen_cons, zlen_nil.
      destruct (Z.leb_spec (1 + zlen s + 0) 1000); [|lia]. destruct (c =? 79); reflexivity.
  - rewrite step_push by reflexivity. rewrite zlen_nil. destruct (Z.leb_spec (zlen s + 1 + 0) 1000); [|lia]. rewrite andb_true_r. reflexivity.
Qed.

Lemma steps_values es s : Forall code_ok es -> forallb is_push es = true -> zlen es + zlen s <= 1000 ->
  steps cx (map instr_of es) (start s) = if forallb (fun e => small (pushed e)) es then Some (start (rev (map pushed es) ++ s)) else None.
Proof.
  intros F. revert s. induction F as [|e es D F IH]; intros s P L; [reflexivity|]. rewrite zlen_cons in L. pose proof (zlen_nonneg es).
  cbn [forallb] in P. apply andb_true_iff in P. destruct P as [P1 P2].
  cbn [map steps forallb]. rewrite step_value by (assumption || lia). destruct (small (pushed e)); [|reflexivity].
  rewrite IH by (assumption || (rewrite zlen_cons; lia)). cbn [andb rev]. rewrite <- app_assoc. reflexivity.
Qed.

Lemma run_values es : Forall code_ok es -> forallb is_push es = true -> zlen es <= 1000 -> len (concat (map wire es)) <= 10000 ->
  run cx (concat (map wire es)) [] = if forallb (fun e => small (pushed e)) es then Some (rev (map pushed es)) else None.
Proof.
  intros F P L LL. rewrite run_wires by assumption. rewrite steps_values by (assumption || (rewrite zlen_nil; lia)).
  destruct (forallb (fun e => small (pushed e)) es); [|reflexivity]. unfold start, finish. cbn [conds stack]. rewrite app_nil_r. reflexivity.
Qed.

Lemma run_nil s : run cx [] s = Some s.
Proof. reflexivity. Qed.

Lemma pushes_only_values es : Forall code_ok es -> forallb is_push es = true -> pushes_only (concat (map wire es)) = true.
Proof.
  intros F P. unfold pushes_only. rewrite decode_wires by exact F. apply forallb_forall. intros i I. apply in_map_iff in I. destruct I as [e [<- I]].
  rewrite forallb_forall in P. specialize (P e I). destruct e as [c n|f d]; cbn [instr_of is_push] in *; [|reflexivity]. destruct (Z.eqb_spec c 0); [reflexivity|]. lia.
Qed.

(** * spending *)

Lemma program_first c s : c <> 0 -> (c < 81 \/ 96 < c) -> program (c :: s) = None.
Proof.
  intros A B. unfold program. destruct s as [|n p]; [reflexivity|]. replace ((c =? 0) || ((81 <=? c) && (c <=? 96))) with false by lia. reflexivity.
Qed.

Lemma program_template h : 2 <= len h <= 40 -> program (0 :: len h :: h) = Some (0, h).
Proof. intros L. unfold program. rewrite Z.eqb_refl. replace ((2 <=? len h)) with true by lia. replace (len h <=? 40) with true by lia. rewrite Z.eqb_refl. reflexivity. Qed.

Definition silent (segwit : bool) (wit : list bytes) : Prop := segwit = true -> wit = [].

Lemma silent_iff segwit (wit : list bytes) : (match wit with [] => true | _ => negb segwit end) = true <-> silent segwit wit.
Proof. unfold silent. destruct wit, segwit; cbn; intuition congruence. Qed.

Lemma is_p2sh_p2pkh h : len h = 20 -> is_p2sh (template P2PKH h) = false.
Proof.
  intros L. unfold is_p2sh. cbn [template]. change (len ([118; 169; 20] ++ h ++ [136; 172])) with (zlen ([118; 169; 20] ++ h ++ [136; 172])).
  rewrite !zlen_app. change (zlen h) with (len h). rewrite L. reflexivity.
Qed.

Lemma is_p2sh_p2sh h : len h = 20 -> is_p2sh (template P2SH h) = true.
Proof.
  intros L. unfold is_p2sh. cbn [template]. change (len ([169; 20] ++ h ++ [135])) with (zlen ([169; 20] ++ h ++ [135])).
  rewrite !zlen_app. change (zlen h) with (len h). rewrite L.
  assert (length h = 20%nat) as N by (unfold len in L; lia).
  do 20 (destruct h as [|? h]; [discriminate N|]). destruct h; [|discriminate N]. reflexivity.
Qed.

Theorem spends_p2pkh segwit sig h wit : len h = 20 ->
  (spends cx segwit sig (template P2PKH h) wit = true <->
   exists pk sg r, run cx sig [] = Some (pk :: sg :: r) /\ zlen r <= 996 /\ h160 pk = h /\ cx_checksig cx sg pk = Some true /\ silent segwit wit).
Proof.
  intros L. unfold spends. assert ((if segwit then program (template P2PKH h) else None) = None) as ->.
  { destruct segwit; [|reflexivity]. apply program_first; lia. }
  rewrite (is_p2sh_p2pkh h L). destruct (run cx sig []) as [s1|]; [|split; [discriminate|intros (pk & sg & r & E & _); discriminate]].
  rewrite run_p2pkh by assumption. destruct s1 as [|pk [|sg r]]; [split; [discriminate|intros (pk & sg & r & E & _); discriminate]| |].
  { split; [discriminate|intros (pk' & sg & r & E & _); discriminate]. }
  destruct (Z.leb_spec (zlen r) 996) as [R|R]; cbn [andb].
  2:{ split; [discriminate|]. intros (pk' & sg' & r' & E & X & _). injection E as <- <- <-. lia. }
  destruct (same h (h160 pk)) eqn:Q.
  2:{ split; [discriminate|]. intros (pk' & sg' & r' & E & _ & X & _). injection E as <- <- <-. rewrite X, same_refl in Q. discriminate. }
  apply same_true in Q. destruct (cx_checksig cx sg pk) as [b|] eqn:C.
  2:{ split; [discriminate|]. intros (pk' & sg' & r' & E & _ & _ & X & _). injection E as <- <- <-. congruence. }
  cbn [top_true]. rewrite truthy_bool, andb_true_iff, silent_iff. split.
  - intros [-> S]. exists pk, sg, r. repeat split; auto.
  - intros (pk' & sg' & r' & E & _ & _ & X & S). injection E as <- <- <-. split; [congruence|exact S].
Qed.

Theorem spends_p2sh segwit sig h wit : len h = 20 ->
  (spends cx segwit sig (template P2SH h) wit = true <->
   pushes_only sig = true /\
   exists redeem s1 s3, run cx sig [] = Some (redeem :: s1) /\ zlen s1 <= 998 /\ h160 redeem = h /\
     run cx redeem s1 = Some s3 /\ top_true s3 = true /\
     match (if segwit then program redeem else None) with
     | Some (v, p) => sig = push (smallest redeem) redeem /\ verify_program cx v p wit = true
     | None => silent segwit wit
     end).
Proof.
  intros L. unfold spends. assert ((if segwit then program (template P2SH h) else None) = None) as ->.
  { destruct segwit; [|reflexivity]. apply program_first; lia. }
  rewrite (is_p2sh_p2sh h L). destruct (run cx sig []) as [s1|]; [|split; [discriminate|intros (_ & x & y & z & E & _); discriminate]].
  rewrite run_p2sh by assumption. destruct s1 as [|x r]; [split; [discriminate|intros (_ & x & y & z & E & _); discriminate]|].
  destruct (Z.leb_spec (zlen r) 998) as [R|R].
  2:{ split; [discriminate|]. intros (_ & x' & r' & z & E & X & _). injection E as <- <-. lia. }
  cbn [top_true]. rewrite truthy_bool, !andb_true_iff, same_true. split.
  - intros (Q & P & M). split; [exact P|]. destruct (run cx x r) as [s3|] eqn:E3; [|discriminate]. apply andb_true_iff in M. destruct M as [T M].
    exists x, r, s3. repeat split; auto. destruct (if segwit then program x else None) as [[v p]|].
    + apply andb_true_iff in M. rewrite same_true in M. exact M.
    + apply silent_iff. exact M.
  - intros (P & x' & r' & s3 & E & _ & Q & E3 & T & M). injection E as <- <-. rewrite E3, T. cbn [andb]. repeat split; auto.
    destruct (if segwit then program x else None) as [[v p]|].
    + apply andb_true_iff. rewrite same_true. exact M.
    + apply silent_iff. exact M.
Qed.

Lemma witness_script_true script items : witness_script cx script items = true <->
  Forall (fun i => len i <= 520) items /\ exists x, run cx script items = Some [x] /\ truthy x = true.
Proof.
  unfold witness_script. rewrite andb_true_iff, forallb_forall, Forall_forall. split.
  - intros [F M]. split; [intros i I; specialize (F i I); cbn beta in F; lia|]. destruct (run cx script items) as [[|x [|]]|]; try discriminate. eauto.
  - intros [F (x & E & T)]. rewrite E. split; [intros i I; specialize (F i I); cbn beta in F; lia|exact T].
Qed.

Lemma verify_p2wpkh h wit : len h = 20 ->
  (verify_program cx 0 h wit = true <-> exists sg pk, wit = [sg; pk] /\ len sg <= 520 /\ len pk <= 520 /\ h160 pk = h /\ cx_checksig cx sg pk = Some true).
Proof.
  intros L. unfold verify_program. cbn [Z.eqb]. rewrite L. cbn [Z.eqb Pos.eqb]. rewrite andb_true_iff, Z.eqb_eq, witness_script_true.
  change (pay_to_hash h) with (template P2PKH h). split.
  - intros [N [F (x & E & T)]]. assert (length wit = 2%nat) as N' by (unfold zlen in N; lia). destruct wit as [|sg [|pk [|]]]; try discriminate N'.
    cbn [rev app] in *. rewrite run_p2pkh in E by assumption. inversion F as [|? ? F1 F2]; subst. inversion F2 as [|? ? F3 F4]; subst.
    destruct (same h (h160 pk)) eqn:Q; [|discriminate]. apply same_true in Q. cbn [zlen length Z.of_nat Z.leb Z.compare andb] in E.
    destruct (cx_checksig cx sg pk) as [b|] eqn:C; [|discriminate]. injection E as <-. rewrite truthy_bool in T. subst b. exists sg, pk. repeat split; auto.
  - intros (sg & pk & -> & L1 & L2 & Q & C). split; [reflexivity|]. cbn [rev app]. split; [repeat constructor; assumption|].
    rewrite run_p2pkh by assumption. rewrite Q, same_refl, C. eexists. split; reflexivity.
Qed.

Lemma verify_p2wsh h wit : len h = 32 ->
  (verify_program cx 0 h wit = true <-> exists items script x, wit = items ++ [script] /\ cx_sha256 cx script = h /\
    Forall (fun i => len i <= 520) items /\ run cx script (rev items) = Some [x] /\ truthy x = true).
Proof.
  intros L. unfold verify_program. cbn [Z.eqb]. rewrite L. cbn [Z.eqb Pos.eqb]. split.
  - intros M. destruct (rev wit) as [|script items] eqn:R; [discriminate|]. apply andb_true_iff in M. destruct M as [Q W]. apply same_true in Q.
    apply witness_script_true in W. destruct W as [F (x & E & T)]. exists (rev items), script, x.
    split; [rewrite <- (rev_involutive wit), R; reflexivity|]. rewrite rev_involutive. repeat split; auto. apply Forall_rev. exact F.
  - intros (items & script & x & -> & Q & F & E & T). rewrite rev_unit, Q, same_refl. cbn [andb]. apply witness_script_true.
    split; [apply Forall_rev; exact F|eauto].
Qed.

Lemma spends_program sig h wit : 2 <= len h <= 40 ->
  (spends cx true sig (0 :: len h :: h) wit = true <-> sig = [] /\ truthy h = true /\ verify_program cx 0 h wit = true).
Proof.
  intros L. unfold spends. rewrite (program_template h L). split.
  - intros M. destruct (run cx sig []) as [s1|] eqn:E1; [|discriminate]. destruct (run cx (0 :: len h :: h) s1) as [s2|] eqn:E; [|discriminate].
    rewrite !andb_true_iff, same_true in M. destruct M as (T & -> & V). rewrite run_nil in E1. injection E1 as <-.
    rewrite run_program in E by (assumption || lia). injection E as <-. cbn [top_true] in T. auto.
  - intros (-> & T & V). rewrite run_nil, run_program by (assumption || lia). cbn [top_true]. rewrite T, V. reflexivity.
Qed.
End Run.

Section Hashing.
Context (H : hashes) (cx : context) (name : str) (Hc : hashing H cx) (ND : ~ In name decred_names).

Lemma h160_key_hash m : h160 cx m = key_hash H name m.
Proof using Hc ND. destruct Hc as [E1 E2]. unfold h160, key_hash. rewrite E1, E2. destruct in_dec; [contradiction|reflexivity]. Qed.
End Hashing.

Lemma run_return cx b s : run cx (106 :: b) s = None.
Proof.
  unfold run. destruct (10000 <? len (106 :: b)); [reflexivity|]. unfold decode. cbn [length decode_from].
  change (next (106 :: b)) with (Some (IOp 106, b)). cbv iota beta. destruct (decode_from (length b) b) as [is|]; [|reflexivity].
  cbn [steps]. rewrite step_op; [reflexivity|reflexivity..|lia].
Qed.

Lemma push_length d : zlen (push (smallest d) d) <= len d + 3.
Proof.
  unfold smallest. destruct (len d <=? 75); [|destruct (len d <=? 255)]; cbn [push]; rewrite ?zlen_cons, ?zlen_app; change (zlen d) with (len d); try lia.
  assert (zlen (le_bytes 2 (len d)) = 2) as -> by reflexivity. lia.
Qed.

Lemma standard_codes name es : Forall (standard_element name) es -> Forall code_ok es.
Proof. intros F. eapply Forall_impl; [|exact F]. intros e E. apply (element_code name), standard_ok, E. Qed.

Lemma smallest_code d : 1 <= len d <= 1000 -> code_ok (Push (smallest d) d).
Proof. intros L. cbn [code_ok]. unfold smallest. destruct (Z.leb_spec (len d) 75); [lia|]. destruct (Z.leb_spec (len d) 255); lia. Qed.

Lemma next_op s c r : next s = Some (IOp c, r) -> 78 < c.
Proof.
  unfold next. destruct s as [|x s]; [discriminate|]. destruct (Z.leb_spec x 75); [destruct (take x s) as [[]|]; discriminate|].
  destruct (Z.eqb_spec x 76) as [_|]; [destruct (take 1 s) as [[m q]|]; [destruct (take (le_value m) q) as [[]|]|]; discriminate|].
  destruct (Z.eqb_spec x 77) as [_|]; [destruct (take 2 s) as [[m q]|]; [destruct (take (le_value m) q) as [[]|]|]; discriminate|].
  destruct (Z.eqb_spec x 78) as [_|]; [destruct (take 4 s) as [[m q]|]; [destruct (take (le_value m) q) as [[]|]|]; discriminate|].
  intros E. injection E as <- <-. lia.
Qed.

Lemma decode_ops fuel s is c : decode_from fuel s = Some is -> In (IOp c) is -> 78 < c.
Proof.
  revert s is. induction fuel as [|fuel IH]; intros s is; destruct s as [|x s]; cbn [decode_from]; try (intros E; injection E as <-; intros []); try discriminate.
  destruct (next (x :: s)) as [[i r]|] eqn:N; [|discriminate]. destruct (decode_from fuel r) as [js|] eqn:D; [|discriminate].
  intros E. injection E as <-. intros [->|I]; [apply next_op in N; exact N|exact (IH r js D I)].
Qed.

(* pushes are small *)
Lemma run_pushes_small cx sig x s : pushes_only sig = true -> run cx sig [] = Some (x :: s) -> len x <= 520.
Proof.
  unfold pushes_only, run. destruct (10000 <? len sig); [discriminate|]. destruct (decode sig) as [is|] eqn:D; [|discriminate]. intros P.
  assert (forall is st st', Forall (fun i => match i with IPush _ => True | IOp c => 78 < c <= 96 end) is ->
    steps cx is st = Some st' -> Forall (fun d => len d <= 520) (stack st) -> Forall (fun d => len d <= 520) (stack st')) as K.
  { clear. induction is as [|i is IH]; intros st st' F E Q; cbn [steps] in E; [injection E as <-; exact Q|].
    inversion F as [|? ? Fi F']; subst. destruct (step cx i st) as [st1|] eqn:S1; [|discriminate]. apply (IH st1 st' F' E). clear IH E F F'.
    unfold step in S1. destruct i as [d|c].
    - destruct (Z.ltb_spec 520 (len d)); [discriminate|]. destruct (executing st).
      + destruct (small_stacks _) in S1; [|discriminate]. injection S1 as <-. cbn [stack]. constructor; assumption.
      + destruct (small_stacks st); [|discriminate]. injection S1 as <-. exact Q.
    - destruct ((201 <? ops st + (if 96 <? c then 1 else 0)) || disabled c); [discriminate|]. replace ((99 <=? c) && (c <=? 104)) with false in S1 by lia.
      destruct (executing st).
      + destruct (operate cx c (stack st) (alt st) (ops st + (if 96 <? c then 1 else 0))) as [[[s1 a1] o1]|] eqn:O; [|discriminate].
        destruct (small_stacks _) in S1; [|discriminate]. injection S1 as <-. cbn [stack].
        unfold operate in O. destruct (Z.eqb_spec c 79).
        { injection O as <- _ _. constructor; [vm_compute; discriminate|exact Q]. }
        destruct ((81 <=? c) && (c <=? 96)) eqn:C.
        { injection O as <- _ _. constructor; [vm_compute; discriminate|exact Q]. }
        destruct (Z.eqb_spec c 80); [discriminate|lia].
      + destruct (small_stacks _) in S1; [|discriminate]. injection S1 as <-. exact Q. }
  destruct (steps cx is _) as [st|] eqn:E; [|discriminate]. destruct (conds st); [|discriminate]. intros X. injection X as X.
  assert (Forall (fun d => len d <= 520) (stack st)) as Q.
  { apply (K is _ st) with (2 := E); [|constructor]. apply Forall_forall. intros i I. rewrite forallb_forall in P. specialize (P i I).
    destruct i as [d|c]; [exact Logic.I|]. pose proof (decode_ops _ _ _ c D I). lia. }
  rewrite X in Q. inversion Q. assumption.
Qed.
