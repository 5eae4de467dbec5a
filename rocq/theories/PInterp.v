(* C64: the outputs that the library builds are spent as their kind says.  The Script
   interpreter, [run], [spends], [verify_program], [pushed], [truthy], is in SInterp.v;
   [key_hash], [segwit_names] in SAddr.v; [standard_element], [spelled], [words] in SScript.v.
   The networks are those that hash with SHA-256. *)
From Coq Require Import String.
From Verif Require Import Py SNum SNet SHash SScript SAddr SInterp STx MNet MUtils MScript MTx MBuilder
  LBase LBase58 LNet LScript LAddr LBuilder LInterp PScript PBuilder.
Open Scope list_scope.
Open Scope Z_scope.

(** * Keys *)

(* whatever the script sig is: it leaves a key with the hash of the output's key, and a signature under that key *)
Theorem p2pkh_output_spent : forall H cx name net pubkey script segwit sig wit,
  hashes_ok H -> hashing H cx -> get_network name = Ok net -> ~ In name decred_names ->
  make_p2pkh_output_script H net pubkey = Ok script ->
  (spends cx segwit sig script wit = true <->
   exists key signature rest, run cx sig [] = Some (key :: signature :: rest) /\ count rest <= 996 /\
     key_hash H name key = key_hash H name pubkey /\ cx_checksig cx signature key = Some true /\
     (segwit = true -> wit = [])).
Proof.
  intros H cx name net pk script segwit sig wit K Hc En ND Es. rewrite (make_p2pkh_output_script_template H name net pk En) in Es. apply Ok_inj in Es. subst script.
  destruct (key_hash_ok H name pk K) as [_ L]. rewrite (spends_p2pkh cx segwit sig _ wit L).
  split; intros (key & sg & r & A & B & C & D); exists key, sg, r; rewrite (h160_key_hash H cx name Hc ND) in *; auto.
Qed.
Print Assumptions p2pkh_output_spent.

(* a script sig that is written as a signature and a key *)
Theorem p2pkh_input_spends : forall H cx name net pubkey script segwit signature key t,
  hashes_ok H -> hashing H cx -> get_network name = Ok net -> ~ In name decred_names ->
  make_p2pkh_output_script H net pubkey = Ok script ->
  all_bytes signature -> all_bytes key -> 1 <= len signature <= 1000 -> 1 <= len key <= 1000 ->
  words [hex signature; hex key] t ->
  exists sig, serialize net t = Ok sig /\
    (spends cx segwit sig script [] = true <->
     len signature <= 520 /\ len key <= 520 /\ key_hash H name key = key_hash H name pubkey /\ cx_checksig cx signature key = Some true).
Proof.
  intros H cx name net pk script segwit sg key t K Hc En ND Es B1 B2 L1 L2 W.
  pose (es := [Push (smallest sg) sg; Push (smallest key) key]).
  assert (Forall (standard_element name) es) as F by (repeat constructor; cbn; try lia; assumption).
  assert (Forall2 spelled [hex sg; hex key] es) as Sp by (repeat constructor).
  exists (concat (map wire es)). split; [apply (serialize_deserialize_partial name net _ es t En F Sp W)|].
  rewrite (p2pkh_output_spent H cx name net pk script segwit _ [] K Hc En ND Es).
  pose proof (standard_codes name es F) as Fc.
  assert (len (concat (map wire es)) <= 10000) as LL.
  { unfold es. cbn [map wire concat]. change (len (push (smallest sg) sg ++ push (smallest key) key ++ [])) with (zlen (push (smallest sg) sg ++ push (smallest key) key ++ [])).
    rewrite !zlen_app, zlen_nil. pose proof (push_length sg). pose proof (push_length key). lia. }
  rewrite run_values; [|exact Fc|reflexivity|vm_compute; discriminate|exact LL]. unfold es. cbn [forallb map rev pushed app]. unfold small. rewrite andb_true_r.
  split.
  - intros (k & s & r & E & _ & Q & C & _). destruct (Z.leb_spec (len sg) 520); [|discriminate]. destruct (Z.leb_spec (len key) 520); [|discriminate].
    cbn [andb] in E. injection E as <- <- <-. auto.
  - intros (A1 & A2 & Q & C). destruct (Z.leb_spec (len sg) 520); [|lia]. destruct (Z.leb_spec (len key) 520); [|lia].
    exists key, sg, []. repeat split; auto. vm_compute. discriminate.
Qed.
Print Assumptions p2pkh_input_spends.

Theorem p2wpkh_output_spent : forall H cx name net pubkey script sig wit,
  hashes_ok H -> hashing H cx -> get_network name = Ok net -> ~ In name decred_names ->
  make_p2wpkh_output_script H net pubkey = Ok script ->
  (spends cx true sig script wit = true <->
   sig = [] /\ truthy (key_hash H name pubkey) = true /\
   exists signature key, wit = [signature; key] /\ len signature <= 520 /\ len key <= 520 /\
     key_hash H name key = key_hash H name pubkey /\ cx_checksig cx signature key = Some true).
Proof.
  intros H cx name net pk script sig wit K Hc En ND Es. destruct (make_p2wpkh_output_script_template H name net pk En) as [A B].
  destruct (in_dec list_eq_dec_Z name segwit_names) as [I|N]; [rewrite (A I) in Es|rewrite (B N) in Es; discriminate]. apply Ok_inj in Es. subst script.
  destruct (key_hash_ok H name pk K) as [_ L]. cbn [template app]. rewrite <- L at 1. rewrite spends_program by lia. rewrite (verify_p2wpkh cx _ wit L).
  split; intros (-> & T & s & k & -> & L1 & L2 & Q & C); (split; [reflexivity|split; [exact T|exists s, k]]); rewrite (h160_key_hash H cx name Hc ND) in *; auto.
Qed.
Print Assumptions p2wpkh_output_spent.

(* the witness that make_witness builds *)
Theorem p2wpkh_input_spends : forall H cx name net pubkey script signature key,
  hashes_ok H -> hashing H cx -> get_network name = Ok net -> ~ In name decred_names ->
  make_p2wpkh_output_script H net pubkey = Ok script -> len signature <= 520 -> len key <= 520 -> truthy (key_hash H name pubkey) = true ->
  exists w, make_witness [signature; key] = Ok w /\
    (spends cx true [] script (the_stack w) = true <->
     key_hash H name key = key_hash H name pubkey /\ cx_checksig cx signature key = Some true).
Proof.
  intros H cx name net pk script sg key K Hc En ND Es L1 L2 T. destruct (make_witness_stack [sg; key]) as [W _].
  destruct W as (w & E & _ & Ew); [repeat constructor; lia|vm_compute; reflexivity|]. exists w. split; [exact E|]. rewrite Ew.
  rewrite (p2wpkh_output_spent H cx name net pk script [] [sg; key] K Hc En ND Es). split.
  - intros (_ & _ & s & k & X & _ & _ & Q & C). injection X as <- <-. auto.
  - intros [Q C]. split; [reflexivity|]. split; [exact T|]. exists sg, key. auto.
Qed.
Print Assumptions p2wpkh_input_spends.

(** * Scripts *)

(* whatever the script sig is: its last push is a script with the hash of the output's script,
   and that script succeeds on the pushes before it *)
Theorem p2sh_output_spent : forall H cx name net text b script segwit sig wit,
  hashes_ok H -> hashing H cx -> get_network name = Ok net -> ~ In name decred_names ->
  serialize net text = Ok b -> make_p2sh_output_script H net text = Ok script ->
  (spends cx segwit sig script wit = true <->
   pushes_only sig = true /\
   exists redeem before after, run cx sig [] = Some (redeem :: before) /\ count before <= 998 /\
     key_hash H name redeem = key_hash H name b /\ run cx redeem before = Some after /\ top_true after = true /\
     match (if segwit then program redeem else None) with
     | Some (v, p) => sig = push (smallest redeem) redeem /\ verify_program cx v p wit = true
     | None => segwit = true -> wit = []
     end).
Proof.
  intros H cx name net text b script segwit sig wit K Hc En ND Eb Es. rewrite (make_p2sh_output_script_template H name net text En), Eb in Es. apply Ok_inj in Es. subst script.
  destruct (key_hash_ok H name b K) as [_ L]. rewrite (spends_p2sh cx segwit sig _ wit L).
  split; intros (P & redeem & s1 & s3 & A & B & C & D); (split; [exact P|]); exists redeem, s1, s3; rewrite (h160_key_hash H cx name Hc ND) in *; auto.
Qed.
Print Assumptions p2sh_output_spent.

(* the script sig that make_script_sig builds from a stack of pushes, for a redeem script
   that is no witness program *)
Theorem p2sh_input_spends : forall H cx name net ts es stack text b script segwit sig,
  hashes_ok H -> hashing H cx -> get_network name = Ok net -> ~ In name decred_names ->
  Forall (standard_element name) es -> Forall2 spelled ts es -> words ts stack -> forallb is_push es = true -> count es <= 998 ->
  serialize net text = Ok b -> 1 <= len b <= 1000 -> (segwit = true -> program b = None) ->
  make_p2sh_output_script H net text = Ok script -> make_script_sig net stack text = Ok sig -> len sig <= 10000 ->
  (spends cx segwit sig script [] = true <->
   Forall (fun e => len (pushed e) <= 520) es /\ len b <= 520 /\
   exists after, run cx b (rev (map pushed es)) = Some after /\ top_true after = true).
Proof.
  intros H cx name net ts es stack text b script segwit sig K Hc En ND F Sp W P N Eb L NP Es Ei LL.
  rewrite (p2sh_output_spent H cx name net text b script segwit sig [] K Hc En ND Eb Es).
  destruct (make_script_sig_text_partial name net ts es stack text b En F Sp W Eb L) as (sig' & E1 & E2 & _).
  rewrite E1 in Ei. apply Ok_inj in Ei. subst sig'. rewrite E2 in *. clear E1 E2.
  assert (Forall code_ok (es ++ [Push (smallest b) b])) as Fc.
  { apply Forall_app. split; [apply (standard_codes name), F|]. constructor; [apply smallest_code, L|constructor]. }
  assert (forallb is_push (es ++ [Push (smallest b) b]) = true) as P' by (rewrite forallb_app, P; reflexivity).
  rewrite (pushes_only_values _ Fc P').
  rewrite (run_values cx _ Fc P'); [|rewrite zlen_app; change (zlen es) with (count es); change (zlen [Push (smallest b) b]) with 1; lia|exact LL].
  rewrite forallb_app, map_app, rev_app_distr. cbn [forallb map rev app pushed]. rewrite andb_true_r.
  assert (forallb (fun e => small (pushed e)) es = true <-> Forall (fun e => len (pushed e) <= 520) es) as FF.
  { rewrite forallb_forall, Forall_forall. unfold small. split; intros X e I; specialize (X e I); lia. }
  split.
  - intros (_ & redeem & before & after & R & _ & Q & A & T & _).
    destruct (forallb (fun e => small (pushed e)) es) eqn:F1; [|discriminate]. cbn [andb] in R. destruct (small b) eqn:F2; [|discriminate].
    injection R as <- <-. split; [apply FF; reflexivity|]. split; [unfold small in F2; lia|]. eauto.
  - intros (F1 & L2 & after & A & T). split; [reflexivity|]. exists b, (rev (map pushed es)), after. apply FF in F1. rewrite F1. unfold small.
    destruct (Z.leb_spec (len b) 520); [|lia]. cbn [andb]. split; [reflexivity|]. split.
    { unfold count. rewrite rev_length, map_length. exact N. }
    split; [reflexivity|]. split; [exact A|]. split; [exact T|]. destruct segwit; [rewrite (NP eq_refl)|]; discriminate || auto.
Qed.
Print Assumptions p2sh_input_spends.

(* a script of more than 520 bytes cannot be pushed: an output that pays to it can only be
   spent with another script of the same hash *)
Theorem p2sh_large_script_unspendable : forall H cx name net text b script segwit sig wit,
  hashes_ok H -> hashing H cx -> get_network name = Ok net -> ~ In name decred_names ->
  serialize net text = Ok b -> make_p2sh_output_script H net text = Ok script -> 520 < len b ->
  spends cx segwit sig script wit = true ->
  exists other, other <> b /\ len other <= 520 /\ key_hash H name other = key_hash H name b.
Proof.
  intros H cx name net text b script segwit sig wit K Hc En ND Eb Es L Y.
  apply (p2sh_output_spent H cx name net text b script segwit sig wit K Hc En ND Eb Es) in Y.
  destruct Y as (P & redeem & before & after & R & _ & Q & _). exists redeem.
  assert (len redeem <= 520) as L2 by (eapply run_pushes_small; eassumption). split; [intros ->; lia|]. auto.
Qed.
Print Assumptions p2sh_large_script_unspendable.

Theorem p2wsh_output_spent : forall H cx name net text b script sig wit,
  hashes_ok H -> hashing H cx -> get_network name = Ok net ->
  serialize net text = Ok b -> make_p2wsh_output_script H net text = Ok script ->
  (spends cx true sig script wit = true <->
   sig = [] /\ truthy (h_sha256 H b) = true /\
   exists items other x, wit = items ++ [other] /\ h_sha256 H other = h_sha256 H b /\
     Forall (fun i => len i <= 520) items /\ run cx other (rev items) = Some [x] /\ truthy x = true).
Proof.
  intros H cx name net text b script sig wit K [Hc _] En Eb Es. destruct (make_p2wsh_output_script_template H name net text En) as [A B].
  destruct (in_dec list_eq_dec_Z name segwit_names) as [I|N]; [rewrite (A I), Eb in Es|rewrite (B N) in Es; discriminate]. apply Ok_inj in Es. subst script.
  assert (len (h_sha256 H b) = 32) as L by apply K. cbn [template app]. rewrite <- L at 1. rewrite spends_program by lia. rewrite (verify_p2wsh cx _ wit L).
  rewrite Hc. reflexivity.
Qed.
Print Assumptions p2wsh_output_spent.

(* the witness that make_witness builds *)
Theorem p2wsh_input_spends : forall H cx name net text b script items,
  hashes_ok H -> hashing H cx -> get_network name = Ok net ->
  serialize net text = Ok b -> make_p2wsh_output_script H net text = Ok script ->
  Forall (fun i => len i <= 520) items -> count items <= 1000 -> len b <= 10000 -> truthy (h_sha256 H b) = true ->
  exists w, make_witness (items ++ [b]) = Ok w /\
    (spends cx true [] script (the_stack w) = true <-> exists x, run cx b (rev items) = Some [x] /\ truthy x = true).
Proof.
  intros H cx name net text b script items K Hc En Eb Es F N L T. destruct (make_witness_stack (items ++ [b])) as [W _].
  destruct W as (w & E & _ & Ew).
  { apply Forall_app. split; [eapply Forall_impl; [|exact F]; cbn beta; intros; lia|constructor; [lia|constructor]]. }
  { unfold count in *. rewrite app_length. cbn [length]. lia. }
  exists w. split; [exact E|]. rewrite Ew. rewrite (p2wsh_output_spent H cx name net text b script [] (items ++ [b]) K Hc En Eb Es). split.
  - intros (_ & _ & items' & other & x & X & _ & _ & R & Y). apply app_inj_tail in X. destruct X as [-> ->]. eauto.
  - intros (x & R & Y). split; [reflexivity|]. split; [exact T|]. exists items, b, x. auto.
Qed.
Print Assumptions p2wsh_input_spends.

(** * Witness programs inside a script hash *)

(* the redeem script is a program, the stack script is empty *)
Theorem p2sh_program_spends : forall H cx name net h text wit,
  hashes_ok H -> hashing H cx -> get_network name = Ok net -> ~ In name decred_names ->
  all_bytes h -> 2 <= len h <= 40 -> words [lit "OP_0"; hex h] text ->
  exists script sig, make_p2sh_output_script H net text = Ok script /\ make_script_sig net [] text = Ok sig /\
    (spends cx true sig script wit = true <-> truthy h = true /\ verify_program cx 0 h wit = true).
Proof.
  intros H cx name net h text wit K Hc En ND B L W.
  assert (smallest h = Direct) as Sm by (unfold smallest; destruct (Z.leb_spec (len h) 75); [reflexivity|lia]).
  pose (es := [Op 0 (lit "OP_0"); Push (smallest h) h]).
  assert (Forall (standard_element name) es) as F.
  { constructor; [split; [apply zero_in|lia]|]. constructor; [|constructor]. cbn. repeat split; try lia. exact B. }
  assert (Forall2 spelled [lit "OP_0"; hex h] es) as Sp by (repeat constructor).
  destruct (serialize_deserialize_partial name net _ es text En F Sp W) as [Eb _].
  assert (concat (map wire es) = 0 :: len h :: h) as X. { unfold es. rewrite Sm. cbn [map wire push concat app]. rewrite app_nil_r. reflexivity. }
  rewrite X in Eb. clear X. remember (0 :: len h :: h) as b eqn:Db.
  assert (len b = len h + 2) as Lb. { rewrite Db. change (zlen (0 :: len h :: h) = len h + 2). rewrite !zlen_cons. change (zlen h) with (len h). lia. }
  assert (1 <= len b <= 1000) as Lb' by lia.
  exists (template P2SH (key_hash H name b)), (push (smallest b) b).
  assert (make_p2sh_output_script H net text = Ok (template P2SH (key_hash H name b))) as Es by (rewrite (make_p2sh_output_script_template H name net text En), Eb; reflexivity).
  split; [exact Es|]. split.
  { rewrite (make_script_sig_exact_partial name net [] text En), Eb. destruct (Z.eqb_spec (len b) 0); [lia|]. destruct (Z.leb_spec (len b) 1000); [reflexivity|lia]. }
  rewrite (p2sh_output_spent H cx name net text b _ true _ wit K Hc En ND Eb Es).
  assert (push (smallest b) b = concat (map wire [Push (smallest b) b])) as Pw by (cbn [map wire concat]; rewrite app_nil_r; reflexivity).
  assert (Forall code_ok [Push (smallest b) b]) as Fc by (constructor; [apply smallest_code, Lb'|constructor]).
  assert (run cx (push (smallest b) b) [] = Some [b]) as R.
  { rewrite Pw. rewrite run_values; [|exact Fc|reflexivity|vm_compute; discriminate|].
    - cbn [forallb pushed map rev app]. unfold small. destruct (Z.leb_spec (len b) 520); [reflexivity|lia].
    - rewrite <- Pw. change (len (push (smallest b) b)) with (zlen (push (smallest b) b)). pose proof (push_length b). lia. }
  assert (pushes_only (push (smallest b) b) = true) as P by (rewrite Pw; apply pushes_only_values; [exact Fc|reflexivity]).
  assert (program b = Some (0, h)) as Pr by (rewrite Db; apply program_template; lia).
  assert (run cx b [] = Some [h; []]) as Rb by (rewrite Db; apply run_program; lia).
  split.
  - intros (_ & redeem & before & after & R' & _ & _ & A & T & M). rewrite R in R'. injection R' as <- <-.
    pose proof (eq_trans (eq_sym A) Rb) as A'. injection A' as ->. rewrite Pr in M. split; [exact T|apply M].
  - intros [T V]. split; [exact P|]. exists b, [], [h; []]. rewrite Pr. repeat split; auto. vm_compute. discriminate.
Qed.
Print Assumptions p2sh_program_spends.
Theorem p2sh_p2wpkh_spends : forall H cx name net pubkey text wit,
  hashes_ok H -> hashing H cx -> get_network name = Ok net -> ~ In name decred_names ->
  words [lit "OP_0"; hex (key_hash H name pubkey)] text ->
  exists script sig, make_p2sh_output_script H net text = Ok script /\ make_script_sig net [] text = Ok sig /\
    (spends cx true sig script wit = true <->
     truthy (key_hash H name pubkey) = true /\
     exists signature key, wit = [signature; key] /\ len signature <= 520 /\ len key <= 520 /\
       key_hash H name key = key_hash H name pubkey /\ cx_checksig cx signature key = Some true).
Proof.
  intros H cx name net pk text wit K Hc En ND W. destruct (key_hash_ok H name pk K) as [B L].
  destruct (p2sh_program_spends H cx name net _ text wit K Hc En ND B ltac:(lia) W) as (script & sig & E1 & E2 & E). exists script, sig.
  split; [exact E1|]. split; [exact E2|]. rewrite E. rewrite (verify_p2wpkh cx _ wit L).
  split; intros (T & s & k & X); (split; [exact T|exists s, k]); rewrite (h160_key_hash H cx name Hc ND) in *; exact X.
Qed.
Print Assumptions p2sh_p2wpkh_spends.
Theorem p2sh_p2wsh_spends : forall H cx name net b text wit,
  hashes_ok H -> hashing H cx -> get_network name = Ok net -> ~ In name decred_names ->
  words [lit "OP_0"; hex (h_sha256 H b)] text ->
  exists script sig, make_p2sh_output_script H net text = Ok script /\ make_script_sig net [] text = Ok sig /\
    (spends cx true sig script wit = true <->
     truthy (h_sha256 H b) = true /\
     exists items other x, wit = items ++ [other] /\ h_sha256 H other = h_sha256 H b /\
       Forall (fun i => len i <= 520) items /\ run cx other (rev items) = Some [x] /\ truthy x = true).
Proof.
  intros H cx name net b text wit K Hc En ND W. assert (len (h_sha256 H b) = 32) as L by apply K. assert (all_bytes (h_sha256 H b)) as B by apply K.
  destruct (p2sh_program_spends H cx name net _ text wit K Hc En ND B ltac:(lia) W) as (script & sig & E1 & E2 & E). exists script, sig.
  split; [exact E1|]. split; [exact E2|]. rewrite E. rewrite (verify_p2wsh cx _ wit L). destruct Hc as [-> _]. reflexivity.
Qed.
Print Assumptions p2sh_p2wsh_spends.

(** * Data *)

(* an output that carries data is never spent *)
Theorem op_return_output_unspendable : forall cx name net data o segwit sig wit, get_network name = Ok net -> ~ In name decred_names ->
  all_bytes data -> make_op_return_output net data = Ok (AnyOut o) ->
  spends cx segwit sig (to_output_script o) wit = false.
Proof.
  intros cx name net data o segwit sig wit En ND B E. destruct (Z.le_gt_cases (len data) 77) as [L|L].
  2:{ rewrite (op_return_output_long net data) in E by lia. discriminate. }
  destruct (op_return_output_partial name net data En ND B L) as (o' & E' & _ & V & _). rewrite E in E'. injection E' as <-.
  assert (exists r, to_output_script o = 106 :: r) as [r ->].
  { apply (f_equal out_script) in V. cbn in V. eauto. }
  unfold spends. destruct (run cx sig []) as [s1|]; [|reflexivity]. rewrite run_return. reflexivity.
Qed.
Print Assumptions op_return_output_unspendable.

(** * Examples *)

(* the same signature and key against the same key, another key, and another signature *)
Example p2pkh_spends_ex :
  let cx := toy_context 0 in
  hashing toy cx /\
  (exists script, make_p2pkh_output_script toy BitcoinMain [2; 7; 9] = Ok script /\
   (exists sig, serialize BitcoinMain (lit "30020709 020709") = Ok sig /\ spends cx true sig script [] = true /\
      spends cx true sig script [[1]] = false /\ spends cx false sig script [[1]] = true) /\
   (exists sig, serialize BitcoinMain (lit "30020708 020708") = Ok sig /\ spends cx true sig script [] = false) /\
   (exists sig, serialize BitcoinMain (lit "31020709 020709") = Ok sig /\ spends cx true sig script [] = false)) /\
  (exists script, make_p2wpkh_output_script toy BitcoinMain [2; 7; 9] = Ok script /\
   spends cx true [] script [[48; 2; 7; 9]; [2; 7; 9]] = true /\ spends cx true [0] script [[48; 2; 7; 9]; [2; 7; 9]] = false /\
   spends cx true [] script [[48; 2; 7; 8]; [2; 7; 8]] = false /\ spends cx true [] script [[1]; [48; 2; 7; 9]; [2; 7; 9]] = false /\
   spends cx false [] script [] = true) /\
  ~ In (lit "bitcoin_main") decred_names /\ hashes_ok toy.
Proof.
  cbv zeta. split; [split; reflexivity|]. split; [|split].
  - eexists. split; [vm_compute; reflexivity|]. split; [|split]; eexists.
    + do 3 (split; [vm_compute; reflexivity|]). vm_compute. reflexivity.
    + split; [vm_compute; reflexivity|vm_compute; reflexivity].
    + split; [vm_compute; reflexivity|vm_compute; reflexivity].
  - eexists. split; [vm_compute; reflexivity|]. do 4 (split; [vm_compute; reflexivity|]). vm_compute. reflexivity.
  - split; [|exact toy_ok]. intros I. apply str_mem_In in I. vm_compute in I. discriminate.
Qed.
Example p2sh_spends_ex :
  let cx := toy_context 0 in
  (exists script sig, make_p2sh_output_script toy BitcoinMain (lit "OP_DUP OP_HASH160 OP_EQUALVERIFY OP_1") = Ok script /\
    make_script_sig BitcoinMain (lit "OP_2 OP_3") (lit "OP_DUP OP_EQUALVERIFY OP_1") = Ok sig /\ spends cx true sig script [] = false) /\
  (exists script sig, make_p2sh_output_script toy BitcoinMain (lit "OP_DUP OP_EQUALVERIFY 020709 OP_CHECKSIG") = Ok script /\
    make_script_sig BitcoinMain (lit "30020708 OP_2") (lit "OP_DUP OP_EQUALVERIFY 020709 OP_CHECKSIG") = Ok sig /\ spends cx true sig script [] = false) /\
  (exists script sig, make_p2sh_output_script toy BitcoinMain (lit "OP_DROP 020709 OP_CHECKSIG") = Ok script /\
    make_script_sig BitcoinMain (lit "30020709 OP_2") (lit "OP_DROP 020709 OP_CHECKSIG") = Ok sig /\ spends cx true sig script [] = true) /\
  (exists script, make_p2wsh_output_script toy BitcoinMain (lit "OP_DROP 020709 OP_CHECKSIG") = Ok script /\
    spends cx true [] script [[48; 2; 7; 9]; [2]; [117; 3; 2; 7; 9; 172]] = true /\
    spends cx true [] script [[]; [48; 2; 7; 9]; [2]; [117; 3; 2; 7; 9; 172]] = false).
Proof.
  cbv zeta. do 3 (split; [do 2 eexists; split; [vm_compute; reflexivity|]; split; [vm_compute; reflexivity|vm_compute; reflexivity]|]). eexists.
  split; [vm_compute; reflexivity|]. split; [vm_compute; reflexivity|vm_compute; reflexivity].
Qed.
