(* C83: what serialize, hex_serialize and hex_deserialize do with every text.  The words of a
   text are [words] (SScript.v), their meaning [word_bytes] and [word_error] (SSerialize.v). *)
From Coq Require Import String.
From Verif Require Import Py MNet MUtils MScript SNum SNet SScript SSerialize LBase LNet LScript LParse LSerialize.
Open Scope list_scope.
Open Scope Z_scope.

(* every text is a sequence of words in one way only *)
Theorem words_total : forall s, exists ts, words ts s /\ forall ts', words ts' s -> ts' = ts.
Proof. intros s. exists (split_ws s). split; [apply split_words|]. intros ts' W. apply words_split in W. congruence. Qed.
Print Assumptions words_total.

Theorem serialize_accepts : forall name net s b, get_network name = Ok net ->
  serialize net s = Ok b <-> exists ts bs, words ts s /\ Forall2 (word_bytes name) ts bs /\ b = concat bs.
Proof.
  intros name net s b En. unfold serialize. split.
  - intros E. exists (split_ws s). destruct (mapM_words name net (split_ws s) En (split_ws_tokens s)) as [[bs [B M]]|[? [? [? [? [? [_ [_ [_ M]]]]]]]]];
      rewrite M in E; [|discriminate]. cbn [bind] in E. apply Ok_inj in E. exists bs. split; [apply split_words|auto].
  - intros [ts [bs [W [B ->]]]]. rewrite (words_split ts s W), (mapM_words_ok name net ts bs En B). reflexivity.
Qed.
Print Assumptions serialize_accepts.
(* the first word that is wrong decides the exception *)
Theorem serialize_raises : forall name net s e, get_network name = Ok net ->
  serialize net s = Err e <-> exists good w more bs, words (good ++ w :: more) s /\ Forall2 (word_bytes name) good bs /\ word_error name w e.
Proof.
  intros name net s e En. unfold serialize. split.
  - intros E. destruct (mapM_words name net (split_ws s) En (split_ws_tokens s)) as [[bs [B M]]|[good [w [more [bs [e' [T [B [X M]]]]]]]]];
      rewrite M in E; [discriminate|]. cbn [bind] in E. injection E as ->. exists good, w, more, bs. split; [exact (eq_ind _ (fun l => words l s) (split_words s) _ T)|auto].
  - intros [good [w [more [bs [W [B X]]]]]]. pose proof (split_ws_tokens s) as F. pose proof (words_split _ s W) as Q. rewrite Q in F |- *.
    apply Forall_app in F. destruct F as [_ F]. inversion F as [|? ? [N Fw] _]; subst.
    etransitivity; [exact (f_equal (fun r => bind r _) (mapM_words_err name net good bs w more e En B N Fw X))|reflexivity].
Qed.
Print Assumptions serialize_raises.
Theorem hex_serialize_exact : forall name net s, get_network name = Ok net ->
  (forall h, hex_serialize net s = Ok h <-> exists b, serialize net s = Ok b /\ h = hex b) /\
  (forall e, hex_serialize net s = Err e <-> serialize net s = Err e).
Proof.
  intros name net s En. unfold hex_serialize. destruct (serialize net s) as [b|e]; cbn [bind]; split; intros x.
  - split; [intros E; apply Ok_inj in E; eauto|]. intros [b' [E ->]]. apply Ok_inj in E. congruence.
  - split; discriminate.
  - split; [discriminate|]. intros [b [E _]]. discriminate.
  - reflexivity.
Qed.
Print Assumptions hex_serialize_exact.
(* hexadecimal of either case, also with spaces between the bytes *)
Theorem hex_deserialize_exact : forall net s,
  (forall d, hex_spelling d s -> hex_deserialize net s = deserialize net d) /\
  ((forall d, ~ hex_spelling d s) -> hex_deserialize net s = Err ValueError).
Proof.
  intros net s. unfold hex_deserialize. split.
  - intros d X. apply fromhex_iff in X. rewrite X. reflexivity.
  - intros N. apply fromhex_not in N. rewrite N. reflexivity.
Qed.
Print Assumptions hex_deserialize_exact.
Theorem hex_spelling_once : forall s d d', hex_spelling d s -> hex_spelling d' s -> d' = d.
Proof. intros s d d' X X'. apply fromhex_iff in X, X'. congruence. Qed.
Print Assumptions hex_spelling_once.
(* a text means the same script on all networks but Decred's *)
Theorem serialize_networks : forall name net name' net' s, get_network name = Ok net -> get_network name' = Ok net' ->
  (In name decred_names <-> In name' decred_names) -> serialize net s = serialize net' s.
Proof.
  intros name net name' net' s En En' D.
  assert (forall w b, word_bytes name w b <-> word_bytes name' w b) as Wb.
  { intros w b. unfold word_bytes, opcode_word, opcodes_of. destruct (in_dec list_eq_dec_Z name decred_names) as [I|I], (in_dec list_eq_dec_Z name' decred_names) as [I'|I']; try tauto. }
  assert (forall w e, word_error name w e <-> word_error name' w e) as We.
  { intros w b. unfold word_error, opcode_word, opcodes_of. destruct (in_dec list_eq_dec_Z name decred_names) as [I|I], (in_dec list_eq_dec_Z name' decred_names) as [I'|I']; try tauto. }
  assert (forall ts bs, Forall2 (word_bytes name) ts bs -> Forall2 (word_bytes name') ts bs) as Fb.
  { induction 1; constructor; [apply Wb; assumption|assumption]. }
  destruct (serialize net s) as [b|e] eqn:E; symmetry.
  - apply (serialize_accepts name net s b En) in E. destruct E as [ts [bs [W [B ->]]]]. apply (serialize_accepts name' net' s _ En'). eauto 6.
  - apply (serialize_raises name net s e En) in E. destruct E as [good [w [more [bs [W [B X]]]]]]. apply (serialize_raises name' net' s e En').
    exists good, w, more, bs. split; [exact W|]. split; [auto|]. apply We, X.
Qed.
Print Assumptions serialize_networks.

Example serialize_all_ex :
  words [lit "OP_PUSH_2"; lit "aAfF"] (lit " OP_PUSH_2 aAfF") /\
  word_bytes (lit "bitcoin_main") (lit "OP_PUSH_2") [2] /\ word_bytes (lit "bitcoin_main") (lit "aAfF") [2; 170; 255] /\
  serialize BitcoinMain (lit " OP_PUSH_2 aAfF") = Ok [2; 2; 170; 255] /\
  word_error (lit "bitcoin_main") (lit "OP_PUSHDATA4") NotImplementedError /\ serialize BitcoinMain (lit "00 OP_PUSHDATA4 xyz") = Err NotImplementedError /\
  word_error (lit "bitcoin_main") (lit "abc") ValueError /\ serialize BitcoinMain (lit "00 abc OP_PUSHDATA4") = Err ValueError /\
  hex_serialize BitcoinMain (lit "OP_DUP") = Ok (lit "76") /\ hex_deserialize BitcoinMain (lit "76 A9") = Ok (lit "OP_DUP OP_HASH160") /\
  serialize DecredMain (lit "OP_SHA256") = Ok [192] /\ serialize BitcoinMain (lit "OP_SHA256") = Ok [168].
Proof.
  split.
  { apply (words_cons (lit " ") (lit "OP_PUSH_2") (lit " aAfF") [lit "aAfF"]); [repeat constructor|discriminate|repeat constructor| |].
    - apply (words_cons (lit " ") (lit "aAfF") [] []); [repeat constructor|discriminate|repeat constructor|apply words_nil; constructor|intros c t E; discriminate].
    - intros c t E. injection E as <- _. reflexivity. }
  split. { left. exists 2. split; [right; right; cbn; auto 6|reflexivity]. }
  split. { right. exists [170; 255]. split; [apply fromhex_iff; reflexivity|]. split; [unfold len; cbn; lia|reflexivity]. }
  split; [vm_compute; reflexivity|]. split; [left; split; [left; right; left; reflexivity|reflexivity]|]. split; [vm_compute; reflexivity|].
  split.
  { assert (serialize BitcoinMain (lit "abc") = Err ValueError) as E by (vm_compute; reflexivity).
    apply (serialize_raises (lit "bitcoin_main") BitcoinMain) in E; [|reflexivity]. destruct E as [good [w [more [bs [W [_ X]]]]]].
    apply words_split in W. change (split_ws (lit "abc")) with [lit "abc"] in W. destruct good as [|g [|g' good]]; [|discriminate W|discriminate W].
    injection W as <- _. exact X. }
  repeat (split; [vm_compute; reflexivity|]). vm_compute. reflexivity.
Qed.
