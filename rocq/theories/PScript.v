(* Properties C17, C18, C19 and C50: scripts *)
From Coq Require Import String.
From Verif Require Import Py MNet MUtils MScript SNum SNet SScript LBase LScript.
Open Scope list_scope.
Open Scope Z_scope.

(* C17, for opcode names other than those of the push opcodes and of the
   separator: the text of a sequence of opcodes and data of 1 to 1000 bytes,
   with any white space between and around its words, serializes to the wire
   form with smallest pushes, and deserializing gives the same words with
   aliases replaced *)
Theorem serialize_deserialize_partial : forall name net ts es s,
  get_network name = Ok net -> Forall (standard_element name) es -> Forall2 spelled ts es -> words ts s ->
  serialize net s = Ok (concat (map wire es)) /\
  deserialize net (concat (map wire es)) = Ok (join (lit " ") (map text es)).
Proof. exact c17. Qed.
Print Assumptions serialize_deserialize_partial.
Example serialize_deserialize_ex :
  serialize BitcoinMain (lit " OP_DUP  aabb OP_NOP2") = Ok [118; 2; 170; 187; 177] /\
  deserialize BitcoinMain [118; 2; 170; 187; 177] = Ok (lit "OP_DUP aabb OP_CHECKLOCKTIMEVERIFY") /\
  words [lit "OP_DUP"; lit "aabb"; lit "OP_NOP2"] (lit " OP_DUP  aabb OP_NOP2").
Proof.
  split; [reflexivity|split; [reflexivity|]].
  apply (words_cons (lit " ") (lit "OP_DUP") (lit "  aabb OP_NOP2"));
    [repeat constructor|discriminate|repeat constructor| |intros c t E; injection E as <- _; reflexivity].
  apply (words_cons (lit "  ") (lit "aabb") (lit " OP_NOP2"));
    [repeat constructor|discriminate|repeat constructor| |intros c t E; injection E as <- _; reflexivity].
  apply (words_cons (lit " ") (lit "OP_NOP2") (lit ""));
    [repeat constructor|discriminate|repeat constructor| |intros c t E; discriminate].
  apply words_nil. constructor.
Qed.
Example standard_element_ex : standard_element (lit "bitcoin_main") (Push Direct [170; 187]) /\
  (exists name, name = lit "OP_BLAKE256" /\ In (168, name) decred_opcodes).
Proof.
  split; [split; [repeat constructor; lia|split; [vm_compute; split; discriminate|reflexivity]]|].
  eexists. split; [reflexivity|].
  assert (existsb (fun o => (fst o =? 168) && leqb (snd o) (lit "OP_BLAKE256")) decred_opcodes = true) as E
    by (vm_compute; reflexivity).
  apply existsb_exists in E. destruct E as [[c n] [I E]]. cbn [fst snd] in E. apply andb_true_iff in E.
  destruct E as [E1 E2]. apply Z.eqb_eq in E1. apply leqb_eq in E2. subst. exact I.
Qed.

(* C17: the form chosen fits, and no form that fits is shorter *)
Theorem smallest_push_fits : forall d, all_bytes d -> 1 <= len d <= 1000 -> push_fits (smallest d) d.
Proof. exact smallest_fits. Qed.
Print Assumptions smallest_push_fits.
Theorem smallest_push_minimal : forall d f, push_fits f d -> len d <= 1000 -> len (push (smallest d) d) <= len (push f d).
Proof. exact smallest_min. Qed.
Print Assumptions smallest_push_minimal.
Example smallest_push_ex : push_fits Pushdata2 [1; 2] /\ len (push (smallest [1; 2]) [1; 2]) = 3 /\ len (push Pushdata2 [1; 2]) = 5.
Proof. repeat split; try (vm_compute; discriminate). repeat constructor; lia. Qed.

(* C17 fails for the names of push opcodes: they serialize to a bare opcode
   byte that swallows what follows *)
Theorem serialize_push_name_refuted : exists s b,
  serialize BitcoinMain s = Ok b /\ s = lit "OP_PUSH_2 OP_DUP OP_DUP" /\
  deserialize BitcoinMain b = Ok (lit "7676").
Proof. exists (lit "OP_PUSH_2 OP_DUP OP_DUP"), [2; 118; 118]. repeat split; vm_compute; reflexivity. Qed.
Print Assumptions serialize_push_name_refuted.

(* C18: a script that deserializes is given back by serialize exactly when all
   its pushes are nonempty, complete, at most 1000 bytes and smallest *)
Theorem deserialize_serialize_partial : forall name net b s,
  get_network name = Ok net -> all_bytes b -> deserialize net b = Ok s ->
  (serialize net s = Ok b <-> exists es, Forall (standard_element name) es /\ b = concat (map wire es)).
Proof. exact c18. Qed.
Print Assumptions deserialize_serialize_partial.
Example deserialize_serialize_ex :
  deserialize DecredMain [168; 1; 9; 135] = Ok (lit "OP_BLAKE256 09 OP_EQUAL") /\
  serialize DecredMain (lit "OP_BLAKE256 09 OP_EQUAL") = Ok [168; 1; 9; 135].
Proof. split; reflexivity. Qed.

(* C18: what serialize gives back for every complete script *)
Theorem deserialize_complete : forall name net es,
  get_network name = Ok net -> Forall (element_ok name) es ->
  deserialize net (concat (map wire es)) = Ok (join (lit " ") (map text es)).
Proof. exact deserialize_wires. Qed.
Print Assumptions deserialize_complete.
Theorem reserialize_normal : forall name net es,
  get_network name = Ok net -> Forall (element_ok name) es ->
  Forall (fun e => match e with Push _ d => len d <= 1000 | Op _ _ => True end) es ->
  serialize net (join (lit " ") (map text es)) = Ok (concat (map wire (concat (map normal es)))).
Proof. exact reserialize. Qed.
Print Assumptions reserialize_normal.
Example reserialize_normal_ex :
  deserialize BitcoinMain [76; 1; 170; 76; 0; 77; 1; 0; 5] = Ok (lit "aa  05") /\
  serialize BitcoinMain (lit "aa  05") = Ok [1; 170; 1; 5] /\
  element_ok (lit "bitcoin_main") (Push Pushdata1 []) /\ element_ok (lit "bitcoin_main") (Push Pushdata2 [5]).
Proof. repeat split; try (vm_compute; discriminate); repeat constructor; lia. Qed.

(* C18 fails for non-minimal pushes *)
Theorem deserialize_serialize_refuted : exists b s b',
  deserialize BitcoinMain b = Ok s /\ serialize BitcoinMain s = Ok b' /\ b <> b'.
Proof. exists [76; 1; 170], (lit "aa"), [1; 170]. repeat split. discriminate. Qed.
Print Assumptions deserialize_serialize_refuted.

(* C19: a direct push that runs past the end is refused wherever it stands *)
Theorem deserialize_overrun_partial : forall name net es r d,
  get_network name = Ok net -> Forall (element_ok name) es -> all_bytes r -> overrun Direct r d ->
  deserialize net (concat (map wire es) ++ r) = Err IndexError.
Proof. intros name net es r d En F B O. exact (c19 name net es r Direct d En F B O). Qed.
Print Assumptions deserialize_overrun_partial.
Example deserialize_overrun_ex : overrun Direct [3; 1; 2] [1; 2] /\ deserialize BitcoinMain [118; 3; 1; 2] = Err IndexError.
Proof. split; [constructor; [lia|vm_compute; reflexivity]|reflexivity]. Qed.

(* C19: the other push opcodes are not checked: the text shows the bytes that
   are there.  Only an OP_PUSHDATA1 that ends the script is refused. *)
Theorem deserialize_overrun_exact : forall name net es r f d,
  get_network name = Ok net -> Forall (element_ok name) es -> all_bytes r -> overrun f r d -> f <> Direct ->
  deserialize net (concat (map wire es) ++ r) =
  if list_eq_dec Z.eq_dec r [76] then Err IndexError else Ok (join (lit " ") (map text es ++ [hex d])).
Proof.
  intros name net es r f d En F B O N. rewrite (c19 name net es r f d En F B O).
  destruct list_eq_dec as [->|Ne]; [destruct f; [contradiction|reflexivity|reflexivity]|].
  rewrite (leqb_false r [76] Ne). destruct f; [contradiction|reflexivity|reflexivity].
Qed.
Print Assumptions deserialize_overrun_exact.
Theorem deserialize_overrun_refuted : exists b d, overrun Pushdata1 b d /\ deserialize BitcoinMain b = Ok (hex d) /\ d = [170; 187].
Proof. exists [76; 200; 170; 187], [170; 187]. split; [constructor; [lia|reflexivity]|split; reflexivity]. Qed.
Print Assumptions deserialize_overrun_refuted.

(* C19: every byte string is a run of opcodes and complete pushes that ends
   cleanly, in an overrun push, or in a byte that deserialize refuses *)
Theorem deserialize_total : forall name net b, get_network name = Ok net -> all_bytes b ->
  exists es r, Forall (element_ok name) es /\ b = concat (map wire es) ++ r /\
  (r = [] \/ (exists f d, overrun f r d) \/
   (exists c t, r = c :: t /\ (c = 171 \/ c = 78) /\ deserialize net b = Err NotImplementedError) \/
   (exists c t, r = c :: t /\ unknown_opcode name c /\ deserialize net b = Err ValueError)).
Proof.
  intros name net b En B. destruct (decompose name net b En B) as [es [r [out [E [F X]]]]].
  exists es, r. split; [exact F|split; [exact E|]]. unfold all_bytes in B.
  assert (is_bytes r) as Br by (rewrite E in B; apply is_bytes_app in B; apply B).
  pose proof (deserialize_ending name net es r out En F Br X) as D. rewrite <- E in D.
  inversion X; subst; eauto 8. right. left. exists Pushdata1, []. constructor.
Qed.
Print Assumptions deserialize_total.
Example deserialize_total_ex : deserialize BitcoinMain [118; 200] = Err ValueError /\ deserialize BitcoinMain [171] = Err NotImplementedError.
Proof. split; reflexivity. Qed.

(* C50: a byte that deserialize names is the only byte with that name, and
   serializing the name gives the byte *)
Theorem opcode_names_serialize : forall name net c w,
  get_network name = Ok net -> 0 <= c < 256 -> deserialize net [c] = Ok w -> w <> [] ->
  serialize net w = Ok [c].
Proof.
  intros name net c w En R D N. destruct (c50_name name net c En R) as [[w' [D' [_ [_ [_ S]]]]]|[[e D']|[_ D']]]; congruence.
Qed.
Print Assumptions opcode_names_serialize.
Theorem opcode_names_distinct : forall name net c c' w,
  get_network name = Ok net -> 0 <= c < 256 -> 0 <= c' < 256 ->
  deserialize net [c] = Ok w -> deserialize net [c'] = Ok w -> c = c'.
Proof.
  intros name net c c' w En R R' D D'.
  destruct (c50_name name net c En R) as [[w1 [D1 [N1 [_ [_ S1]]]]]|[[e D1]|[-> D1]]];
  destruct (c50_name name net c' En R') as [[w2 [D2 [N2 [_ [_ S2]]]]]|[[e2 D2]|[-> D2]]]; congruence.
Qed.
Print Assumptions opcode_names_distinct.
(* which byte has which name, on each network *)
Theorem opcode_names_table : forall name net c w,
  get_network name = Ok net -> 0 <= c < 256 -> (c = 0 \/ 79 <= c) -> c <> 171 ->
  (deserialize net [c] = Ok w <-> In (c, w) (opcodes_of name)).
Proof.
  intros name net c w En R P N. split.
  - intros D. destruct (c50_name name net c En R) as [[w' [D' [_ [I _]]]]|[[e D']|[Q D']]]; [|congruence|lia].
    rewrite D' in D. apply Ok_inj in D. subst. exact I.
  - intros I. pose proof (deserialize_wires name net [Op c w] En) as D. cbn in D. apply D.
    constructor; [split; assumption|constructor].
Qed.
Print Assumptions opcode_names_table.
Example opcode_names_ex : deserialize DecredMain [192] = Ok (lit "OP_SHA256") /\ deserialize BitcoinMain [168] = Ok (lit "OP_SHA256") /\
  serialize DecredMain (lit "OP_SHA256") = Ok [192].
Proof. repeat split. Qed.
