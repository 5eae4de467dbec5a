(* Lemmas about MBuilder.v *)
From Coq Require Import String.
From Verif Require Import Py SNum SNet SHash SScript SBech32 SAddr MNet MUtils MShared MScript MTx MZcash MDecred MBase58 MBech32 MCashaddr MAddr MBuilder
  STx SZcash SDecred LBase LNet LUtils LVarint LScript LTx LTxParse LZcash LZcashTx LDecred LAddr LCopy.
Open Scope list_scope.
Open Scope Z_scope.

Definition word (k : nat) (n : Z) : res bytes := if (0 <=? n) && (n <? 256 ^ Z.of_nat k) then Ok (le_bytes k n) else Err OverflowError.

Lemma padded n (k : nat) : i2le_padded n (Z.of_nat k) = word k n.
Proof.
  unfold word. destruct (Z.leb_spec 0 n), (Z.ltb_spec n (256 ^ Z.of_nat k)); cbn [andb].
  1: rewrite i2le_padded_Ok, Nat2Z.id by lia; reflexivity.
  all: apply (i2le_padded_exact n (Z.of_nat k)); lia.
Qed.
Lemma padded8 n : i2le_padded n 8 = word 8 n. Proof. exact (padded n 8). Qed.
Lemma padded4 n : i2le_padded n 4 = word 4 n. Proof. exact (padded n 4). Qed.
Lemma padded1 n : i2le_padded n 1 = word 1 n. Proof. exact (padded n 1). Qed.
Lemma word_Ok k n : 0 <= n < 256 ^ Z.of_nat k -> word k n = Ok (le_bytes k n).
Proof. intros R. unfold word. destruct (Z.leb_spec 0 n), (Z.ltb_spec n (256 ^ Z.of_nat k)); try lia. reflexivity. Qed.
Lemma word_Err k n : ~ 0 <= n < 256 ^ Z.of_nat k -> word k n = Err OverflowError.
Proof. intros R. unfold word. destruct (Z.leb_spec 0 n), (Z.ltb_spec n (256 ^ Z.of_nat k)); try lia; reflexivity. Qed.
Lemma zlen_le_bytes k n : zlen (le_bytes k n) = Z.of_nat k.
Proof. unfold zlen, le_bytes. rewrite map_length, seq_length. reflexivity. Qed.

Lemma return_in name : In (106, lit "OP_RETURN") (opcodes_of name).
Proof.
  rewrite opcodes_of_b. unfold opcodes_b. destruct (str_mem name decred_names);
  match goal with |- In ?x ?l => assert (existsb (fun o => (fst o =? 106) && leqb (snd o) (lit "OP_RETURN")) l = true) as X by (vm_compute; reflexivity) end;
  apply existsb_exists in X; destruct X as [[c n] [I X]]; cbn [fst snd] in X; apply andb_true_iff in X;
  destruct X as [X1 X2]; apply Z.eqb_eq in X1; apply leqb_eq in X2; subst; exact I.
Qed.
Lemma zero_in name : In (0, lit "OP_0") (opcodes_of name).
Proof.
  rewrite opcodes_of_b. unfold opcodes_b. destruct (str_mem name decred_names);
  match goal with |- In ?x ?l => assert (existsb (fun o => (fst o =? 0) && leqb (snd o) (lit "OP_0")) l = true) as X by (vm_compute; reflexivity) end;
  apply existsb_exists in X; destruct X as [[c n] [I X]]; cbn [fst snd] in X; apply andb_true_iff in X;
  destruct X as [X1 X2]; apply Z.eqb_eq in X1; apply leqb_eq in X2; subst; exact I.
Qed.

Section Builder.
Variables (H : hashes) (name : str) (net : network).
Hypothesis En : get_network name = Ok net.

Lemma on_decred_true : In name decred_names -> on_decred net = true.
Proof. apply (decred_only_names name net En). Qed.
Lemma on_decred_false : ~ In name decred_names -> on_decred net = false.
Proof. intros N. destruct (on_decred net) eqn:E; [|reflexivity]. contradiction N. apply (decred_only_names name net En), E. Qed.

(** ** Outputs *)
Lemma make_output_plain v s : ~ In name decred_names -> zlen v = 8 -> zlen s < 2 ^ 64 ->
  exists o, make_output net v s None = Ok (AnyOut o) /\ txout_obj o /\ the_output o = {| out_value := v; out_script := s |}.
Proof.
  intros N V L. unfold make_output. rewrite (on_decred_false N), TxOut_spec, V. destruct (Z.ltb_spec (zlen s) (2 ^ 64)) as [_|]; [|lia].
  eexists. cbn. split; [reflexivity|]. split; [|reflexivity].
  apply txout_obj_iff. cbn. repeat split; assumption.
Qed.
Lemma make_output_decred v s : In name decred_names -> make_output net v s None = Err ValueError.
Proof.
  intros I. unfold make_output. rewrite (on_decred_true I). unfold DecredTxOut. rewrite (decred_only_Ok name net En I). cbn [bind].
  unfold validate_bytes, guard. destruct (negb _); reflexivity.
Qed.

Lemma op_return_plain data : ~ In name decred_names -> all_bytes data -> len data <= 77 ->
  exists o, make_op_return_output net data = Ok (AnyOut o) /\ txout_obj o /\ 
    the_output o = {| out_value := le_bytes 8 0; out_script := 0x6a :: push (if len data <=? 75 then Direct else Pushdata1) data |}.
Proof.
  intros N B L. unfold make_op_return_output. change (len data) with (zlen data) in *. pose proof (zlen_nonneg data).
  destruct (Z.ltb_spec 77 (zlen data)); [lia|]. cbv [guard]. cbn [bind]. rewrite padded8, word_Ok by (cbn; lia). cbn [bind].
  match goal with |- context [make_output net _ ?s None] => destruct (make_output_plain (le_bytes 8 0) s N eq_refl) as [o [E [O V]]] end.
  { rewrite !zlen_app. change (zlen [106]) with 1. change (zlen [zlen data]) with 1. destruct (zmem _ _).
    - change (zlen [76]) with 1. lia.
    - change (zlen (@nil Z)) with 0. lia. }
  exists o. split; [exact E|]. split; [exact O|]. rewrite V. cbn [app].
  assert (zmem (zlen data) [76; 77] = negb (zlen data <=? 75)) as ->.
  { unfold zmem. cbn [existsb]. destruct (Z.leb_spec (zlen data) 75), (Z.eqb_spec (zlen data) 76), (Z.eqb_spec (zlen data) 77); try lia; reflexivity. }
  destruct (zlen data <=? 75); reflexivity.
Qed.
Lemma op_return_text data : all_bytes data -> 1 <= len data <= 77 ->
  deserialize net (0x6a :: push (if len data <=? 75 then Direct else Pushdata1) data) = Ok (lit "OP_RETURN " ++ hex data).
Proof.
  intros B L. set (f := if len data <=? 75 then Direct else Pushdata1).
  pose proof (deserialize_wires name net [Op 0x6a (lit "OP_RETURN"); Push f data] En) as D.
  cbn [map wire text concat] in D. rewrite app_nil_r in D. etransitivity; [apply D|reflexivity].
  - constructor; [|constructor; [|constructor]].
    + split; [|lia]. apply return_in.
    + split; [exact B|]. unfold f. destruct (Z.leb_spec (len data) 75); lia.
Qed.

(** ** Output scripts *)
Definition pkh (w : bool) : payment := if w then P2WPKH else P2PKH.
Definition sh (w : bool) : payment := if w then P2WSH else P2SH.
Definition sh_hash (w : bool) (b : bytes) : bytes := if w then h_sha256 H b else key_hash H name b.

Lemma segwit_or w : (w = true -> In name segwit_names) -> w && negb (SEGWIT net) = false.
Proof. intros I. destruct w; [|reflexivity]. rewrite (proj2 (sh_segwit _ _ (shapes name net En)) (I eq_refl)). reflexivity. Qed.
Lemma segwit_not w : w = true -> ~ In name segwit_names -> w && negb (SEGWIT net) = true.
Proof. intros -> N. destruct (SEGWIT net) eqn:E; [|reflexivity]. contradiction N. apply (sh_segwit _ _ (shapes name net En)), E. Qed.

Lemma pkh_script_Ok pk w : (w = true -> In name segwit_names) ->
  make_pkh_output_script H net pk w = Ok (template (pkh w) (key_hash H name pk)).
Proof.
  intros I. unfold make_pkh_output_script. rewrite (segwit_or w I). cbv [guard]. cbn [bind].
  rewrite (hash160_key_hash H name net pk En), (sh_wpkh _ _ (shapes name net En)). destruct w; reflexivity.
Qed.
Lemma pkh_script_Err pk : ~ In name segwit_names -> make_pkh_output_script H net pk true = Err ValueError.
Proof. intros N. unfold make_pkh_output_script. rewrite (segwit_not true eq_refl N). reflexivity. Qed.
Lemma sh_script_Ok s b w : (w = true -> In name segwit_names) -> serialize net s = Ok b ->
  make_sh_output_script H net s w = Ok (template (sh w) (sh_hash w b)).
Proof.
  intros I E. unfold make_sh_output_script. rewrite (segwit_or w I), E. cbv [guard]. cbn [bind]. unfold make_sh_script_pubkey, sh_hash.
  rewrite (hash160_key_hash H name net b En), (sh_wsh _ _ (shapes name net En)). destruct w; reflexivity.
Qed.
Lemma sh_script_Err s : ~ In name segwit_names -> make_sh_output_script H net s true = Err ValueError.
Proof. intros N. unfold make_sh_output_script. rewrite (segwit_not true eq_refl N). reflexivity. Qed.
Lemma sh_script_bad s w e : (w = true -> In name segwit_names) -> serialize net s = Err e -> make_sh_output_script H net s w = Err e.
Proof. intros I E. unfold make_sh_output_script. rewrite (segwit_or w I), E. reflexivity. Qed.

(* the address of the payment pays to the same script *)
Lemma agrees k h ca : hashes_ok H -> all_bytes h -> len h = hash_len k -> (is_witness_payment k = true -> In name segwit_names) ->
  exists s, payment_address H net k h ca = Ok (Some s) /\ address_for H name net k h s /\
    (to_output_script H net s = Ok (template k h) \/
     (to_output_script H net s = Err ValueError /\ is_witness_payment k = true /\
      exists hrp p, BECH32_HRP net = Some hrp /\ segwit_address hrp 0 h s /\ base58check_of H name p s)).
Proof.
  intros K B L Sk. destruct (supported_address H name net K En k h ca B L Sk) as [s [E A]].
  exists s. split; [exact E|split; [exact A|]]. exact (address_for_pays H name net K En k h s B L A).
Qed.
Lemma pkh_agrees pk w ca : hashes_ok H -> (w = true -> In name segwit_names) ->
  exists s, make_pkh_address H net pk w ca = Ok (Some s) /\ address_for H name net (pkh w) (key_hash H name pk) s /\
    (to_output_script H net s = make_pkh_output_script H net pk w \/
     (to_output_script H net s = Err ValueError /\ w = true /\
      exists hrp p, BECH32_HRP net = Some hrp /\ segwit_address hrp 0 (key_hash H name pk) s /\ base58check_of H name p s)).
Proof.
  intros K I. destruct (key_hash_ok H name pk K) as [B L].
  destruct (agrees (pkh w) (key_hash H name pk) ca K B) as [s [E [A X]]].
  - destruct w; exact L.
  - destruct w; intros; [apply I; reflexivity|discriminate].
  - exists s. split; [|split; [exact A|]].
    + unfold make_pkh_address. rewrite (hash160_key_hash H name net _ En). destruct w; exact E.
    + rewrite (pkh_script_Ok pk w I). destruct w; [exact X|]. destruct X as [X|[_ [X _]]]; [left; exact X|discriminate].
Qed.
Lemma sh_agrees t b w ca : hashes_ok H -> (w = true -> In name segwit_names) -> serialize net t = Ok b ->
  exists s, make_sh_address H net t w ca = Ok (Some s) /\ address_for H name net (sh w) (sh_hash w b) s /\
    (to_output_script H net s = make_sh_output_script H net t w \/
     (to_output_script H net s = Err ValueError /\ w = true /\
      exists hrp p, BECH32_HRP net = Some hrp /\ segwit_address hrp 0 (sh_hash w b) s /\ base58check_of H name p s)).
Proof.
  intros K I Es. destruct (key_hash_ok H name b K) as [B L]. destruct (script_hash_ok H b K) as [B' L'].
  destruct (agrees (sh w) (sh_hash w b) ca K) as [s [E [A X]]].
  - destruct w; assumption.
  - destruct w; assumption.
  - destruct w; intros; [apply I; reflexivity|discriminate].
  - exists s. split; [|split; [exact A|]].
    + unfold make_sh_address. rewrite Es. cbn [bind]. unfold ser_script_to_sh_address. destruct w; [|cbn [negb]; rewrite (hash160_key_hash H name net _ En)]; exact E.
    + rewrite (sh_script_Ok t b w I Es). destruct w; [exact X|]. destruct X as [X|[_ [X _]]]; [left; exact X|discriminate].
Qed.

Lemma zlen_template k h : zlen h = hash_len k -> zlen (template k h) < 2 ^ 64.
Proof. intros L. destruct k; cbn [template hash_len] in *; rewrite ?zlen_app, L; vm_compute; reflexivity. Qed.

Lemma pkh_output_Ok v pk w : hashes_ok H -> ~ In name decred_names -> (w = true -> In name segwit_names) -> 0 <= v < 2 ^ 64 ->
  exists o, make_pkh_output H net v pk w = Ok (AnyOut o) /\ txout_obj o /\ 
    the_output o = {| out_value := le_bytes 8 v; out_script := template (pkh w) (key_hash H name pk) |}.
Proof.
  intros K N I R. unfold make_pkh_output. rewrite padded8, word_Ok by (cbn; lia). cbn [bind]. rewrite (pkh_script_Ok pk w I). cbn [bind].
  apply make_output_plain; [exact N|reflexivity|]. apply zlen_template. destruct w; apply (key_hash_ok H name pk K).
Qed.
Lemma sh_output_Ok v t b w : hashes_ok H -> ~ In name decred_names -> (w = true -> In name segwit_names) -> 0 <= v < 2 ^ 64 ->
  serialize net t = Ok b ->
  exists o, make_sh_output H net v t w = Ok (AnyOut o) /\ txout_obj o /\ 
    the_output o = {| out_value := le_bytes 8 v; out_script := template (sh w) (sh_hash w b) |}.
Proof.
  intros K N I R Es. unfold make_sh_output. rewrite padded8, word_Ok by (cbn; lia). cbn [bind]. rewrite (sh_script_Ok t b w I Es). cbn [bind].
  apply make_output_plain; [exact N|reflexivity|]. apply zlen_template. destruct w; [apply (script_hash_ok H b K)|apply (key_hash_ok H name b K)].
Qed.
Lemma outputs_overflow v pk t w : ~ 0 <= v < 2 ^ 64 -> make_pkh_output H net v pk w = Err OverflowError /\ make_sh_output H net v t w = Err OverflowError.
Proof. intros R. unfold make_pkh_output, make_sh_output. rewrite padded8, word_Err by (cbn; lia). split; reflexivity. Qed.
Lemma outputs_decred v pk w : In name decred_names -> 0 <= v < 2 ^ 64 -> (w = true -> In name segwit_names) ->
  make_pkh_output H net v pk w = Err ValueError.
Proof.
  intros I R Sw. unfold make_pkh_output. rewrite padded8, word_Ok by (cbn; lia). cbn [bind]. rewrite (pkh_script_Ok pk w Sw). cbn [bind].
  apply make_output_decred, I.
Qed.
End Builder.
