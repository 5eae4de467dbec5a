(* C67: what is paid to an address is spent by its owner, and by nobody else.
   [refers], [valid], [received] and [claimed] are in SPay.v. *)
From Coq Require Import String.
From Verif Require Import Py SNum SNet SHash SSha SScript SBase58 SBech32 SCashaddr SAddr SInterp STx SSig SCopy SSign SPay MNet MUtils MAddr MScript MTx MBuilder
  LBase LBase58 LNet LSha LTx LScript LAddr LBuilder LBuilderTx LSig LSigTop LInterp LExamples LSign LPay PScript PAddr PTx PSig PBuilder PCopy PInterp PSign.
Open Scope list_scope.
Open Scope Z_scope.
Ltac Zify.zify_post_hook ::= idtac.

(** * Who can spend *)

(* simple.output to the address of a key: the value arrives, and it is spent exactly with
   a key of the same hash and a signature under it *)
Theorem paid_to_key : forall H name net key cashaddr value, hashes_ok H -> get_network name = Ok net -> ~ In name decred_names -> 0 <= value < 2 ^ 64 ->
  exists s o, make_pkh_address H net key false cashaddr = Ok (Some s) /\ simple_output H net value s = Ok (AnyOut o) /\ txout_obj o /\
    le_value (to_value o) = value /\
    forall cx segwit sig wit, hashing H cx ->
      (spends cx segwit sig (to_output_script o) wit = true <->
       exists k signature rest, run cx sig [] = Some (k :: signature :: rest) /\ count rest <= 996 /\
         key_hash H name k = key_hash H name key /\ cx_checksig cx signature k = Some true /\ (segwit = true -> wit = [])).
Proof.
  intros H name net key ca v K En ND R. destruct (p2pkh_address_agrees H name net key ca K En) as (s & E & A).
  pose proof (make_p2pkh_output_script_template H name net key En) as T. pose proof (simple_output_by_script H name net s v K En) as S. rewrite A, T in S.
  destruct S as (_ & _ & S). destruct (S R ND) as (o & Eo & Oo & Fo). exists s, o. split; [exact E|]. split; [exact Eo|]. split; [exact Oo|].
  injection Fo as F1 F2. rewrite F1, F2. split; [apply le_value_le_bytes; exact R|]. intros cx segwit sig wit Hc. exact (p2pkh_output_spent H cx name net key _ segwit sig wit K Hc En ND T).
Qed.
Print Assumptions paid_to_key.

(* the same for the address of a script *)
Theorem paid_to_script : forall H name net text b cashaddr value, hashes_ok H -> get_network name = Ok net -> ~ In name decred_names -> 0 <= value < 2 ^ 64 ->
  serialize net text = Ok b ->
  exists s o, make_sh_address H net text false cashaddr = Ok (Some s) /\ simple_output H net value s = Ok (AnyOut o) /\ txout_obj o /\
    le_value (to_value o) = value /\
    forall cx segwit sig wit, hashing H cx ->
      (spends cx segwit sig (to_output_script o) wit = true <->
       pushes_only sig = true /\
       exists redeem before after, run cx sig [] = Some (redeem :: before) /\ count before <= 998 /\
         key_hash H name redeem = key_hash H name b /\ run cx redeem before = Some after /\ top_true after = true /\
         match (if segwit then program redeem else None) with
         | Some (v, p) => sig = push (smallest redeem) redeem /\ verify_program cx v p wit = true
         | None => segwit = true -> wit = []
         end).
Proof.
  intros H name net text b ca v K En ND R Eb. destruct (p2sh_address_agrees H name net text b ca K En Eb) as (s & E & A).
  pose proof (make_p2sh_output_script_template H name net text En) as T. rewrite Eb in T. pose proof (simple_output_by_script H name net s v K En) as S. rewrite A, T in S.
  destruct S as (_ & _ & S). destruct (S R ND) as (o & Eo & Oo & Fo). exists s, o. split; [exact E|]. split; [exact Eo|]. split; [exact Oo|].
  injection Fo as F1 F2. rewrite F1, F2. split; [apply le_value_le_bytes; exact R|]. intros cx segwit sig wit Hc. exact (p2sh_output_spent H cx name net text b _ segwit sig wit K Hc En ND Eb T).
Qed.
Print Assumptions paid_to_script.

(* C67, full statement: the same for witness addresses.  Missing: bech32 addresses that are
   also Base58Check texts by accident; simple.output refuses them (see C13) *)
Theorem paid_to_witness_key_partial : forall H name net key cashaddr value, hashes_ok H -> get_network name = Ok net -> ~ In name decred_names -> 0 <= value < 2 ^ 64 ->
  In name segwit_names ->
  exists s, make_pkh_address H net key true cashaddr = Ok (Some s) /\
    ((simple_output H net value s = Err ValueError /\ exists hrp p, BECH32_HRP net = Some hrp /\ segwit_address hrp 0 (key_hash H name key) s /\ base58check_of H name p s) \/
     exists o, simple_output H net value s = Ok (AnyOut o) /\ txout_obj o /\ le_value (to_value o) = value /\
       forall cx sig wit, hashing H cx ->
         (spends cx true sig (to_output_script o) wit = true <->
          sig = [] /\ truthy (key_hash H name key) = true /\
          exists signature k, wit = [signature; k] /\ len signature <= 520 /\ len k <= 520 /\
            key_hash H name k = key_hash H name key /\ cx_checksig cx signature k = Some true)).
Proof.
  intros H name net key ca v K En ND R Sg. destruct (p2wpkh_address_agrees_partial H name net key ca K En Sg) as (s & E & A). exists s. split; [exact E|].
  pose proof (simple_output_by_script H name net s v K En) as S.
  destruct A as [A|[A X]]; [right|left; rewrite A in S; auto]. pose proof (proj1 (make_p2wpkh_output_script_template H name net key En) Sg) as T. rewrite A, T in S.
  destruct S as (_ & _ & S). destruct (S R ND) as (o & Eo & Oo & Fo). exists o. split; [exact Eo|]. split; [exact Oo|].
  injection Fo as F1 F2. rewrite F1, F2. split; [apply le_value_le_bytes; exact R|]. intros cx sig wit Hc. exact (p2wpkh_output_spent H cx name net key _ sig wit K Hc En ND T).
Qed.
Print Assumptions paid_to_witness_key_partial.
Theorem paid_to_witness_script_partial : forall H name net text b cashaddr value, hashes_ok H -> get_network name = Ok net -> ~ In name decred_names -> 0 <= value < 2 ^ 64 ->
  In name segwit_names -> serialize net text = Ok b ->
  exists s, make_sh_address H net text true cashaddr = Ok (Some s) /\
    ((simple_output H net value s = Err ValueError /\ exists hrp p, BECH32_HRP net = Some hrp /\ segwit_address hrp 0 (h_sha256 H b) s /\ base58check_of H name p s) \/
     exists o, simple_output H net value s = Ok (AnyOut o) /\ txout_obj o /\ le_value (to_value o) = value /\
       forall cx sig wit, hashing H cx ->
         (spends cx true sig (to_output_script o) wit = true <->
          sig = [] /\ truthy (h_sha256 H b) = true /\
          exists items other x, wit = items ++ [other] /\ h_sha256 H other = h_sha256 H b /\
            Forall (fun i => len i <= 520) items /\ run cx other (rev items) = Some [x] /\ truthy x = true)).
Proof.
  intros H name net text b ca v K En ND R Sg Eb. destruct (p2wsh_address_agrees_partial H name net text b ca K En Sg Eb) as (s & E & A). exists s. split; [exact E|].
  pose proof (simple_output_by_script H name net s v K En) as S.
  destruct A as [A|[A X]]; [right|left; rewrite A in S; auto]. pose proof (proj1 (make_p2wsh_output_script_template H name net text En) Sg) as T. rewrite Eb in T. rewrite A, T in S.
  destruct S as (_ & _ & S). destruct (S R ND) as (o & Eo & Oo & Fo). exists o. split; [exact Eo|]. split; [exact Oo|].
  injection Fo as F1 F2. rewrite F1, F2. split; [apply le_value_le_bytes; exact R|]. intros cx sig wit Hc. exact (p2wsh_output_spent H cx name net text b _ sig wit K Hc En Eb T).
Qed.
Print Assumptions paid_to_witness_script_partial.

(* there is a witness address to which nothing can be paid *)
Theorem paid_to_witness_refuted : exists h s, hashes_ok real /\ all_bytes h /\ len h = 20 /\
  from_output_script real BitcoinMain (template P2WPKH h) true = Ok (Some s) /\ forall value, simple_output real BitcoinMain value s = Err ValueError.
Proof.
  destruct script_address_script_refuted as (h & s & K & B & L & E1 & E2). exists h, s. do 4 (split; [assumption|]).
  intros v. pose proof (simple_output_by_script real (lit "bitcoin_main") BitcoinMain s v K eq_refl) as S. rewrite E2 in S. exact S.
Qed.
Print Assumptions paid_to_witness_refuted.

(** * From the payment to the transaction that spends it *)

(* payments to P2PKH addresses: refer to them with simple.outpoint and
   simple.unsigned_input, build the transaction with simple.unsigned_legacy_tx, sign its
   digests and copy the script sigs in: the network accepts it *)
Theorem pay_and_spend : forall W H name net coins outs ins version lock expiry js pk sg t ins',
  hashes_ok H -> get_network name = Ok net -> ~ In name decred_names ->
  Forall (fun c => tx_obj H net (c_from c) /\ exists o, received H net false c o) coins ->
  Forall2 (claimed net) coins ins -> Forall txout_obj outs ->
  simple_unsigned_legacy_tx H net (map AnyIn ins) (map AnyOut outs) version lock expiry js pk sg = Ok (AnyTx t) ->
  length ins' = length ins ->
  (forall n c o i i', nth_error coins n = Some c -> received H net false c o -> nth_error ins n = Some i -> nth_error ins' n = Some i' ->
     p2pkh_signed_input W H name net t n i (the_output o) i') ->
  exists t', Tx_copy H net t None None (Some ins') None None None = Ok t' /\ tx_obj H net t' /\
    t_outs (the_tx t') = map the_output outs /\ valid W H name (map (fun c => the_tx (c_from c)) coins) (the_tx t').
Proof.
  intros W H name net coins outs ins version lock expiry js pk sg t ins' K En ND Fc F2 Fo E L' Sg.
  destruct (legacy_fields _ _ _ _ _ _ _ _ _ _ _ E) as (Ei & Eo & P & G).
  assert (Forall (fun c => exists o, received H net false c o) coins) as Fr by (eapply Forall_impl; [|exact Fc]; intros c [_ X]; exact X).
  destruct (choose _ _ Fr) as [os F3]. pose proof (Forall2_nth _ _ _ F2) as [L2 N2]. pose proof (Forall2_nth _ _ _ F3) as [L3 N3].
  assert (forall n c i, nth_error coins n = Some c -> nth_error ins n = Some i -> tx_obj H net (c_from c) /\ claimed net c i) as C.
  { intros n c i A B. destruct (N2 n i B) as (c' & A' & X). assert (c' = c) by congruence. subst c'. rewrite Forall_forall in Fc. split; [apply Fc, (nth_error_In _ _ A)|exact X]. }
  assert (Forall txin_obj ins) as Fi.
  { apply Forall_forall. intros i I. apply In_nth_error in I. destruct I as [n A]. destruct (N2 n i A) as (c & B & X). destruct (C n c i B A) as [O _]. apply (claimed_refers H name net c i K En ND O X). }
  pose proof (G Fi Fo) as O.
  destruct (p2pkh_transaction_accepted W H name net t (map the_output os) ins' K En ND O P) as (t' & Ec & O' & Acc).
  { rewrite map_length, Ei. congruence. } { rewrite Ei. exact L'. }
  { intros n i o i' A B D. rewrite Ei in A. rewrite nth_error_map in B. destruct (nth_error os n) as [o0|] eqn:B'; [|discriminate]. injection B as <-.
    destruct (N3 n o0 B') as (c & A1 & R). exact (Sg n c o0 i i' A1 R A D). }
  exists t'. split; [exact Ec|]. split; [exact O'|]. destruct (copy_tx H net t None None (Some ins') None None None O) as (_ & _ & X). destruct (X t' Ec) as (_ & _ & X3 & X4 & _).
  cbn [updated] in X3, X4. split; [cbn [the_tx t_outs]; rewrite X4, Eo; reflexivity|].
  intros n i A. cbn [the_tx t_ins] in A. rewrite X3, nth_error_map in A. destruct (nth_error ins' n) as [i'|] eqn:A'; [|discriminate]. injection A as <-.
  pose proof (nth_lt _ _ _ A') as Ln. destruct (nth_some ins n ltac:(lia)) as [i0 A0]. destruct (nth_some os n ltac:(lia)) as [o B]. destruct (N3 n o B) as (c & Bc & R).
  destruct (C n c i0 Bc A0) as [Oc Cl]. destruct (claimed_refers H name net c i0 K En ND Oc Cl) as (Oi & _ & _ & _ & Ti & Xi).
  destruct (Sg n c o i0 i' Bc R A0 A') as (? & ? & ? & ? & ? & ? & sig & _ & _ & _ & _ & _ & _ & _ & _ & _ & _ & _ & _ & Cp).
  destruct (copy_txin i0 None (Some sig) None None Oi) as (_ & _ & Y). destruct (Y i' Cp) as (Y1 & _). cbn [updated] in Y1.
  exists (the_tx (c_from c)), (the_output o). split; [apply in_map_iff; exists c; split; [reflexivity|apply (nth_error_In _ _ Bc)]|]. split.
  - unfold refers. cbn [the_input in_txid in_index] in *. rewrite Y1. split; [exact Ti|]. rewrite Xi. cbn [the_tx t_outs]. rewrite nth_error_map, (proj1 R). reflexivity.
  - apply (proj2 Acc). rewrite nth_error_map, B. reflexivity.
Qed.
Print Assumptions pay_and_spend.

(* the same with witnesses *)
Theorem pay_and_spend_witness : forall W H name net coins outs ins version lock t ws,
  hashes_ok H -> get_network name = Ok net -> ~ In name decred_names ->
  Forall (fun c => tx_obj H net (c_from c) /\ exists o, received H net true c o) coins ->
  Forall2 (claimed net) coins ins -> Forall txout_obj outs ->
  simple_unsigned_witness_tx H net (map AnyIn ins) (map AnyOut outs) version lock = Ok (AnyTx t) ->
  length ws = length ins ->
  (forall n c o w, nth_error coins n = Some c -> received H net true c o -> nth_error ws n = Some w ->
     p2wpkh_signed_witness W H name net t n (the_output o) w) ->
  exists t', Tx_copy H net t None None None None (Some ws) None = Ok t' /\ tx_obj H net t' /\
    t_outs (the_tx t') = map the_output outs /\ valid W H name (map (fun c => the_tx (c_from c)) coins) (the_tx t').
Proof.
  intros W H name net coins outs ins version lock t ws K En ND Fc F2 Fo E L' Sg.
  destruct (witness_fields _ _ _ _ _ _ _ E) as (Ei & Eo & P & G).
  assert (Forall (fun c => exists o, received H net true c o) coins) as Fr by (eapply Forall_impl; [|exact Fc]; intros c [_ X]; exact X).
  destruct (choose _ _ Fr) as [os F3]. pose proof (Forall2_nth _ _ _ F2) as [L2 N2]. pose proof (Forall2_nth _ _ _ F3) as [L3 N3].
  assert (forall n i, nth_error ins n = Some i -> exists c, nth_error coins n = Some c /\ tx_obj H net (c_from c) /\ claimed net c i) as C.
  { intros n i B. destruct (N2 n i B) as (c & A & X). exists c. split; [exact A|]. rewrite Forall_forall in Fc. split; [apply Fc, (nth_error_In _ _ A)|exact X]. }
  assert (forall i, In i ins -> txin_obj i /\ in_script (the_input i) = []) as Ri.
  { intros i I. apply In_nth_error in I. destruct I as [n A]. destruct (C n i A) as (c & B & O & X). destruct (claimed_refers H name net c i K En ND O X) as (Y1 & _ & _ & Y2 & _). split; assumption. }
  assert (tx_obj H net t) as O by (apply G; [apply Forall_forall; intros i I; apply Ri, I|exact Fo]).
  destruct (p2wpkh_transaction_accepted W H name net t (map the_output os) ws K En ND O P) as (t' & Ec & O' & Acc).
  { rewrite Ei. apply Forall_forall. intros i I. apply Ri, I. } { rewrite map_length, Ei. congruence. } { rewrite Ei. exact L'. }
  { intros n o w B D. rewrite nth_error_map in B. destruct (nth_error os n) as [o0|] eqn:B'; [|discriminate]. injection B as <-.
    destruct (N3 n o0 B') as (c & A1 & R). exact (Sg n c o0 w A1 R D). }
  exists t'. split; [exact Ec|]. split; [exact O'|]. destruct (copy_tx H net t None None None None (Some ws) None O) as (_ & _ & X). destruct (X t' Ec) as (_ & _ & X3 & X4 & _).
  cbn [updated] in X3, X4. split; [cbn [the_tx t_outs]; rewrite X4, Eo; reflexivity|].
  intros n i A. cbn [the_tx t_ins] in A. rewrite X3, Ei, nth_error_map in A. destruct (nth_error ins n) as [i0|] eqn:A'; [|discriminate]. injection A as <-.
  pose proof (nth_lt _ _ _ A') as Ln. destruct (nth_some os n ltac:(lia)) as [o B]. destruct (N3 n o B) as (c & Bc & R).
  destruct (C n i0 A') as (c' & Bc' & Oc & Cl). assert (c' = c) by congruence. subst c'. destruct (claimed_refers H name net c i0 K En ND Oc Cl) as (Oi & _ & _ & _ & Ti & Xi).
  exists (the_tx (c_from c)), (the_output o). split; [apply in_map_iff; exists c; split; [reflexivity|apply (nth_error_In _ _ Bc)]|]. split.
  - unfold refers. split; [exact Ti|]. rewrite Xi. cbn [the_tx t_outs]. rewrite nth_error_map, (proj1 R). reflexivity.
  - apply (proj2 Acc). rewrite nth_error_map, B. reflexivity.
Qed.
Print Assumptions pay_and_spend_witness.

(** * Examples: a payment of 9 to the address of the key 020709, and its spending *)

Definition ex_address (witness : bool) : str :=
  match make_pkh_address toy BitcoinMain [2; 7; 9] witness true with Ok (Some s) => s | _ => [] end.
Definition ex_paid (witness : bool) : txout :=
  match simple_output toy BitcoinMain 9 (ex_address witness) with Ok (AnyOut o) => o | _ => ex_output end.
Definition ex_coin (witness : bool) : coin :=
  {| c_from := tx_of toy BitcoinMain [2; 0; 0; 0] None [ex_input] [ex_output; ex_paid witness] None [0; 0; 0; 0]; c_at := 1; c_value := 9; c_key := [2; 7; 9] |}.
Definition ex_claim (witness : bool) : txin :=
  match simple_outpoint BitcoinMain (hex (tx_tx_id (c_from (ex_coin witness)))) 1 None with
  | Ok o => match simple_unsigned_input BitcoinMain o None with Ok (AnyIn i) => i | _ => ex_input end
  | Err _ => ex_input
  end.
Definition ex_spending : tx :=
  match simple_unsigned_legacy_tx toy BitcoinMain [AnyIn (ex_claim false)] [AnyOut ex_output] None None None None None None with Ok (AnyTx t) => t | _ => ex_legacy end.
Definition ex_witness_spending : tx :=
  match simple_unsigned_witness_tx toy BitcoinMain [AnyIn (ex_claim true)] [AnyOut ex_output] None None with Ok (AnyTx t) => t | _ => ex_legacy end.

Lemma ex_received w : received toy BitcoinMain w (ex_coin w) (ex_paid w).
Proof. split; [reflexivity|]. exists true, (ex_address w). destruct w; (split; [vm_compute; reflexivity|vm_compute; reflexivity]). Qed.
Lemma ex_claimed w : claimed BitcoinMain (ex_coin w) (ex_claim w).
Proof. destruct w; (eexists; exists None; split; [vm_compute; reflexivity|vm_compute; reflexivity]). Qed.
Lemma ex_coin_obj w : tx_obj toy BitcoinMain (c_from (ex_coin w)).
Proof.
  split; [constructor; [split; reflexivity|constructor]|]. split; [constructor; [reflexivity|constructor; [destruct w; vm_compute; reflexivity|constructor]]|]. split; [exact I|reflexivity].
Qed.

Lemma only {A} (x y : A) n : nth_error [x] n = Some y -> n = 0%nat /\ y = x.
Proof. destruct n as [|[|n]]; cbn [nth_error]; intros E; try discriminate E. split; [reflexivity|congruence]. Qed.

Lemma nth_error_paid w o : nth_error (tx_tx_outs (c_from (ex_coin w))) (Z.to_nat (c_at (ex_coin w))) = Some o -> o = ex_paid w.
Proof. change (Some (ex_paid w) = Some o -> o = ex_paid w). generalize (ex_paid w). intros x E. congruence. Qed.
Example pay_and_spend_ex : exists i' t',
  p2pkh_signed_input toy_world toy (lit "bitcoin_main") BitcoinMain ex_spending 0 (ex_claim false) (the_output (ex_paid false)) i' /\
  Tx_copy toy BitcoinMain ex_spending None None (Some [i']) None None None = Ok t' /\
  valid toy_world toy (lit "bitcoin_main") [the_tx (c_from (ex_coin false))] (the_tx t').
Proof.
  destruct bitcoin_main_ex as (En & _ & ND).
  assert (forall b, 1 <= len b -> all_bytes b -> LExamples.word (hex b)) as Hw by (intros b A B; apply hex_is_word; assumption).
  assert (forall l, forallb (fun b => (0 <=? b) && (b <? 256)) l = true -> all_bytes l) as Hb.
  { intros l F. apply Forall_forall. intros x J. rewrite forallb_forall in F. specialize (F x J). unfold is_byte. lia. }
  pose (d := get (digest toy All BitcoinMain ex_spending 0 (string_wire (template P2PKH ex_hash)) (Some (out_value (the_output (ex_paid false)))) false)).
  assert (exists i, p2pkh_signed_input toy_world toy (lit "bitcoin_main") BitcoinMain ex_spending 0 (ex_claim false) (the_output (ex_paid false)) i) as [i' J].
  { eexists. exists [2; 7; 9], ([2; 7; 9] ++ firstn 4 d), All, false; do 3 eexists.
    split; [vm_compute; reflexivity|]. split; [vm_compute; reflexivity|]. split; [discriminate|]. split; [vm_compute; reflexivity|].
    split; [apply Hb; vm_compute; reflexivity|]. split; [vm_compute; discriminate|]. split; [vm_compute; discriminate|]. split; [apply Hb; reflexivity|]. split; [unfold len; cbn [length]; lia|].
    split; [apply words_join; constructor; [apply Hw; [vm_compute; discriminate|apply Hb; vm_compute; reflexivity]|constructor; [apply Hw; [unfold len; cbn [length]; lia|apply Hb; reflexivity]|constructor]]|].
    split; [vm_compute; reflexivity|]. split; [vm_compute; reflexivity|]. vm_compute. reflexivity. }
  destruct (pay_and_spend toy_world toy (lit "bitcoin_main") BitcoinMain [ex_coin false] [ex_output] [ex_claim false] None None None None None None ex_spending [i'] toy_ok En ND) as (t' & C & _ & _ & V).
  - constructor; [|constructor]. split; [apply ex_coin_obj|]. exists (ex_paid false). apply ex_received.
  - constructor; [apply ex_claimed|constructor].
  - constructor; [reflexivity|constructor].
  - vm_compute. reflexivity.
  - reflexivity.
  - intros n c o i j E1 [E2 _] E3 E4. apply only in E1, E3, E4. destruct E1 as [-> ->], E3 as [_ ->], E4 as [_ ->].
    pose proof (nth_error_paid false o E2) as ->. exact J.
  - exists i', t'. auto.
Qed.
Example pay_and_spend_witness_ex : exists w t',
  p2wpkh_signed_witness toy_world toy (lit "bitcoin_main") BitcoinMain ex_witness_spending 0 (the_output (ex_paid true)) w /\
  Tx_copy toy BitcoinMain ex_witness_spending None None None None (Some [w]) None = Ok t' /\
  valid toy_world toy (lit "bitcoin_main") [the_tx (c_from (ex_coin true))] (the_tx t').
Proof.
  destruct bitcoin_main_ex as (En & _ & ND).
  assert (truthy (key_hash toy (lit "bitcoin_main") [2; 7; 9]) = true) as Tr by (unfold key_hash; destruct (in_dec _ _ _); [contradiction|vm_compute; reflexivity]).
  assert (exists w, p2wpkh_signed_witness toy_world toy (lit "bitcoin_main") BitcoinMain ex_witness_spending 0 (the_output (ex_paid true)) w) as [w Iw].
  { pose (d := get (digest toy All BitcoinMain ex_witness_spending 0 (string_wire (template P2PKH ex_hash)) (Some (out_value (the_output (ex_paid true)))) false)).
    assert (digest toy All BitcoinMain ex_witness_spending 0 (string_wire (template P2PKH ex_hash)) (Some (out_value (the_output (ex_paid true)))) false = Ok d) as D by (vm_compute; reflexivity).
    eexists. exists [2; 7; 9], ([2; 7; 9] ++ firstn 4 d), All, false, d, (template P2PKH ex_hash). split; [vm_compute; reflexivity|]. split; [vm_compute; reflexivity|]. split; [exact D|].
    split; [cbn [ecdsa toy_world]; rewrite same_refl; reflexivity|]. split; [vm_compute; discriminate|]. split; [vm_compute; discriminate|]. split; [exact Tr|]. vm_compute. reflexivity. }
  destruct (pay_and_spend_witness toy_world toy (lit "bitcoin_main") BitcoinMain [ex_coin true] [ex_output] [ex_claim true] None None ex_witness_spending [w] toy_ok En ND) as (t' & C & _ & _ & V).
  - constructor; [|constructor]. split; [apply ex_coin_obj|]. exists (ex_paid true). apply ex_received.
  - constructor; [apply ex_claimed|constructor].
  - constructor; [reflexivity|constructor].
  - vm_compute. reflexivity.
  - reflexivity.
  - intros n c o x E1 [E2 _] E3. apply only in E1, E3. destruct E1 as [-> ->], E3 as [_ ->]. pose proof (nth_error_paid true o E2) as ->. exact Iw.
  - exists w, t'. auto.
Qed.
Example paid_to_script_ex : serialize BitcoinMain (lit "OP_1") = Ok [81] /\ In (lit "bitcoin_main") segwit_names /\ 0 <= 9 < 2 ^ 64.
Proof. split; [vm_compute; reflexivity|]. split; [vm_compute; tauto|lia]. Qed.
