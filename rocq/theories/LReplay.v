(* Lemmas: functions of the transaction modules ask few things of the network *)
From Coq Require Import String.
From Verif Require Import Py LBase MNet MUtils MShared MScript MTx MDecred MZcash SNet SZcash SSig SDecred SReplay LNet LZcash LSig.
Open Scope list_scope.
Open Scope Z_scope.

Lemma bind_ext {A B} (a a' : res A) (f f' : A -> res B) : a = a' -> (forall x, f x = f' x) -> bind a f = bind a' f'.
Proof. intros -> E. destruct a'; cbn [bind]; auto. Qed.
Lemma read_many_ext {A} (f f' : bytes -> res A) size fuel s : (forall b, f b = f' b) ->
  forall count current, read_many f size fuel s count current = read_many f' size fuel s count current.
Proof.
  intros E. induction fuel as [|fuel IH]; intros count current; cbn [read_many]; [reflexivity|].
  destruct (count <=? 0); [reflexivity|]. apply bind_ext; [apply E|]. intros x. rewrite IH. reflexivity.
Qed.
Ltac binds := repeat (apply bind_ext; [reflexivity|intros ?]).
Lemma bool_iff (a b : bool) : (a = true <-> b = true) -> a = b.
Proof. destruct a, b; intros [X Y]; auto; try (symmetry; auto); discriminate (X eq_refl) || discriminate (Y eq_refl) || auto. Qed.

Lemma flag_all name net : get_network name = Ok net -> SEGWIT_TX_FLAG net = [0; 1].
Proof.
  intros E. apply leqb_eq. revert name net E. apply (supported_forall (fun s n => leqb (SEGWIT_TX_FLAG n) [0; 1])). vm_compute. reflexivity.
Qed.
Definition decred_codes : list (str * Z) := [(lit "OP_BLAKE256", 168); (lit "OP_SHA256", 192)].
Definition codes_eqb (l l' : list (str * Z)) : bool :=
  (length l =? length l')%nat && forallb (fun p => leqb (fst (fst p)) (fst (snd p)) && (snd (fst p) =? snd (snd p))) (combine l l').
Lemma codes_eqb_eq l : forall l', codes_eqb l l' = true -> l = l'.
Proof.
  unfold codes_eqb. induction l as [|[a x] l IH]; intros [|[b y] l']; cbn; try discriminate; auto.
  intros E. apply andb_prop in E as [E1 E2]. apply andb_prop in E2 as [E2 E3]. apply andb_prop in E2 as [E2 E4].
  apply leqb_eq in E2. apply Z.eqb_eq in E4. subst. f_equal. apply IH. rewrite E1, E3. reflexivity.
Qed.
Lemma codes_of name net : get_network name = Ok net ->
  CODE_TO_INT_OVERWRITE net = (if contains (get_current_network_name net) (lit "decred") then decred_codes else []) /\
  INT_TO_CODE_OVERWRITE net = map (fun p => (snd p, fst p)) (CODE_TO_INT_OVERWRITE net).
Proof.
  intros E.
  assert (codes_eqb (CODE_TO_INT_OVERWRITE net) (if contains (get_current_network_name net) (lit "decred") then decred_codes else []) &&
          codes_eqb (map (fun p => (snd p, fst p)) (INT_TO_CODE_OVERWRITE net)) (CODE_TO_INT_OVERWRITE net) = true) as B.
  { revert name net E. apply (supported_forall (fun s n =>
      codes_eqb (CODE_TO_INT_OVERWRITE n) (if contains (get_current_network_name n) (lit "decred") then decred_codes else []) &&
      codes_eqb (map (fun p => (snd p, fst p)) (INT_TO_CODE_OVERWRITE n)) (CODE_TO_INT_OVERWRITE n))). vm_compute. reflexivity. }
  apply andb_prop in B as [B C]. split; apply codes_eqb_eq in B, C; [exact B|].
  rewrite <- C, map_map. rewrite <- (map_id (INT_TO_CODE_OVERWRITE net)) at 1. apply map_ext. intros [? ?]. reflexivity.
Qed.

Lemma fork_unique name a b : In (name, a) fork_ids -> In (name, b) fork_ids -> a = b.
Proof.
  intros A B.
  assert (forallb (fun p => forallb (fun q => negb (leqb (fst p) (fst q)) || (snd p =? snd q)) fork_ids) fork_ids = true) as C by (vm_compute; reflexivity).
  rewrite forallb_forall in C. specialize (C _ A). rewrite forallb_forall in C. specialize (C _ B). cbn [fst snd] in C.
  rewrite leqb_refl in C. apply Z.eqb_eq. exact C.
Qed.

Section Same.
  Context (H : hashes) (name name' : str) (net net' : network).
  Hypothesis (En : get_network name = Ok net) (En' : get_network name' = Ok net').

  Section Hash.
    Hypothesis D : same_hash name name'.
    Lemma decred_same : contains (get_current_network_name net) (lit "decred") = contains (get_current_network_name net') (lit "decred").
    Proof.
      apply bool_iff. pose proof (decred_only_names name net En) as A. pose proof (decred_only_names name' net' En') as B.
      unfold same_hash, both in D. tauto.
    Qed.
    Lemma hash_same m : hash256 H net m = hash256 H net' m.
    Proof. unfold hash256. rewrite decred_same. reflexivity. Qed.
    Lemma codes_same : CODE_TO_INT_OVERWRITE net = CODE_TO_INT_OVERWRITE net' /\ INT_TO_CODE_OVERWRITE net = INT_TO_CODE_OVERWRITE net'.
    Proof.
      destruct (codes_of name net En) as [A B]. destruct (codes_of name' net' En') as [A' B'].
      rewrite B, B', A, A', decred_same. auto.
    Qed.
    Lemma token_same t : serialize_token net t = serialize_token net' t.
    Proof. unfold serialize_token. rewrite (proj1 codes_same). reflexivity. Qed.
    Lemma serialize_same s : serialize net s = serialize net' s.
    Proof.
      unfold serialize. f_equal. induction (split_ws s) as [|t l IH]; [reflexivity|]. cbn [mapM]. rewrite token_same, IH. reflexivity.
    Qed.
    Lemma deserialize_loop_same fuel s : forall i, deserialize_loop net fuel s i = deserialize_loop net' fuel s i.
    Proof.
      induction fuel as [|fuel IH]; intros i; [reflexivity|]. cbn [deserialize_loop]. rewrite (proj2 codes_same).
      destruct (zlen s <=? i); [reflexivity|]. apply bind_ext; [reflexivity|]. intros c. apply bind_ext; [reflexivity|]. intros [].
      rewrite ?IH. destruct ((c <=? 75) && negb (c =? 0)). { cbv zeta. rewrite ?IH. reflexivity. }
      destruct (c =? 76). { apply bind_ext; [reflexivity|]. intros x. cbv zeta. rewrite ?IH. reflexivity. }
      cbv zeta. rewrite ?IH. reflexivity.
    Qed.
    Lemma deserialize_same s : deserialize net s = deserialize net' s.
    Proof. unfold deserialize. rewrite deserialize_loop_same. reflexivity. Qed.
    Lemma hex_deserialize_same s : hex_deserialize net s = hex_deserialize net' s.
    Proof. unfold hex_deserialize. apply bind_ext; [reflexivity|]. intros b. apply deserialize_same. Qed.
    Lemma script_sig_same s : TxIn_parse_script_sig net s = TxIn_parse_script_sig net' s.
    Proof.
      unfold TxIn_parse_script_sig. rewrite deserialize_same. destruct (deserialize net' s) as [d|e]; cbn [bind]; [|reflexivity].
      destruct (index (split_ws d) (-1)) as [l|e]; cbn [bind]; [|reflexivity].
      rewrite hex_deserialize_same, !serialize_same. destruct (hex_deserialize net' l); cbn [bind]; [|reflexivity]. rewrite ?serialize_same. reflexivity.
    Qed.
    Lemma Tx_same v f i o w l : Tx H net v f i o w l = Tx H net' v f i o w l.
    Proof. unfold Tx. rewrite (flag_all name net En), (flag_all name' net' En'). binds. destruct f; cbv zeta; binds; rewrite !hash_same; reflexivity. Qed.
  End Hash.

  Section Lengths.
    Hypothesis L : same_lengths name name'.
    Lemma VarInt_same s : VarInt_from_bytes net s = VarInt_from_bytes net' s.
    Proof.
      unfold VarInt_from_bytes. replace (compact_only net') with (compact_only net); [reflexivity|].
      apply bool_iff. pose proof (compact_only_names name net En) as A. pose proof (compact_only_names name' net' En') as B.
      unfold same_lengths, both in L. tauto.
    Qed.
  End Lengths.

  Section Read.
    Hypothesis (D : same_hash name name') (L : same_lengths name name').
    Lemma TxIn_read_same s : TxIn_from_bytes net s = TxIn_from_bytes net' s.
    Proof.
      unfold TxIn_from_bytes. apply bind_ext; [reflexivity|]. intros o. apply bind_ext; [apply VarInt_same, L|]. intros n. cbv zeta.
      rewrite (script_sig_same D). reflexivity.
    Qed.
    Lemma TxOut_read_same s : TxOut_from_bytes net s = TxOut_from_bytes net' s.
    Proof. unfold TxOut_from_bytes. apply bind_ext; [apply VarInt_same, L|]. reflexivity. Qed.
    Lemma item_read_same s : WitnessStackItem_from_bytes net s = WitnessStackItem_from_bytes net' s.
    Proof. unfold WitnessStackItem_from_bytes. apply bind_ext; [apply VarInt_same, L|]. reflexivity. Qed.
    Lemma witness_read_same s : InputWitness_from_bytes net s = InputWitness_from_bytes net' s.
    Proof.
      unfold InputWitness_from_bytes. apply bind_ext; [apply VarInt_same, L|]. intros n. cbv zeta.
      rewrite (read_many_ext _ _ _ _ _ item_read_same). reflexivity.
    Qed.
    Lemma Tx_read_same s : Tx_from_bytes H net s = Tx_from_bytes H net' s.
    Proof.
      unfold Tx_from_bytes. rewrite (flag_all name net En), (flag_all name' net' En'). cbv zeta.
      match goal with |- (let '(_, _) := ?x in _) = _ => destruct x as [p f] end.
      apply bind_ext; [apply VarInt_same, L|]. intros n. rewrite (read_many_ext _ _ _ _ _ TxIn_read_same). apply bind_ext; [reflexivity|]. intros [ins c].
      apply bind_ext; [apply VarInt_same, L|]. intros m. rewrite (read_many_ext _ _ _ _ _ TxOut_read_same). apply bind_ext; [reflexivity|]. intros [outs c'].
      rewrite (read_many_ext _ _ _ _ _ witness_read_same). apply bind_ext; [reflexivity|]. intros [ws c'']. apply Tx_same, D.
    Qed.

    Lemma prep_same t n s : sighash_prep H net t n s = sighash_prep H net' t n s.
    Proof.
      unfold sighash_prep. apply bind_ext; [reflexivity|]. intros ins. apply bind_ext; [apply VarInt_same, L|]. intros v.
      do 3 (apply bind_ext; [reflexivity|]; intros ?). unfold Tx_copy. apply Tx_same, D.
    Qed.
    Lemma final_same t y : sighash_final_hashing H net t y = sighash_final_hashing H net' t y.
    Proof. unfold sighash_final_hashing. binds. rewrite (hash_same D). reflexivity. Qed.
    Lemma anyone_same n t y : sighash_anyone_can_pay H net n t y = sighash_anyone_can_pay H net' n t y.
    Proof.
      unfold sighash_anyone_can_pay. apply bind_ext; [reflexivity|]. intros c. apply bind_ext; [unfold Tx_copy; apply Tx_same, D|]. intros u. apply final_same.
    Qed.
    Lemma parts_same t n y a : hash_prevouts H net t a = hash_prevouts H net' t a /\ hash_sequence H net t y a = hash_sequence H net' t y a /\
      hash_outputs H net t n y = hash_outputs H net' t n y.
    Proof. unfold hash_prevouts, hash_sequence, hash_outputs. rewrite !(hash_same D). split; [|split]; auto.
      destruct (y =? SIGHASH_ALL); [reflexivity|]. destruct ((y =? SIGHASH_SINGLE) && (n <? zlen (tx_tx_outs t))); [|reflexivity]. binds. rewrite (hash_same D). reflexivity.
    Qed.
    Lemma segwit_same t n y v s a : segwit_sighash H net t n y v s a = segwit_sighash H net' t n y v s a.
    Proof.
      unfold segwit_sighash. destruct (parts_same t n y a) as (A & B & C). rewrite A, B, C. cbv zeta. binds. rewrite (hash_same D). reflexivity.
    Qed.
    Lemma forkid_same t n y v s a : FORKID net = FORKID net' -> sighash_forkid H net t n y v s a = sighash_forkid H net' t n y v s a.
    Proof.
      intros F. unfold sighash_forkid, forkid_sighash_adjustment. destruct (parts_same t n s a) as (A & B & C). rewrite A, B, C, F. cbv zeta. binds. rewrite (hash_same D). reflexivity.
    Qed.
    Lemma fork_same : same_fork name name' -> FORKID net = FORKID net'.
    Proof.
      intros F. pose proof (FORKID_names name net En) as A. pose proof (FORKID_names name' net' En') as B.
      destruct (FORKID net) as [a|], (FORKID net') as [b|]; auto.
      - destruct A as [A _], B as [B _]. apply F in A. f_equal. exact (fork_unique _ _ _ A B).
      - destruct A as [A _]. apply F in A. destruct (B _ A).
      - destruct B as [B _]. apply F in B. destruct (A _ B).
    Qed.
    Lemma digest_same ty t n s v a : same_fork name name' -> digest H ty net t n s v a = digest H ty net' t n s v a.
    Proof.
      intros F. apply fork_same in F. destruct ty; cbn [digest].
      - unfold sighash_all. rewrite F. destruct (FORKID net') eqn:E; [apply forkid_same; congruence|]. destruct (is_witness t); [apply segwit_same|].
        rewrite prep_same. apply bind_ext; [reflexivity|]. intros u. destruct a; [apply anyone_same|apply final_same].
      - unfold sighash_single. apply bind_ext; [reflexivity|]. intros _. rewrite F. destruct (FORKID net') eqn:E; [apply forkid_same; congruence|].
        destruct (is_witness t); [apply segwit_same|]. rewrite prep_same. do 6 (apply bind_ext; [reflexivity|]; intros ?).
        apply bind_ext; [reflexivity|]; intros ?. apply bind_ext; [unfold Tx_copy; apply Tx_same, D|]. intros u. destruct a; [apply anyone_same|apply final_same].
    Qed.
  End Read.

  Section Zcash.
    Hypothesis (Z : In name zcash_names) (E : same_era name name').
    Lemma era_hash : same_hash name name'.
    Proof.
      assert (forallb (fun n => negb (str_mem n decred_names)) zcash_names = true) as C by (vm_compute; reflexivity).
      rewrite forallb_forall in C.
      assert (In name' zcash_names) as Z'.
      { destruct E as (A & B & F). unfold both in *. unfold zcash_names in *. rewrite !in_app_iff in *. tauto. }
      pose proof (C _ Z) as N. pose proof (C _ Z') as N'. apply negb_true_iff in N, N'.
      unfold same_hash, both. rewrite <- !str_mem_In, N, N'. tauto.
    Qed.
    Lemma upgraded_eras n : In n upgraded_zcash <-> In n overwinter_names \/ In n sapling_names.
    Proof. change upgraded_zcash with (overwinter_names ++ sapling_names). apply in_app_iff. Qed.
    Lemma era_lengths : same_lengths name name'.
    Proof. destruct E as (A & B & F). unfold same_lengths, both in *. rewrite !upgraded_eras. tauto. Qed.
    Lemma zcash_only_same : zcash_only net = zcash_only net'.
    Proof.
      unfold zcash_only. replace (net_has net' (lit "zcash")) with (net_has net (lit "zcash")); [reflexivity|]. apply bool_iff.
      pose proof (zcash_has name net En) as A. pose proof (zcash_has name' net' En') as B.
      destruct E as (E1 & E2 & E3). unfold both, zcash_names in *. rewrite !in_app_iff in *. tauto.
    Qed.
    Lemma has_same : net_has net (lit "sprout") = net_has net' (lit "sprout") /\ net_has net (lit "overwinter") = net_has net' (lit "overwinter") /\
      net_has net (lit "sapling") = net_has net' (lit "sapling").
    Proof.
      destruct E as (E1 & E2 & E3). unfold both in *.
      pose proof (sprout_has name net En). pose proof (sprout_has name' net' En').
      pose proof (overwinter_has name net En). pose proof (overwinter_has name' net' En').
      pose proof (sapling_has name net En). pose proof (sapling_has name' net' En').
      split; [|split]; apply bool_iff; tauto.
    Qed.
    Let hs := hash_same era_hash.
    Let vs := VarInt_same era_lengths.
    Lemma Sprout_same v i o l j p g : SproutTx H net v i o l j p g = SproutTx H net' v i o l j p g.
    Proof.
      unfold SproutTx. rewrite zcash_only_same, (proj1 has_same). binds. cbv zeta. binds. cbv zeta. binds. rewrite hs. reflexivity.
    Qed.
    Lemma Overwinter_same i o l e j p g : OverwinterTx H net i o l e j p g = OverwinterTx H net' i o l e j p g.
    Proof.
      unfold OverwinterTx. rewrite zcash_only_same, (proj1 (proj2 has_same)). binds. cbv zeta.
      match goal with |- (let '(_, _) := ?x in _) = _ => destruct x as [? ?] end. rewrite hs. reflexivity.
    Qed.
    Lemma Sapling_same i o l e v s u j p g b : SaplingTx H net i o l e v s u j p g b = SaplingTx H net' i o l e v s u j p g b.
    Proof.
      unfold SaplingTx. rewrite zcash_only_same, (proj2 (proj2 has_same)). binds. cbv zeta. binds.
      match goal with |- (let '(_, _) := ?x in _) = _ => destruct x as [? ?] end. binds. rewrite hs. reflexivity.
    Qed.
    Lemma ins_same fuel s n c : read_many (TxIn_from_bytes net) (fun i => zlen (ti_bytes i)) fuel s n c = read_many (TxIn_from_bytes net') (fun i => zlen (ti_bytes i)) fuel s n c.
    Proof. apply read_many_ext. apply TxIn_read_same; [apply era_hash|apply era_lengths]. Qed.
    Lemma outs_same fuel s n c : read_many (TxOut_from_bytes net) (fun i => zlen (to_bytes_ i)) fuel s n c = read_many (TxOut_from_bytes net') (fun i => zlen (to_bytes_ i)) fuel s n c.
    Proof. apply read_many_ext. apply TxOut_read_same, era_lengths. Qed.
    Lemma sprout_js_same s : SproutJoinsplit_from_bytes net s = SproutJoinsplit_from_bytes net' s.
    Proof. unfold SproutJoinsplit_from_bytes, SproutZkproof_from_bytes, SproutZkproof, SproutJoinsplit, Joinsplit. rewrite zcash_only_same. reflexivity. Qed.
    Lemma sapling_js_same s : SaplingJoinsplit_from_bytes net s = SaplingJoinsplit_from_bytes net' s.
    Proof. unfold SaplingJoinsplit_from_bytes, SaplingZkproof_from_bytes, SaplingZkproof, SaplingJoinsplit, Joinsplit. rewrite zcash_only_same. reflexivity. Qed.
    Lemma spend_same s : SaplingShieldedSpend_from_bytes net s = SaplingShieldedSpend_from_bytes net' s.
    Proof. unfold SaplingShieldedSpend_from_bytes, SaplingZkproof_from_bytes, SaplingZkproof, SaplingShieldedSpend. rewrite zcash_only_same. reflexivity. Qed.
    Lemma output_same s : SaplingShieldedOutput_from_bytes net s = SaplingShieldedOutput_from_bytes net' s.
    Proof. unfold SaplingShieldedOutput_from_bytes, SaplingZkproof_from_bytes, SaplingZkproof, SaplingShieldedOutput. rewrite zcash_only_same. reflexivity. Qed.
    Lemma Sprout_read_same s : SproutTx_from_bytes H net s = SproutTx_from_bytes H net' s.
    Proof.
      unfold SproutTx_from_bytes. cbv zeta. apply bind_ext; [apply vs|]. intros n. apply bind_ext; [apply ins_same|]. intros [ins c].
      apply bind_ext; [apply vs|]. intros m. apply bind_ext; [apply outs_same|]. intros [outs c']. apply bind_ext.
      - destruct (le2i (slice s 0 4) false =? 2); [|reflexivity]. apply bind_ext; [apply vs|]. intros k. rewrite (read_many_ext _ _ _ _ _ sprout_js_same). reflexivity.
      - intros [[j p] g]. apply Sprout_same.
    Qed.
    Lemma Overwinter_read_same s : OverwinterTx_from_bytes H net s = OverwinterTx_from_bytes H net' s.
    Proof.
      unfold OverwinterTx_from_bytes. cbv zeta. apply bind_ext; [reflexivity|]. intros _. apply bind_ext; [apply vs|]. intros n. apply bind_ext; [apply ins_same|]. intros [ins c].
      apply bind_ext; [apply vs|]. intros m. apply bind_ext; [apply outs_same|]. intros [outs c']. apply bind_ext.
      - destruct (c' + 4 + 4 =? zlen s); [reflexivity|]. apply bind_ext; [apply vs|]. intros k. rewrite (read_many_ext _ _ _ _ _ sprout_js_same). reflexivity.
      - intros [[j p] g]. apply Overwinter_same.
    Qed.
    Lemma Sapling_read_same s : SaplingTx_from_bytes H net s = SaplingTx_from_bytes H net' s.
    Proof.
      unfold SaplingTx_from_bytes. cbv zeta. apply bind_ext; [reflexivity|]. intros _. apply bind_ext; [apply vs|]. intros n. apply bind_ext; [apply ins_same|]. intros [ins c].
      apply bind_ext; [apply vs|]. intros m. apply bind_ext; [apply outs_same|]. intros [outs c']. apply bind_ext; [apply vs|]. intros k.
      rewrite (read_many_ext _ _ _ _ _ spend_same). apply bind_ext; [reflexivity|]. intros [ss c'']. apply bind_ext; [apply vs|]. intros k'.
      rewrite (read_many_ext _ _ _ _ _ output_same). apply bind_ext; [reflexivity|]. intros [so c3].
      apply bind_ext; [apply vs|]. intros k''.
      rewrite (read_many_ext _ _ _ _ _ sapling_js_same). apply bind_ext; [reflexivity|]. intros [js c4].
      match goal with |- (let '(_, _) := ?x in _) = _ => destruct x as [[p g] c5] end. apply Sapling_same.
    Qed.
    Lemma sprout_prep_same t n s : sprout_sighash_prep H net t n s = sprout_sighash_prep H net' t n s.
    Proof.
      unfold sprout_sighash_prep, SproutTx_copy. rewrite Sprout_same. destruct (zlen (sp_tx_ins t) =? 0); [reflexivity|].
      apply bind_ext; [reflexivity|]. intros ins. apply bind_ext; [apply vs|]. intros v. binds. apply Sprout_same.
    Qed.
    Lemma sprout_final_same t y : sprout_sighash_final_hashing H net t y = sprout_sighash_final_hashing H net' t y.
    Proof. unfold sprout_sighash_final_hashing. rewrite zcash_only_same. binds. rewrite hs. reflexivity. Qed.
    Lemma sprout_anyone_same t n u y : sprout_sighash_anyone_can_pay H net t n u y = sprout_sighash_anyone_can_pay H net' t n u y.
    Proof.
      unfold sprout_sighash_anyone_can_pay. binds. apply bind_ext; [unfold SproutTx_copy; apply Sprout_same|]. intros w. apply sprout_final_same.
    Qed.
    Lemma sprout_all_same t n s a : sprout_sighash_all H net t n s a = sprout_sighash_all H net' t n s a.
    Proof.
      unfold sprout_sighash_all. apply bind_ext; [apply sprout_prep_same|]. intros u. destruct a; [apply sprout_anyone_same|apply sprout_final_same].
    Qed.
    Lemma sprout_single_same t n s a : sprout_sighash_single H net t n s a = sprout_sighash_single H net' t n s a.
    Proof.
      unfold sprout_sighash_single. do 2 (apply bind_ext; [reflexivity|]; intros _). apply bind_ext; [apply sprout_prep_same|]. intros u. binds.
      apply bind_ext; [unfold SproutTx_copy; apply Sprout_same|]. intros w. destruct a; [apply sprout_anyone_same|apply sprout_final_same].
    Qed.
    Lemma overwinter_digest_same t y v s n j a : overwinter_sighash H net t y v s n j a = overwinter_sighash H net' t y v s n j a.
    Proof. unfold overwinter_sighash. rewrite zcash_only_same. reflexivity. Qed.
    Lemma sapling_digest_same t y v n j s a : sapling_sighash H net t y v n j s a = sapling_sighash H net' t y v n j s a.
    Proof. unfold sapling_sighash. rewrite zcash_only_same. reflexivity. Qed.
  End Zcash.

  Section Decred.
    Hypothesis D : same_hash name name'.
    Lemma decred_only_same : decred_only net = decred_only net'.
    Proof. unfold decred_only. rewrite (decred_same D). reflexivity. Qed.
    Lemma DecredTx_same v i o l e w : DecredTx H net v i o l e w = DecredTx H net' v i o l e w.
    Proof. unfold DecredTx. rewrite decred_only_same. reflexivity. Qed.
    Lemma ddigest_same ty t n s a : ddigest H ty net t n s a = ddigest H ty net' t n s a.
    Proof.
      destruct ty; cbn [ddigest]; unfold decred_sighash_all, decred_sighash_single, decred_sighash_prep, decred_sighash_anyone_can_pay,
        DecredTx_copy, DecredTx, DecredTxIn_copy, DecredTxIn, DecredTxOut, DecredInputWitness_copy, DecredInputWitness;
        rewrite decred_only_same; reflexivity.
    Qed.
  End Decred.
End Same.
