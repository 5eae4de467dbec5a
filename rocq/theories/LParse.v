(* Parsers always end *)
From Coq Require Import String.
From Verif Require Import Py SNum SNet SScript MNet MUtils MShared MScript MTx MZcash MDecred STx SZcash SDecred SParse LBase LUtils LVarint LScript LTx LTxParse LZcash LZcashTx LSapling LSprout LCopy.
Open Scope list_scope.
Open Scope Z_scope.

Lemma ends_bind {A B} es (P : A -> Prop) (Q : B -> Prop) m k :
  ends es P m -> (forall x, m = Ok x -> P x -> ends es Q (k x)) -> ends es Q (bind m k).
Proof. destruct m; cbn; auto. Qed.
Lemma ends_weaken {A} es es' (P Q : A -> Prop) m : ends es P m -> incl es es' -> (forall x, m = Ok x -> P x -> Q x) -> ends es' Q m.
Proof. destruct m; cbn; auto. Qed.
Lemma ends_index {A} (l : list A) i : ends [IndexError] (fun _ => True) (index l i).
Proof. unfold index. destruct (_ || _)%bool; [left; reflexivity|]. destruct (nth_error _ _); [exact I|left; reflexivity]. Qed.

(** ** Scripts *)
Lemma fromhex_errors s : ends [ValueError] (fun _ => True) (fromhex s).
Proof.
  remember (length s) as n eqn:En. assert (length s <= n)%nat as Hn by lia. clear En.
  revert s Hn. induction n as [|n IH]; intros s Hn; destruct s as [|c t]; cbn [length] in Hn; try lia; [exact I|exact I|].
  cbn [fromhex]. destruct (ascii_space c); [apply IH; lia|]. destruct t as [|d t]; [left; reflexivity|].
  destruct (unhexdigit c); [|left; reflexivity]. destruct (unhexdigit d); [|left; reflexivity].
  cbn [length] in Hn. eapply ends_bind; [apply IH; lia|]. intros. exact I.
Qed.
Lemma split_ws_aux_tokens s cur : Forall (fun c => py_space c = false) cur ->
  Forall (fun w => w <> [] /\ Forall (fun c => py_space c = false) w) (split_ws_aux s cur).
Proof.
  revert cur. induction s as [|x s IH]; intros cur F; cbn [split_ws_aux].
  - destruct cur as [|y cur]; [constructor|]. constructor; [|constructor]. split; [|apply Forall_rev, F].
    intros E. apply (f_equal (@length Z)) in E. rewrite rev_length in E. discriminate.
  - destruct (py_space x) eqn:X.
    + destruct cur as [|y cur]; [apply IH; constructor|]. constructor; [|apply IH; constructor]. split; [|apply Forall_rev, F].
      intros E. apply (f_equal (@length Z)) in E. rewrite rev_length in E. discriminate.
    + apply IH. constructor; assumption.
Qed.
Lemma split_ws_tokens s : Forall (fun w => w <> [] /\ Forall (fun c => py_space c = false) w) (split_ws s).
Proof. apply split_ws_aux_tokens. constructor. Qed.
Lemma fromhex_nonempty w b : w <> [] -> Forall (fun c => py_space c = false) w -> fromhex w = Ok b -> b <> [].
Proof.
  intros N F E. destruct w as [|c t]; [contradiction|]. inversion F as [|? ? Fc Ft]; subst. cbn [fromhex] in E.
  assert (ascii_space c = false) as A.
  { unfold ascii_space, py_space in *. destruct (Z.eqb_spec c 32) as [->|]; [discriminate|]. rewrite !orb_false_iff in Fc. tauto. }
  rewrite A in E. destruct t; [discriminate|]. destruct (unhexdigit c); [|discriminate]. destruct (unhexdigit z); [|discriminate].
  destruct (fromhex t); [|discriminate]. cbn in E. apply Ok_inj in E. subst. discriminate.
Qed.
Lemma serialize_errors net s : ends [ValueError; NotImplementedError] (fun _ => True) (serialize net s).
Proof.
  unfold serialize. eapply ends_bind with (P := fun _ => True); [|intros; exact I].
  pose proof (split_ws_tokens s) as F. revert F. generalize (split_ws s) as ws. clear s.
  assert (forall w, w <> [] -> Forall (fun c => py_space c = false) w -> ends [ValueError; NotImplementedError] (fun _ => True) (serialize_token net w)) as T.
  { intros w N F. unfold serialize_token. destruct (_ || _)%bool; [right; left; reflexivity|]. cbv [guard]. cbn [bind].
    destruct (assoc_str w (CODE_TO_INT_OVERWRITE net)); [exact I|]. destruct (CODE_TO_INT w); [exact I|].
    destruct (fromhex w) as [d|e] eqn:E; cbn [bind].
    - pose proof (fromhex_nonempty _ _ N F E) as Ne. pose proof (fromhex_bytes _ _ E) as B.
      destruct (Z.leb_spec (zlen d) 1000).
      + rewrite serialize_push_small; [exact I|apply all_bytes_is_bytes, B|]. change (1 <= zlen d <= 1000). split; [|lia].
        destruct d; [contradiction|]. rewrite zlen_cons. pose proof (zlen_nonneg d). lia.
      + rewrite serialize_push_big by lia. right; left; reflexivity.
    - pose proof (fromhex_errors w) as X. rewrite E in X. destruct X as [X|[]]. left. exact X. }
  induction ws as [|w ws IH]; intros F; [exact I|]. inversion F as [|? ? [N Fw] Fs]; subst. cbn [mapM].
  eapply ends_bind; [apply T; assumption|]. intros b _ _. eapply ends_bind; [apply IH, Fs|]. intros. exact I.
Qed.

Lemma des_errors net f r : is_bytes r -> (length r < f)%nat -> ends [ValueError; IndexError; NotImplementedError] (fun _ => True) (des net f r).
Proof.
  revert r. induction f as [|f IH]; intros r B L; [lia|]. destruct r as [|c t]; [exact I|]. cbn [des].
  inversion B as [|? ? Bc Bt]; subst. cbn [length] in L.
  assert (forall k, is_bytes (skipn k t) /\ (length (skipn k t) < f)%nat) as K.
  { intros k. split; [apply is_bytes_skipn, Bt|]. rewrite skipn_length. lia. }
  destruct (c =? 171); [right; right; left; reflexivity|].
  destruct ((c <=? 75) && negb (c =? 0)).
  { destruct (zlen t <? c); [right; left; reflexivity|]. eapply ends_bind; [apply IH; apply K|intros; exact I]. }
  destruct (c =? 76).
  { destruct t as [|n d]; [right; left; reflexivity|]. specialize (K (S (Z.to_nat n))). cbn [skipn] in K.
    eapply ends_bind; [apply IH; apply K|intros; exact I]. }
  destruct (c =? 77).
  { cbv zeta. rewrite skipn_skipn. eapply ends_bind; [apply IH; apply K|intros; exact I]. }
  destruct (c =? 78); [right; right; left; reflexivity|].
  eapply ends_bind with (P := fun _ => True).
  - unfold opname. destruct (assoc_z c (INT_TO_CODE_OVERWRITE net)); [exact I|]. destruct (INT_TO_CODE c); [exact I|left; reflexivity].
  - intros w _ _. eapply ends_bind; [apply IH; [exact Bt|lia]|intros; exact I].
Qed.
Lemma deserialize_errors net s : is_bytes s -> ends parse_errors (fun _ => True) (deserialize net s).
Proof.
  intros B. unfold deserialize. rewrite deserialize_loop_des by (try exact B; lia). change (skipn (Z.to_nat 0) s) with s.
  eapply ends_bind; [apply des_errors; [exact B|lia]|intros; exact I].
Qed.

Lemma parse_script_sig_Ok net s : is_bytes s -> exists a b, TxIn_parse_script_sig net s = Ok (a, b).
Proof.
  intros B. unfold TxIn_parse_script_sig.
  match goal with |- exists a b, match ?att with _ => _ end = _ => assert (ends parse_errors (fun _ => True) att) as E end.
  { eapply ends_bind; [apply deserialize_errors, B|]. intros d _ _.
    eapply ends_bind; [eapply ends_weaken; [apply ends_index| |intros; exact I]; intros x [<-|[]]; right; left; reflexivity|].
    intros w _ _. eapply ends_bind.
    - unfold hex_deserialize. eapply ends_bind with (P := fun b => is_bytes b); [|intros b _ Bb; apply deserialize_errors, Bb].
      pose proof (fromhex_errors w) as X. destruct (fromhex w) eqn:F; [apply (fromhex_bytes _ _ F)|]. destruct X as [<-|[]]. left; reflexivity.
    - intros _ _ _. eapply ends_bind; [eapply ends_weaken; [apply serialize_errors| |intros; exact I]; intros x [<-|[<-|[]]]; cbn; auto|].
      intros st _ _. eapply ends_bind; [eapply ends_weaken; [apply serialize_errors| |intros; exact I]; intros x [<-|[<-|[]]]; cbn; auto|].
      intros. exact I. }
  match goal with |- exists a b, match ?att with _ => _ end = _ => destruct att as [[a b]|e] end.
  - exists a, b. reflexivity.
  - destruct E as [<-|[<-|[<-|[]]]]; exists s, []; reflexivity.
Qed.

(** ** Reading several things *)
Lemma ends_read_many_le {A} es (fb : bytes -> res A) size (P : A -> Prop) k N :
  1 <= k ->
  (forall s, is_bytes s -> zlen s <= N -> ends es (fun x => k <= size x /\ k <= zlen s /\ P x) (fb s)) ->
  forall fuel bs n c, is_bytes bs -> zlen bs <= N -> 0 <= c -> Z.max 0 (zlen bs - c) < Z.of_nat fuel ->
  ends es (fun p => Forall P (fst p) /\ k * zlen (fst p) <= Z.max 0 (zlen bs - c) /\ c + k * zlen (fst p) <= snd p /\ zlen (fst p) = Z.max 0 n)
    (read_many fb size fuel bs n c).
Proof.
  intros K F. induction fuel as [|fuel IH]; intros bs n c B Ln C L; [lia|].
  cbn [read_many]. destruct (Z.leb_spec n 0) as [N0|N0].
  { cbn. change (zlen (@nil A)) with 0. repeat split; try lia. constructor. }
  assert (zlen (slice_from bs c) <= N) as Ls by (rewrite zlen_slice_from by lia; pose proof (zlen_nonneg bs); lia).
  specialize (F (slice_from bs c) (is_bytes_slice_from _ _ B) Ls). eapply ends_bind; [exact F|].
  intros x _ [Sx [Sz Px]]. rewrite zlen_slice_from in Sz by lia.
  eapply ends_bind; [apply IH; [exact B|exact Ln|lia|]|].
  - lia.
  - intros [xs c'] _ [Fx [L1 [L2 L3]]]. cbn [fst snd] in *. cbn [ends fst snd]. rewrite zlen_cons. pose proof (zlen_nonneg xs).
    repeat split; [constructor; assumption|nia|nia|lia].
Qed.
Lemma ends_read_many {A} es (fb : bytes -> res A) size (P : A -> Prop) k :
  1 <= k ->
  (forall s, is_bytes s -> ends es (fun x => k <= size x /\ k <= zlen s /\ P x) (fb s)) ->
  forall fuel bs n c, is_bytes bs -> 0 <= c -> Z.max 0 (zlen bs - c) < Z.of_nat fuel ->
  ends es (fun p => Forall P (fst p) /\ k * zlen (fst p) <= Z.max 0 (zlen bs - c) /\ c + k * zlen (fst p) <= snd p /\ zlen (fst p) = Z.max 0 n)
    (read_many fb size fuel bs n c).
Proof. intros K F fuel bs n c B C L. apply (ends_read_many_le es fb size P k (zlen bs)); auto. lia. Qed.

Lemma ends_VarInt n l : ends [ValueError] (fun v => vi_number v = n /\ 0 <= n < 2 ^ 64 /\ 1 <= zlen (vi_bytes v)) (VarInt n l).
Proof.
  destruct (VarInt n l) as [v|e] eqn:E.
  - pose proof (VarInt_Ok_inv _ _ _ E) as [N R]. cbn. split; [exact N|]. split; [exact R|].
    unfold VarInt in E. destruct (n <? 0) eqn:E1; [lia|]. destruct (0xffffffffffffffff <? n) eqn:E2; [discriminate|]. cbv [guard] in E. cbn [bind] in E.
    match type of E with context [if n <=? 0xfc then ?a else ?b] => destruct (if n <=? 0xfc then a else b) as [p q] end.
    destruct (i2le_Ok n ltac:(lia)) as [k [Ek _]]. rewrite Ek in E. cbn [bind] in E. apply Ok_inj in E. subst v. cbn [vi_bytes].
    assert (1 <= zlen (p ++ to_le (S k) n)) as Q. { rewrite zlen_app. pose proof (zlen_nonneg p). rewrite zlen_to_le. lia. }
    destruct q as [q|]; [|exact Q]. unfold pad_to. rewrite zlen_app. pose proof (zlen_nonneg (zrepeat 0 (q - zlen (p ++ to_le (S k) n)))). lia.
  - cbn. left. destruct (Z.ltb_spec n 0); [rewrite VarInt_out_of_range in E by lia; congruence|].
    destruct (Z.leb_spec (2 ^ 64) n); [rewrite VarInt_out_of_range in E by lia; congruence|].
    unfold VarInt in E. destruct (n <? 0) eqn:E1; [lia|]. destruct (0xffffffffffffffff <? n) eqn:E2; [cbn in E; congruence|]. cbv [guard] in E. cbn [bind] in E.
    match type of E with context [if n <=? 0xfc then ?a else ?b] => destruct (if n <=? 0xfc then a else b) as [p q] end.
    destruct (i2le_Ok n ltac:(lia)) as [k [Ek _]]. rewrite Ek in E. discriminate.
Qed.
Lemma ends_VarInt_from_bytes net s : ends [ValueError; IndexError] (fun v => 0 <= vi_number v < 2 ^ 64 /\ 1 <= zlen (vi_bytes v) /\ 1 <= zlen s) (VarInt_from_bytes net s).
Proof.
  unfold VarInt_from_bytes. destruct s as [|x s]; [right; left; reflexivity|]. rewrite index_0. cbn [bind].
  match goal with |- context [if x <=? 0xfc then ?a else ?b] => destruct (if x <=? 0xfc then a else b) as [num nc] end.
  destruct (negb _); [left; reflexivity|]. cbv [guard]. cbn [bind]. destruct (nc && compact_only net); [left; reflexivity|]. cbn [bind].
  eapply ends_weaken; [apply ends_VarInt|intros e [<-|[]]; left; reflexivity|]. intros v _ [-> [R S1]]. rewrite zlen_cons. pose proof (zlen_nonneg s). repeat split; lia.
Qed.
Ltac wk := intros ? Hin; cbn in Hin; cbn; intuition (subst; auto).

Lemma ends_outpoint s : ends [ValueError] (fun o => outpoint_obj o /\ 36 <= zlen s) (Outpoint_from_bytes s).
Proof.
  unfold Outpoint_from_bytes. rewrite Outpoint_spec. pose proof (zlen_nonneg s).
  destruct (Z.eqb_spec (zlen (slice_to s 32)) 32) as [A|A]; [|left; reflexivity]. destruct (Z.eqb_spec (zlen (slice s 32 36)) 4) as [B|B]; [|left; reflexivity].
  cbn [andb ends]. split; [|rewrite zlen_slice in B by lia; lia].
  unfold outpoint_obj. cbn [op_tx_id op_index]. rewrite Outpoint_spec, A, B. reflexivity.
Qed.
Lemma ends_txin net s : is_bytes s -> ends parse_errors (fun i => 41 <= zlen (ti_bytes i) /\ 41 <= zlen s /\ txin_obj i) (TxIn_from_bytes net s).
Proof.
  intros B. unfold TxIn_from_bytes. eapply ends_bind; [eapply ends_weaken; [apply ends_outpoint|wk|intros x _ X; exact X]|].
  intros o _ [Oo Lo]. eapply ends_bind; [eapply ends_weaken; [apply ends_VarInt_from_bytes|wk|intros x _ X; exact X]|].
  intros n _ [Rn [Ln _]]. cbv zeta. set (ss := slice s (36 + zlen (vi_bytes n)) _). set (sq := slice s _ (_ + 4)).
  assert (exists nl, Outpoint_null = Ok nl) as [nl Enl] by (eexists; vm_compute; reflexivity).
  eapply ends_bind with (P := fun _ => True).
  - destruct (leqb ss []); [exact I|]. rewrite Enl. cbn [bind]. destruct (leqb (op_bytes o) (op_bytes nl)); [exact I|].
    destruct (parse_script_sig_Ok net ss) as [a [b ->]]; [apply is_bytes_slice, B|exact I].
  - intros [st rd] _ _. destruct (TxIn o st rd sq) as [i|e] eqn:E.
    + pose proof (txin_fields _ _ _ _ _ E) as [_ [_ [_ [_ F]]]]. cbn [ends]. split; [|split; [|exact (F Oo)]].
      * rewrite TxIn_spec in E. destruct (_ && _ && _)%bool eqn:W; [|discriminate]. apply Ok_inj in E. subst i. rewrite !andb_true_iff in W.
        unfold txin_of. cbn [ti_bytes]. rewrite !zlen_app. pose proof (zlen_nonneg (st ++ rd)). pose proof (zlen_nonneg st). pose proof (zlen_nonneg rd).
        assert (1 <= zlen (compactsize (zlen (st ++ rd)))) by (rewrite zlen_compactsize; repeat destruct (_ <? _); lia).
        rewrite zlen_app in *. lia.
      * rewrite TxIn_spec in E. destruct (_ && _ && _)%bool eqn:W; [|discriminate]. rewrite !andb_true_iff in W. destruct W as [[_ W] _].
        unfold sq in W. pose proof (zlen_nonneg s). rewrite zlen_slice in W by lia. lia.
    + rewrite TxIn_spec in E. destruct (_ && _ && _)%bool; [discriminate|]. cbn in E. left. congruence.
Qed.
Lemma ends_txout net s : ends parse_errors (fun o => 9 <= zlen (to_bytes_ o) /\ 9 <= zlen s /\ txout_obj o) (TxOut_from_bytes net s).
Proof.
  unfold TxOut_from_bytes. eapply ends_bind; [eapply ends_weaken; [apply ends_VarInt_from_bytes|wk|intros x _ X; exact X]|].
  intros n _ [Rn [Ln Ls]]. cbv zeta. destruct (vi_number n <? 0xfc); [|right; right; left; reflexivity].
  rewrite zlen_slice_from in Ls by lia. set (sc := slice s _ _).
  destruct (TxOut (slice_to s 8) sc) as [o|e] eqn:E.
  - pose proof (txout_fields _ _ _ E) as [_ [_ O]]. split; [|split; [lia|exact O]].
    rewrite TxOut_spec in E. destruct (_ && _)%bool eqn:W; [|discriminate]. apply Ok_inj in E. subst o. rewrite !andb_true_iff in W.
    cbn [to_bytes_]. rewrite !zlen_app. pose proof (zlen_nonneg sc). assert (1 <= zlen (compactsize (zlen sc))) by (rewrite zlen_compactsize; repeat destruct (_ <? _); lia). lia.
  - rewrite TxOut_spec in E. destruct (_ && _)%bool; [discriminate|]. left. cbn in E. congruence.
Qed.
Lemma ends_witem net s : ends parse_errors (fun w => 1 <= zlen (wi_bytes w) /\ 1 <= zlen s /\ witem_obj w) (WitnessStackItem_from_bytes net s).
Proof.
  unfold WitnessStackItem_from_bytes. eapply ends_bind; [eapply ends_weaken; [apply ends_VarInt_from_bytes|wk|intros x _ X; exact X]|].
  intros n _ [Rn [Ln Ls]]. cbv zeta. set (sc := slice s _ _). rewrite WitnessStackItem_spec. destruct (Z.ltb_spec (zlen sc) (2 ^ 64)) as [L|L]; [|left; reflexivity].
  cbn [ends]. split; [|split; [exact Ls|]].
  - cbn [wi_bytes]. rewrite zlen_app. pose proof (zlen_nonneg sc). assert (1 <= zlen (compactsize (zlen sc))) by (rewrite zlen_compactsize; repeat destruct (_ <? _); lia). lia.
  - unfold witem_obj. cbn [wi_item]. rewrite WitnessStackItem_spec. destruct (Z.ltb_spec (zlen sc) (2 ^ 64)); [reflexivity|lia].
Qed.
Lemma ends_witness net s : is_bytes s -> ends parse_errors (fun w => 1 <= zlen (wit_bytes w) /\ 1 <= zlen s /\ witness_obj w /\ zlen (wit_stack w) <= zlen s) (InputWitness_from_bytes net s).
Proof.
  intros B. unfold InputWitness_from_bytes. eapply ends_bind; [eapply ends_weaken; [apply ends_VarInt_from_bytes|wk|intros x _ X; exact X]|].
  intros n _ [Rn [Ln Ls]]. cbv zeta. eapply ends_bind.
  - apply (ends_read_many _ _ _ witem_obj 1); [lia|intros; apply ends_witem|exact B|lia|]. unfold zlen. lia.
  - intros [items c] _ [F [L1 _]]. cbn [fst snd] in *. destruct (InputWitness items) as [w|e] eqn:E.
    + pose proof (witness_fields _ _ E) as [Es O]. split; [|split; [lia|split; [exact (O F)|rewrite Es; lia]]].
      rewrite InputWitness_spec in E. destruct (_ <? _); [|discriminate]. apply Ok_inj in E. subst w. cbn [wit_bytes]. rewrite zlen_app.
      pose proof (zlen_nonneg (concat (map wi_bytes items))). pose proof (zlen_nonneg items). assert (1 <= zlen (compactsize (zlen items))) by (rewrite zlen_compactsize; repeat destruct (_ <? _); lia). lia.
    + rewrite InputWitness_spec in E. destruct (_ <? _); [discriminate|]. left. congruence.
Qed.

(** ** Transactions *)
Section Txs.
Variables (H : hashes) (net : network).

Lemma ends_tx s : is_bytes s ->
  ends parse_errors (fun t => tx_obj H net t /\ 41 * zlen (tx_tx_ins t) + 9 * zlen (tx_tx_outs t) + zlen (the_witnesses t) <= zlen s /\
                              Forall (fun w => zlen (wit_stack w) <= zlen s) (the_witnesses t)) (Tx_from_bytes H net s).
Proof.
  intros B. unfold Tx_from_bytes.
  match goal with |- context [if leqb (slice s 4 6) ?f then ?a else ?b] => assert (exists loc flag, (if leqb (slice s 4 6) f then a else b) = (loc, flag) /\ 4 <= loc) as [loc [flag [-> Lc]]] end.
  { destruct (leqb _ _); do 2 eexists; split; try reflexivity; lia. }
  eapply ends_bind; [eapply ends_weaken; [apply ends_VarInt_from_bytes|wk|intros x _ X; exact X]|].
  intros n _ [Rn [Ln _]]. cbv zeta. assert (forall c, 0 <= c -> Z.max 0 (zlen s - c) < Z.of_nat (S (length s))) as FU by (intros; unfold zlen; lia).
  eapply ends_bind.
  { apply (ends_read_many _ _ _ txin_obj 41); [lia|intros; apply ends_txin; assumption|exact B|lia|apply FU; lia]. }
  intros [ins c1] _ [Fi [I1 [I2 I3]]]. cbn [fst snd] in *. pose proof (zlen_nonneg ins).
  eapply ends_bind; [eapply ends_weaken; [apply ends_VarInt_from_bytes|wk|intros x _ X; exact X]|].
  intros m _ [Rm [Lm _]]. eapply ends_bind.
  { apply (ends_read_many _ _ _ txout_obj 9); [lia|intros; apply ends_txout|exact B|lia|apply FU; lia]. }
  intros [outs c2] _ [Fo [O1 [O2 O3]]]. cbn [fst snd] in *. pose proof (zlen_nonneg outs).
  eapply ends_bind with (P := fun p => Forall (fun w => witness_obj w /\ zlen (wit_stack w) <= zlen s) (fst p) /\ zlen (fst p) <= Z.max 0 (zlen s - c2)).
  { destruct (_ && _)%bool; [|cbn; split; [constructor|change (zlen (@nil witness)) with 0; lia]].
    eapply ends_weaken; [apply (ends_read_many_le parse_errors _ _ (fun w => witness_obj w /\ zlen (wit_stack w) <= zlen s) 1 (zlen s))|wk|].
    - lia.
    - intros s' B' L'. eapply ends_weaken; [apply ends_witness, B'|wk|]. intros w _ [W1 [W2 [W3 W4]]]. refine (conj W1 (conj W2 (conj W3 _))). clear - W4 L'. lia.
    - exact B.
    - lia.
    - lia.
    - apply FU; lia.
    - intros [ws c3] _ [W1 [W2 _]]. cbn [fst snd] in *. split; [exact W1|lia]. }
  intros [ws c3] _ [Fw Lw]. cbn [fst snd] in *. pose proof (zlen_nonneg ws).
  destruct (Tx H net _ flag ins outs (Some ws) _) as [t|e] eqn:E.
  - pose proof (tx_fields H net _ _ _ _ _ _ _ E) as [_ [_ [E3 [E4 [E5 [_ O]]]]]]. cbn [ends].
    assert (the_witnesses t = ws) as -> by (unfold the_witnesses; rewrite E5; reflexivity). rewrite E3, E4. split; [|split].
    + apply O; [exact Fi|exact Fo|]. eapply Forall_impl; [|exact Fw]. cbn. tauto.
    + pose proof (zlen_nonneg s). lia.
    + eapply Forall_impl; [|exact Fw]. cbn. tauto.
  - rewrite Tx_spec in E. destruct (tx_args_ok _ _ _ _ _ _ _); [discriminate|]. left. congruence.
Qed.

Lemma ends_sprout_js s : ends parse_errors (fun j => 1802 <= zlen (js_bytes j) /\ 1802 <= zlen s /\ sprout_joinsplit_obj net j) (SproutJoinsplit_from_bytes net s).
Proof.
  destruct (SproutJoinsplit_from_bytes net s) as [j|e] eqn:E.
  - apply sprout_joinsplit_parse_inv in E. destruct E as [O [r ->]]. pose proof (js_len net j O). pose proof (zlen_nonneg r). cbn [ends]. rewrite zlen_app. split; [lia|split; [lia|exact O]].
  - left. symmetry. exact (proj1 (proj2 (proj2 (part_errors net s e))) E).
Qed.
Lemma ends_sapling_js s : ends parse_errors (fun j => 1698 <= zlen (js_bytes j) /\ 1698 <= zlen s /\ sapling_joinsplit_obj net j) (SaplingJoinsplit_from_bytes net s).
Proof.
  destruct (SaplingJoinsplit_from_bytes net s) as [j|e] eqn:E.
  - apply sapling_joinsplit_parse_inv in E. destruct E as [O [r ->]]. pose proof (sjs_len net j O). pose proof (zlen_nonneg r). cbn [ends]. rewrite zlen_app. split; [lia|split; [lia|exact O]].
  - left. symmetry. exact (proj1 (proj2 (proj2 (proj2 (part_errors net s e)))) E).
Qed.
Lemma ends_spend s : ends parse_errors (fun j => 384 <= zlen (ss_bytes j) /\ 384 <= zlen s /\ spend_obj net j) (SaplingShieldedSpend_from_bytes net s).
Proof.
  destruct (SaplingShieldedSpend_from_bytes net s) as [j|e] eqn:E.
  - apply spend_parse_inv in E. destruct E as [O [r ->]]. pose proof (spend_len net j O). pose proof (zlen_nonneg r). cbn [ends]. rewrite zlen_app. split; [lia|split; [lia|exact O]].
  - left. symmetry. exact (proj1 (proj2 (proj2 (proj2 (proj2 (part_errors net s e))))) E).
Qed.
Lemma ends_sout s : ends parse_errors (fun j => 948 <= zlen (so_bytes j) /\ 948 <= zlen s /\ shielded_output_obj net j) (SaplingShieldedOutput_from_bytes net s).
Proof.
  destruct (SaplingShieldedOutput_from_bytes net s) as [j|e] eqn:E.
  - apply shielded_output_parse_inv in E. destruct E as [O [r ->]]. pose proof (sout_len net j O). pose proof (zlen_nonneg r). cbn [ends]. rewrite zlen_app. split; [lia|split; [lia|exact O]].
  - left. symmetry. exact (proj2 (proj2 (proj2 (proj2 (proj2 (part_errors net s e))))) E).
Qed.

Ltac varint := eapply ends_bind; [eapply ends_weaken; [apply ends_VarInt_from_bytes|wk|intros ? _ ?X; exact X]|].

Lemma ends_overwinter s : is_bytes s ->
  ends parse_errors (fun t => overwinter_obj H net t /\ 41 * zlen (ow_tx_ins t) + 9 * zlen (ow_tx_outs t) + 1802 * zlen (ow_tx_joinsplits t) <= zlen s) (OverwinterTx_from_bytes H net s).
Proof.
  intros B. unfold OverwinterTx_from_bytes. destruct (_ || _)%bool; [left; reflexivity|]. cbv [guard]. cbn [bind].
  assert (forall c, 0 <= c -> Z.max 0 (zlen s - c) < Z.of_nat (S (length s))) as FU by (intros; unfold zlen; lia).
  varint. intros n _ [Rn [Ln _]]. cbv zeta.
  eapply ends_bind. { apply (ends_read_many _ _ _ txin_obj 41); [lia|intros; apply ends_txin; assumption|exact B|lia|apply FU; lia]. }
  intros [ins c1] _ [Fi [I1 [I2 I3]]]. cbn [fst snd] in *. pose proof (zlen_nonneg ins).
  varint. intros m _ [Rm [Lm _]].
  eapply ends_bind. { apply (ends_read_many _ _ _ txout_obj 9); [lia|intros; apply ends_txout|exact B|lia|apply FU; lia]. }
  intros [outs c2] _ [Fo [O1 [O2 O3]]]. cbn [fst snd] in *. pose proof (zlen_nonneg outs).
  eapply ends_bind with (P := fun p => Forall (sprout_joinsplit_obj net) (fst (fst p)) /\ 1802 * zlen (fst (fst p)) <= Z.max 0 (zlen s - c2)).
  { destruct (_ =? zlen s); [cbn; split; [constructor|change (zlen (@nil sprout_joinsplit)) with 0; lia]|].
    varint. intros k _ [Rk [Lk _]].
    eapply ends_bind. { apply (ends_read_many _ _ _ (sprout_joinsplit_obj net) 1802); [lia|intros; apply ends_sprout_js|exact B|lia|apply FU; lia]. }
    intros [js c3] _ [Fj [J1 [J2 J3]]]. cbn [ends fst snd] in *. split; [exact Fj|lia]. }
  intros [[js pk] sg] _ [Fj Lj]. cbn [fst snd] in *. pose proof (zlen_nonneg js). pose proof (zlen_nonneg s).
  destruct (OverwinterTx H net _ _ _ _ _ _ _) as [t|e] eqn:E.
  - pose proof (overwinter_fields H net _ _ _ _ _ _ _ _ E) as F. cbn [ends]. destruct F as [F1 [F2 [_ [_ [F5 [_ [_ O]]]]]]]. rewrite F1, F2, F5. split; [|lia].
    apply O; assumption.
  - rewrite OverwinterTx_spec in E. destruct (ow_args_ok _ _ _ _ _ _ _ _); [discriminate|]. left. congruence.
Qed.

Lemma ends_sapling s : is_bytes s ->
  ends parse_errors (fun t => sapling_obj H net t /\ 41 * zlen (sa_tx_ins t) + 9 * zlen (sa_tx_outs t) + 384 * zlen (sa_tx_shielded_spends t)
                              + 948 * zlen (sa_tx_shielded_outputs t) + 1698 * zlen (sa_tx_joinsplits t) <= zlen s) (SaplingTx_from_bytes H net s).
Proof.
  intros B. unfold SaplingTx_from_bytes. destruct (_ || _)%bool; [left; reflexivity|]. cbv [guard]. cbn [bind].
  assert (forall c, 0 <= c -> Z.max 0 (zlen s - c) < Z.of_nat (S (length s))) as FU by (intros; unfold zlen; lia).
  varint. intros n _ [Rn [Ln _]]. cbv zeta.
  eapply ends_bind. { apply (ends_read_many _ _ _ txin_obj 41); [lia|intros; apply ends_txin; assumption|exact B|lia|apply FU; lia]. }
  intros [ins c1] _ [Fi [I1 [I2 I3]]]. cbn [fst snd] in *. pose proof (zlen_nonneg ins).
  varint. intros m _ [Rm [Lm _]].
  eapply ends_bind. { apply (ends_read_many _ _ _ txout_obj 9); [lia|intros; apply ends_txout|exact B|lia|apply FU; lia]. }
  intros [outs c2] _ [Fo [O1 [O2 O3]]]. cbn [fst snd] in *. pose proof (zlen_nonneg outs).
  varint. intros m3 _ [Rm3 [Lm3 _]].
  eapply ends_bind. { apply (ends_read_many _ _ _ (spend_obj net) 384); [lia|intros; apply ends_spend|exact B|lia|apply FU; lia]. }
  intros [sp c3] _ [Fs [S1 [S2 S3]]]. cbn [fst snd] in *. pose proof (zlen_nonneg sp).
  varint. intros m4 _ [Rm4 [Lm4 _]].
  eapply ends_bind. { apply (ends_read_many _ _ _ (shielded_output_obj net) 948); [lia|intros; apply ends_sout|exact B|lia|apply FU; lia]. }
  intros [so c4] _ [Fso [T1 [T2 T3]]]. cbn [fst snd] in *. pose proof (zlen_nonneg so).
  varint. intros m5 _ [Rm5 [Lm5 _]].
  eapply ends_bind. { apply (ends_read_many _ _ _ (sapling_joinsplit_obj net) 1698); [lia|intros; apply ends_sapling_js|exact B|lia|apply FU; lia]. }
  intros [js c5] _ [Fj [J1 [J2 J3]]]. cbn [fst snd] in *. pose proof (zlen_nonneg js). pose proof (zlen_nonneg s).
  match goal with |- context [if 0 <? zlen js then ?a else ?b] => destruct (if 0 <? zlen js then a else b) as [[pk sg] c6] end.
  set (bs := if 0 <? zlen sp + zlen so then Some _ else None).
  destruct (SaplingTx_cases H net ins outs (slice s c2 (c2 + 4)) (slice s (c2 + 4) (c2 + 4 + 4)) (slice s (c2 + 4 + 4) (c2 + 4 + 4 + 8)) sp so js pk sg bs) as [[_ E]|[_ [E|[_ [E N]]]]].
  - pose proof E as E'. rewrite E. cbn [ends]. pose proof (sapling_fields H net _ _ _ _ _ _ _ _ _ _ _ _ E) as F.
    destruct F as [F1 [F2 [_ [_ [_ [F6 [F7 [F8 [_ [_ [_ O]]]]]]]]]]]. rewrite F1, F2, F6, F7, F8. split; [apply O; assumption|lia].
  - rewrite E. left. reflexivity.
  - exfalso. apply N. unfold bs in E. destruct (Z.ltb_spec 0 (zlen sp + zlen so)) as [|Z0]; [discriminate|].
    split; apply zlen_0; lia.
Qed.

Lemma ends_validate x n : ends [ValueError] (fun _ => True) (validate_bytes x n).
Proof. unfold validate_bytes, guard. destruct x as [x|]; [|left; reflexivity]. destruct n as [n|]; [|exact I]. destruct (negb _); [left; reflexivity|exact I]. Qed.

(* The constructor can fail with these two only *)
Lemma ends_SproutTx v ins outs lock js pk sg : ends [ValueError; TypeError] (fun _ => True) (SproutTx H net (Some v) ins outs lock js pk sg).
Proof.
  unfold SproutTx, zcash_only, vb, guard, add_opt, len_opt.
  repeat match goal with
  | |- ends _ _ (bind (validate_bytes _ _) _) => eapply ends_bind with (P := fun _ => True); [eapply ends_weaken; [apply ends_validate|wk|trivial]|intros ? _ _]
  | |- ends _ _ (bind (VarInt _ _) _) => eapply ends_bind with (P := fun _ => True); [eapply ends_weaken; [apply ends_VarInt|wk|trivial]|intros ? _ _]
  | |- ends _ _ (validate_bytes _ _) => eapply ends_weaken; [apply ends_validate|wk|trivial]
  | |- ends _ _ (bind (Ok _) _) => cbn [bind]
  | |- ends _ _ (bind (Err _) _) => cbn [bind]
  | |- ends _ _ (bind (i2le_padded 2 4) _) => change (i2le_padded 2 4) with (@Ok bytes [2; 0; 0; 0]); cbn [bind]
  | |- ends _ _ (bind (bind _ _) _) => eapply ends_bind with (P := fun _ => True); [|intros ? _ _]
  | |- ends _ _ (bind (if ?c then _ else _) _) => eapply ends_bind with (P := fun _ => True); [destruct c|intros ? _ _]
  | |- ends _ _ (bind (match ?c with _ => _ end) _) => eapply ends_bind with (P := fun _ => True); [destruct c|intros ? _ _]
  | |- ends _ _ (if ?c then _ else _) => destruct c
  | |- ends _ _ (match ?c with Some _ => _ | None => _ end) => destruct c
  | |- ends _ _ (Ok _) => exact I
  | |- ends _ _ (Err _) => cbn; tauto
  | |- ends _ _ (let _ := _ in _) => cbv zeta
  end.
Qed.

Lemma ends_sprout s : is_bytes s ->
  ends (TypeError :: parse_errors) (fun t => sprout_obj H net t /\ exists js, sp_tx_joinsplits t = Some js /\
     41 * zlen (sp_tx_ins t) + 9 * zlen (sp_tx_outs t) + 1802 * zlen js <= zlen s) (SproutTx_from_bytes H net s).
Proof.
  intros B. unfold SproutTx_from_bytes.
  assert (forall c, 0 <= c -> Z.max 0 (zlen s - c) < Z.of_nat (S (length s))) as FU by (intros; unfold zlen; lia).
  varint. intros n _ [Rn [Ln _]]. cbv zeta.
  eapply ends_bind. { eapply ends_weaken; [apply (ends_read_many parse_errors _ _ txin_obj 41); [lia|intros; apply ends_txin; assumption|exact B|lia|apply FU; lia]|wk|intros x _ X; exact X]. }
  intros [ins c1] _ [Fi [I1 [I2 I3]]]. cbn [fst snd] in *. pose proof (zlen_nonneg ins).
  varint. intros m _ [Rm [Lm _]].
  eapply ends_bind. { eapply ends_weaken; [apply (ends_read_many parse_errors _ _ txout_obj 9); [lia|intros; apply ends_txout|exact B|lia|apply FU; lia]|wk|intros x _ X; exact X]. }
  intros [outs c2] _ [Fo [O1 [O2 O3]]]. cbn [fst snd] in *. pose proof (zlen_nonneg outs).
  eapply ends_bind with (P := fun p => match fst (fst p) with Some js => Forall (sprout_joinsplit_obj net) js /\ 1802 * zlen js <= Z.max 0 (zlen s - c2) | None => True end).
  { destruct (_ =? 2); [|exact I].
    varint. intros k _ [Rk [Lk _]].
    eapply ends_bind. { eapply ends_weaken; [apply (ends_read_many parse_errors _ _ (sprout_joinsplit_obj net) 1802); [lia|intros; apply ends_sprout_js|exact B|lia|apply FU; lia]|wk|intros x _ X; exact X]. }
    intros [js c3] _ [Fj [J1 [J2 J3]]]. cbn [ends fst snd] in *. split; [exact Fj|lia]. }
  intros [[js pk] sg] _ Fj. cbn [fst snd] in *. pose proof (zlen_nonneg s).
  pose proof (ends_SproutTx (slice s 0 4) ins outs (slice s c2 (c2 + 4)) js pk sg) as C.
  destruct (SproutTx H net _ _ _ _ _ _ _) as [t|e] eqn:E; [|destruct C as [<-|[<-|[]]]; cbn; tauto].
  destruct js as [js|].
  - destruct Fj as [Fj Lj]. pose proof (zlen_nonneg js).
    assert (all_bytes (slice s 0 4)) as Bv by (apply all_bytes_is_bytes, is_bytes_slice, B).
    pose proof (sprout_fields H net _ _ _ _ _ _ _ _ Bv E) as [_ [F2 [F3 [_ [F5 [_ O]]]]]]. cbn [ends]. split; [apply O; assumption|].
    exists js. rewrite F2, F3. split; [exact F5|lia].
  - match type of E with SproutTx _ _ ?v ?i ?o ?l None ?p ?g = _ => destruct (SproutTx_None H net v i o l p g) as [e Y] end. rewrite Y in E. discriminate.
Qed.

(** ** Decred *)
Lemma ends_decred_outpoint s : ends [ValueError] (fun _ => True) (DecredOutpoint_from_bytes net s).
Proof.
  unfold DecredOutpoint_from_bytes, DecredOutpoint, decred_only, guard. destruct (negb _); [left; reflexivity|]. cbn [bind].
  do 3 (eapply ends_bind; [apply ends_validate|intros ? _ _]). exact I.
Qed.
Lemma ends_decred_txin s : ends [ValueError] (fun _ => True) (DecredTxIn_from_bytes net s).
Proof.
  unfold DecredTxIn_from_bytes. eapply ends_bind; [apply ends_decred_outpoint|intros o _ _].
  unfold DecredTxIn, decred_only, guard. destruct (negb _); [left; reflexivity|]. cbn [bind].
  do 2 (eapply ends_bind; [apply ends_validate|intros ? _ _]). exact I.
Qed.
Lemma ends_decred_txout s : ends parse_errors (fun _ => True) (DecredTxOut_from_bytes net s).
Proof.
  unfold DecredTxOut_from_bytes. varint. intros n _ _. cbv zeta. destruct (_ <? _); [|right; right; left; reflexivity].
  unfold DecredTxOut, decred_only, guard. destruct (negb _); [left; reflexivity|]. cbn [bind].
  do 3 (eapply ends_bind with (P := fun _ => True); [eapply ends_weaken; [apply ends_validate|wk|trivial]|intros ? _ _]). cbn [add_opt bind].
  eapply ends_bind with (P := fun _ => True); [eapply ends_weaken; [apply ends_VarInt|wk|trivial]|intros ? _ _]. exact I.
Qed.
End Txs.
