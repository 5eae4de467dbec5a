(* Lemmas about the wire format: it can be read in one way only; every well-formed
   transaction is some object's; parsing arbitrary wire transactions *)
From Coq Require Import String.
From Verif Require Import Py LBase MNet MUtils MShared MScript MTx SNum SNet SHash SScript STx LNet LUtils LVarint LScript LBase58 LTx LTxParse.
Open Scope list_scope.
Open Scope Z_scope.
Ltac Zify.zify_post_hook ::= idtac.

(** * prefix codes *)

Definition pfx {A} (ok : A -> Prop) (w : A -> bytes) : Prop :=
  forall a b r s, ok a -> ok b -> w a ++ r = w b ++ s -> a = b /\ r = s.

Lemma pfx_compactsize : pfx (fun n => 0 <= n < 2 ^ 64) compactsize.
Proof.
  intros a b r s A B E.
  assert (VarInt_from_bytes BitcoinMain (compactsize a ++ r) = VarInt_from_bytes BitcoinMain (compactsize b ++ s)) as V by (rewrite E; reflexivity).
  rewrite !VarInt_roundtrip in V by (try assumption; left; reflexivity). injection V as <- _.
  apply app_inv_head in E. auto.
Qed.

Lemma pfx_string : pfx (fun s : bytes => zlen s < 2 ^ 64) string_wire.
Proof.
  intros a b r s A B E. unfold string_wire in E. rewrite <- !app_assoc in E. norm_spec.
  pose proof (zlen_nonneg a). pose proof (zlen_nonneg b).
  apply pfx_compactsize in E; [|lia|lia]. destruct E as [L E]. apply app_inj_zlen in E; [|exact L]. exact E.
Qed.

Lemma pfx_input : pfx input_ok input_wire.
Proof.
  intros a b r s [A1 [A2 [A3 A4]]] [B1 [B2 [B3 B4]]] E. norm_spec. unfold input_wire, outpoint_wire in E. rewrite <- !app_assoc in E.
  apply app_inj_zlen in E; [|lia]. destruct E as [E1 E]. apply app_inj_zlen in E; [|lia]. destruct E as [E2 E].
  apply pfx_string in E; [|exact A4|exact B4]. destruct E as [E3 E]. apply app_inj_zlen in E; [|lia]. destruct E as [E4 E].
  destruct a, b. cbn in *. subst. auto.
Qed.

Lemma pfx_output : pfx output_ok output_wire.
Proof.
  intros a b r s [A1 A2] [B1 B2] E. norm_spec. unfold output_wire in E. rewrite <- !app_assoc in E.
  apply app_inj_zlen in E; [|lia]. destruct E as [E1 E]. apply pfx_string in E; [|exact A2|exact B2]. destruct E as [E2 E].
  destruct a, b. cbn in *. subst. auto.
Qed.

Lemma pfx_concat {A} (ok : A -> Prop) w : pfx ok w -> forall l m r s, length l = length m -> Forall ok l -> Forall ok m ->
  concat (map w l) ++ r = concat (map w m) ++ s -> l = m /\ r = s.
Proof.
  intros P. induction l as [|a l IH]; intros [|b m] r s L F G E; try discriminate L; [auto|].
  cbn [map concat] in E. rewrite <- !app_assoc in E. inversion F; subst. inversion G; subst.
  apply P in E; try assumption. destruct E as [-> E]. apply IH in E; try assumption; [|cbn in L; lia]. destruct E as [-> ->]. auto.
Qed.

Lemma pfx_vector {A} (ok : A -> Prop) w : pfx ok w -> pfx (fun l => zlen l < 2 ^ 64 /\ Forall ok l) (vector_wire w).
Proof.
  intros P l m r s [L1 F1] [L2 F2] E. unfold vector_wire in E. rewrite <- !app_assoc in E. norm_count.
  pose proof (zlen_nonneg l). pose proof (zlen_nonneg m).
  apply pfx_compactsize in E; [|lia|lia]. destruct E as [L E]. apply (pfx_concat ok w P) in E; try assumption. unfold zlen in L. lia.
Qed.

Lemma pfx_stack : pfx stack_ok stack_wire.
Proof. intros a b r s A B E. exact (pfx_vector _ _ pfx_string a b r s A B E). Qed.

Lemma vector_head {A} (w : A -> bytes) l : 1 <= zlen l -> exists b t, vector_wire w l = b :: t /\ b <> 0.
Proof.
  intros L. unfold vector_wire. norm_count. destruct (compactsize_head (zlen l) L) as [b [t [-> B]]]. exists b, (t ++ concat (map w l)). auto.
Qed.

(* the format tells a transaction and where it ends *)
Lemma wire_tx_prefix a b r s : transaction_ok a -> transaction_ok b -> bip144 a -> bip144 b ->
  wire_tx a ++ r = wire_tx b ++ s -> a = b /\ r = s.
Proof.
  intros [A1 [A2 [A3 [A4 [A5 [A6 A7]]]]]] [B1 [B2 [B3 [B4 [B5 [B6 B7]]]]]] A8 B8 E. norm_count. norm_spec.
  unfold wire_tx in E. rewrite <- !app_assoc in E. apply app_inj_zlen in E; [|lia]. destruct E as [E1 E].
  unfold bip144 in *. destruct a as [v1 i1 o1 w1 l1], b as [v2 i2 o2 w2 l2]. cbn [t_version t_ins t_outs t_witness t_lock] in *. norm_count.
  destruct (vector_head input_wire i1 (proj1 A3)) as [x1 [y1 [H1 N1]]].
  destruct (vector_head input_wire i2 (proj1 B3)) as [x2 [y2 [H2 N2]]].
  destruct w1 as [w1|], w2 as [w2|].
  - apply app_inv_head in E. apply (pfx_vector _ _ pfx_input) in E; [|split; [lia|assumption]|split; [lia|assumption]]. destruct E as [-> E].
    apply (pfx_vector _ _ pfx_output) in E; [|split; [lia|assumption]|split; [lia|assumption]]. destruct E as [-> E].
    rewrite <- ?app_assoc in E. apply (pfx_concat _ _ pfx_stack) in E; try assumption; [|apply Nat2Z.inj; transitivity (zlen i2); [exact A8|symmetry; exact B8]]. destruct E as [-> E].
    apply app_inj_zlen in E; [|lia]. destruct E as [-> ->]. subst. auto.
  - exfalso. rewrite H2 in E. cbn in E. injection E. lia.
  - exfalso. rewrite H1 in E. cbn in E. injection E. lia.
  - cbn [app] in E. apply (pfx_vector _ _ pfx_input) in E; [|split; [lia|assumption]|split; [lia|assumption]]. destruct E as [-> E].
    apply (pfx_vector _ _ pfx_output) in E; [|split; [lia|assumption]|split; [lia|assumption]]. destruct E as [-> E].
    cbn [app] in E. apply app_inj_zlen in E; [|lia]. destruct E as [-> ->]. subst. auto.
Qed.

Lemma stripped_ok t : transaction_ok t -> transaction_ok (stripped t) /\ bip144 (stripped t).
Proof. intros [A [B [C [D [E [F G]]]]]]. split; [|exact I]. repeat split; try assumption; try apply C; try apply D. Qed.

Lemma wire_tx_inj a b : transaction_ok a -> transaction_ok b -> bip144 a -> bip144 b -> wire_tx a = wire_tx b -> a = b.
Proof. intros A B C D E. apply (wire_tx_prefix a b [] []); try assumption. rewrite E. reflexivity. Qed.

(* the flag with no witnesses is not the serialization of any transaction *)
Lemma flag_without_witness v i o l t : transaction_ok t -> bip144 t -> len v = 4 -> len l = 4 ->
  1 <= count i < 2 ^ 64 -> 1 <= count o < 2 ^ 64 -> Forall input_ok i -> Forall output_ok o ->
  v ++ marker_and_flag ++ vector_wire input_wire i ++ vector_wire output_wire o ++ l <> wire_tx t.
Proof.
  intros [A1 [A2 [A3 [A4 [A5 [A6 A7]]]]]] A8 V L I O Fi Fo E. norm_count. norm_spec. unfold bip144 in A8.
  destruct t as [v1 i1 o1 w1 l1]. unfold wire_tx in E. cbn [t_version t_ins t_outs t_witness t_lock] in *. norm_count.
  apply app_inj_zlen in E; [|lia]. destruct E as [E1 E]. destruct w1 as [w1|].
  - apply app_inv_head in E. apply (pfx_vector _ _ pfx_input) in E; [|split; [lia|assumption]|split; [lia|assumption]]. destruct E as [-> E].
    apply (pfx_vector _ _ pfx_output) in E; [|split; [lia|assumption]|split; [lia|assumption]]. destruct E as [-> E].
    apply (f_equal zlen) in E. rewrite zlen_app in E. assert (1 <= zlen (concat (map stack_wire w1))); [|lia].
    destruct w1 as [|x w1]; [cbn in A8; unfold zlen in *; cbn in A8; lia|]. cbn [map concat]. rewrite zlen_app. unfold stack_wire at 1, vector_wire. rewrite zlen_app.
    pose proof (zlen_compactsize_pos (count x)). pose proof (zlen_nonneg (concat (map string_wire x))). pose proof (zlen_nonneg (concat (map stack_wire w1))). lia.
  - destruct (vector_head input_wire i1 (proj1 A3)) as [x1 [y1 [H1 N1]]]. rewrite H1 in E. cbn in E. injection E. lia.
Qed.

(** * objects for given fields *)

Definition in_size (i : input) : Prop := len (in_script i) <= 1650.

Definition op_of (i : input) : outpoint := {| op_tx_id := in_txid i; op_index := in_index i; op_bytes := in_txid i ++ in_index i |}.
Lemma op_of_obj i : input_ok i -> outpoint_obj (op_of i).
Proof. intros [A [B _]]. apply outpoint_obj_iff. auto. Qed.

Lemma input_object i : input_ok i -> in_size i -> exists x, txin_obj x /\ the_input x = i.
Proof.
  intros O S. exists (txin_of (op_of i) (in_script i) [] (in_sequence i)). split.
  - apply txin_obj_iff. cbn [txin_of ti_outpoint ti_sequence ti_script_sig ti_stack_script ti_redeem_script]. rewrite app_nil_r.
    split; [apply op_of_obj, O|]. destruct O as [_ [_ [Q _]]]. auto.
  - destruct i. unfold the_input. cbn. rewrite app_nil_r. reflexivity.
Qed.

Lemma output_object o : output_ok o -> exists x, txout_obj x /\ the_output x = o.
Proof.
  intros [V S]. exists {| to_value := out_value o; to_output_script := out_script o; to_bytes_ := out_value o ++ compactsize (zlen (out_script o)) ++ out_script o |}.
  split; [apply txout_obj_iff; auto|]. destruct o; reflexivity.
Qed.

Lemma objects {A B} (ok : A -> Prop) (obj : B -> Prop) (f : B -> A) : (forall a, ok a -> exists b, obj b /\ f b = a) ->
  forall l, Forall ok l -> exists m, Forall obj m /\ map f m = l.
Proof.
  intros X. induction 1 as [|a l O F [m [M E]]]; [exists []; auto|]. destruct (X a O) as [b [Ob Eb]].
  exists (b :: m). split; [constructor; assumption|]. cbn. rewrite Eb, E. reflexivity.
Qed.

Lemma stack_object st : stack_ok st -> exists x, witness_obj x /\ the_stack x = st.
Proof.
  intros [L F]. destruct (objects (fun s : bytes => len s < 2 ^ 64) witem_obj wi_item) with (l := st) as [m [M E]].
  - intros a La. exists {| wi_item := a; wi_bytes := compactsize (zlen a) ++ a |}. split; [apply witem_obj_iff; auto|reflexivity].
  - exact F.
  - exists {| wit_stack := m; wit_bytes := compactsize (zlen m) ++ concat (map wi_bytes m) |}. split; [|exact E].
    apply witness_obj_iff. cbn [wit_stack wit_bytes]. split; [exact M|]. split; [|reflexivity].
    rewrite <- E in L. norm_count. rewrite zlen_map in L. exact L.
Qed.

Section Tx.
Context (H : hashes).

Lemma tx_object name net tr : get_network name = Ok net -> transaction_ok tr -> bip144 tr -> Forall in_size (t_ins tr) ->
  exists t, tx_obj H net t /\ the_tx t = tr.
Proof.
  intros En [A1 [A2 [A3 [A4 [A5 [A6 A7]]]]]] A8 S. norm_count. norm_spec.
  destruct (objects (fun i => input_ok i /\ in_size i) txin_obj the_input (fun a X => input_object a (proj1 X) (proj2 X)) (t_ins tr)) as [ins [Fi Ei]].
  { rewrite Forall_forall in *. auto. }
  destruct (objects _ _ _ output_object (t_outs tr) A6) as [outs [Fo Eo]].
  assert (exists ws, match ws with Some w => Forall witness_obj w /\ zlen w = zlen ins /\ t_witness tr = Some (map the_stack w) | None => t_witness tr = None end) as [ws W].
  { destruct (t_witness tr) as [w|] eqn:Ew; [|exists None; reflexivity].
    destruct (objects _ _ _ stack_object w A7) as [m [M E]]. exists (Some m). split; [exact M|].
    unfold bip144 in A8. rewrite Ew in A8. norm_count. rewrite <- E, <- Ei, !zlen_map in A8. rewrite E. auto. }
  exists (tx_of H net (t_version tr) (match ws with Some _ => Some marker_and_flag | None => None end) ins outs ws (t_lock tr)).
  assert (zlen ins = zlen (t_ins tr)) as Li by (rewrite <- Ei, zlen_map; reflexivity).
  assert (zlen outs = zlen (t_outs tr)) as Lo by (rewrite <- Eo, zlen_map; reflexivity).
  split.
  - apply tx_obj_iff. cbn [tx_of tx_tx_ins tx_tx_outs tx_tx_witnesses tx_version tx_flag tx_lock_time].
    split; [exact Fi|]. split; [exact Fo|]. split; [destruct ws; [apply W|exact I]|]. split; [|reflexivity].
    unfold tx_args_ok. rewrite !andb_true_iff. repeat split; try (apply Z.eqb_eq; assumption); try lia.
    + destruct ws; [|reflexivity]. cbn [flag_ok]. rewrite (segwit_flag name) by exact En. reflexivity.
    + destruct ws; [|reflexivity]. cbn [wits_ok andb]. destruct W as [_ [-> _]]. rewrite Z.eqb_refl, orb_true_r. reflexivity.
  - unfold the_tx, the_witnesses. cbn [tx_of tx_tx_ins tx_tx_outs tx_tx_witnesses tx_version tx_flag tx_lock_time]. rewrite Ei, Eo.
    destruct tr as [v i o w l]. cbn [t_version t_ins t_outs t_witness t_lock] in *. f_equal. destruct ws; [symmetry; apply W|symmetry; exact W].
Qed.

(** * parsing any kept transaction *)

Lemma read_many_err {A X} (fb : bytes -> res A) size (w : X -> bytes) xs ys x e :
  Forall2 (fun x y => (forall r, fb (w x ++ r) = Ok y) /\ size y = zlen (w x)) xs ys -> (forall r, fb (w x ++ r) = Err e) ->
  forall fuel pre rest n c, (length xs < fuel)%nat -> zlen xs < n -> c = zlen pre ->
  read_many fb size fuel (pre ++ concat (map w xs) ++ w x ++ rest) n c = Err e.
Proof.
  intros F E. induction F as [|x' y xs ys [P S] F IH]; intros fuel pre rest n c Hf Hn Hc.
  - destruct fuel as [|fuel]; [cbn in Hf; lia|]. rewrite read_many_step by (cbn in Hn; lia). cbn [map concat app].
    rewrite slice_from_app by (symmetry; exact Hc). rewrite E. reflexivity.
  - cbn [length] in Hf. destruct fuel as [|fuel]; [lia|]. rewrite zlen_cons in Hn.
    pose proof (zlen_nonneg xs). rewrite read_many_step by lia.
    cbn [map concat]. rewrite <- app_assoc, slice_from_app by (symmetry; exact Hc). rewrite P. cbn [bind].
    rewrite (app_assoc pre). rewrite (IH fuel (pre ++ w x') rest) by (try (rewrite zlen_app); lia). reflexivity.
Qed.

Lemma first_bad {A} (P : A -> Prop) (dec : forall a, P a \/ ~ P a) l :
  Forall P l \/ exists xs x zs, l = xs ++ x :: zs /\ Forall P xs /\ ~ P x.
Proof.
  induction l as [|a l [F|[xs [x [zs [-> [F N]]]]]]]; [left; constructor| |].
  - destruct (dec a); [left; constructor; assumption|]. right. exists [], a, l. auto.
  - destruct (dec a); [right; exists (a :: xs), x, zs; auto|]. right. exists [], a, (xs ++ x :: zs). auto.
Qed.

Lemma TxIn_parse_big name net i rest : get_network name = Ok net -> input_ok i -> parsable_in name i -> ~ in_size i ->
  TxIn_from_bytes net (input_wire i ++ rest) = Err ValueError.
Proof.
  intros En O [R K] S. pose proof O as [O1 [O2 [O3 O4]]]. norm_spec. unfold in_size in S. norm_spec.
  unfold input_wire, string_wire. rewrite <- !app_assoc. norm_spec.
  change (outpoint_wire i) with (op_bytes (op_of i)). rewrite TxIn_parse_fields; [|apply op_of_obj, O|exact O3|exact O4|apply (readable_spec name); assumption].
  match goal with |- bind ?x _ = _ => assert (exists a b, x = Ok (a, b) /\ a ++ b = in_script i) as [a [b [E AB]]] end.
  { destruct (leqb_spec (in_script i) []) as [Z|N]; [exists [], []; split; [reflexivity|symmetry; exact Z]|].
    destruct (leqb_spec (op_bytes (op_of i)) (zrepeat 0 32 ++ zrepeat 255 4)) as [Z|M].
    - exists (in_script i), []. split; [reflexivity|apply app_nil_r].
    - destruct K as [[C1 C2]|K]; [|apply (kept_split name net _ En K N)].
      exfalso. apply M. cbn [op_of op_bytes]. rewrite C1, C2. reflexivity. }
  rewrite E. cbn [bind]. rewrite TxIn_spec, AB. destruct (Z.leb_spec (zlen (in_script i)) 1650); [lia|]. rewrite andb_false_r. reflexivity.
Qed.

Lemma TxOut_parse_big net o rest : output_ok o -> 252 <= len (out_script o) ->
  TxOut_from_bytes net (output_wire o ++ rest) = Err (if compact_only net && (253 <=? len (out_script o)) && (len (out_script o) <=? 255) then ValueError else NotImplementedError).
Proof.
  intros [A B] L. norm_spec. unfold TxOut_from_bytes, output_wire, string_wire. rewrite <- !app_assoc, slice_from_app by exact A. norm_spec.
  rewrite (VarInt_parse_any net _ (zlen (out_script o))) by (apply compactsize_is_encoding; lia).
  rewrite leqb_refl. cbn [negb orb]. rewrite <- andb_assoc. destruct (compact_only net && _); [reflexivity|]. cbn [bind vi_number].
  destruct (Z.ltb_spec (zlen (out_script o)) 0xfc); [lia|reflexivity].
Qed.

Lemma ins_parse name net ins : get_network name = Ok net -> Forall input_ok ins -> Forall in_size ins -> Forall (parsable_in name) ins ->
  exists ins', Forall2 (fun i i' => (forall r, TxIn_from_bytes net (input_wire i ++ r) = Ok i') /\ zlen (ti_bytes i') = zlen (input_wire i)) ins ins'.
Proof.
  intros En Fo Fs Fp. destruct (objects (fun i => input_ok i /\ in_size i) txin_obj the_input (fun a X => input_object a (proj1 X) (proj2 X)) ins) as [xs [Fx Ex]].
  { rewrite Forall_forall in *. auto. }
  subst ins. destruct (parsable_ins name net xs En Fx Fp) as [ins' [F2 _]]. exists ins'. clear Fo Fs Fp.
  induction F2 as [|i i' xs ins' [P S] F2 IH]; [constructor|]. inversion Fx as [|? ? Ox Fx']; subst.
  cbn [map]. constructor; [|apply IH, Fx']. destruct (txin_wire i Ox) as [W _]. rewrite <- W. auto.
Qed.

Lemma outs_parse net outs : Forall output_ok outs -> Forall (fun o => len (out_script o) < 252) outs ->
  exists outs', Forall2 (fun o o' => (forall r, TxOut_from_bytes net (output_wire o ++ r) = Ok o') /\ zlen (to_bytes_ o') = zlen (output_wire o)) outs outs'.
Proof.
  intros Fo Fs. destruct (objects _ _ _ output_object outs Fo) as [xs [Fx Ex]]. exists xs. subst outs.
  induction Fx as [|o xs Ox Fx IH]; [constructor|]. cbn [map] in *. inversion Fs as [|? ? So Fs']; subst. inversion Fo; subst.
  constructor; [|apply IH; assumption]. destruct (txout_wire o Ox) as [W _]. rewrite <- W. split; [|reflexivity].
  intros r. apply TxOut_parse; [exact Ox|exact So].
Qed.

Lemma length_le_wire {A} (w : A -> bytes) l : (forall a, 1 <= zlen (w a)) -> (length l <= length (concat (map w l)))%nat.
Proof. intros P. apply length_concat_ge. auto. Qed.
Lemma string_wire_pos s : 1 <= zlen (string_wire s).
Proof. unfold string_wire. rewrite zlen_app. pose proof (zlen_compactsize_pos (len s)). pose proof (zlen_nonneg s). lia. Qed.
Lemma input_wire_pos i : 1 <= zlen (input_wire i).
Proof.
  unfold input_wire. rewrite !zlen_app. pose proof (string_wire_pos (in_script i)). pose proof (zlen_nonneg (outpoint_wire i)).
  pose proof (zlen_nonneg (in_sequence i)). lia.
Qed.
Lemma output_wire_pos o : 1 <= zlen (output_wire o).
Proof. unfold output_wire. rewrite !zlen_app. pose proof (string_wire_pos (out_script o)). pose proof (zlen_nonneg (out_value o)). lia. Qed.

Lemma wire_tx_parse_err name net tr rest : get_network name = Ok net -> transaction_ok tr -> kept_tx name tr ->
  ~ (Forall in_size (t_ins tr) /\ Forall (fun o => len (out_script o) < 252) (t_outs tr)) ->
  exists e, Tx_from_bytes H net (wire_tx tr ++ rest) = Err e.
Proof.
  intros En [A1 [A2 [A3 [A4 [A5 [A6 A7]]]]]] [R1 [R2 [Pi Pw]]] N. norm_count. norm_spec.
  set (k := match t_witness tr with Some _ => 6 | None => 4 end).
  set (pre := t_version tr ++ match t_witness tr with Some _ => marker_and_flag | None => [] end).
  set (tail := (match t_witness tr with Some ws => concat (map stack_wire ws) | None => [] end) ++ t_lock tr ++ rest).
  assert (wire_tx tr ++ rest = pre ++ vector_wire input_wire (t_ins tr) ++ vector_wire output_wire (t_outs tr) ++ tail) as E.
  { unfold wire_tx, pre, tail. rewrite <- !app_assoc. reflexivity. }
  assert (zlen pre = k) as K by (unfold pre, k; rewrite zlen_app, A1; destruct (t_witness tr); reflexivity).
  unfold Tx_from_bytes. rewrite (segwit_flag name) by exact En.
  assert (leqb (slice (wire_tx tr ++ rest) 4 6) marker_and_flag = match t_witness tr with Some _ => true | None => false end) as Ef.
  { rewrite E. unfold pre. destruct (t_witness tr); rewrite <- !app_assoc; cbn [app].
    - apply (flagged_head (t_version tr)), A1.
    - unfold vector_wire at 1. rewrite <- app_assoc. apply (legacy_head (t_version tr)); [exact A1|norm_count; lia]. }
  rewrite Ef.
  match goal with |- context [if match t_witness tr with Some _ => true | None => false end then (6, ?x) else (4, ?y)] =>
    assert (exists f, (if match t_witness tr with Some _ => true | None => false end then (6, x) else (4, y)) = (k, f)) as [f ->] by (unfold k; destruct (t_witness tr); eexists; reflexivity) end.
  rewrite E. rewrite slice_from_app by exact K. unfold vector_wire at 1. rewrite <- app_assoc. norm_count.
  pose proof (readable_spec name net _ En R1) as R1'. pose proof (readable_spec name net _ En R2) as R2'.
  rewrite VarInt_roundtrip by (try assumption; lia). cbn [bind vi_number vi_bytes].
  set (bs := pre ++ vector_wire input_wire (t_ins tr) ++ vector_wire output_wire (t_outs tr) ++ tail) in *.
  assert (length (t_ins tr) <= length bs)%nat as Fu1.
  { unfold bs, vector_wire. rewrite !app_length. pose proof (length_le_wire _ (t_ins tr) input_wire_pos). lia. }
  assert (length (t_outs tr) <= length bs)%nat as Fu2.
  { unfold bs, vector_wire. rewrite !app_length. pose proof (length_le_wire _ (t_outs tr) output_wire_pos). lia. }
  destruct (first_bad in_size) with (l := t_ins tr) as [Fs|[xs [x [zs [Ex [Fx Nx]]]]]].
  { intros a. unfold in_size. lia. }
  2: { (* an oversized scriptSig *)
    assert (incl xs (t_ins tr)) as I1 by (rewrite Ex; intros a Ia; apply in_or_app; auto).
    assert (In x (t_ins tr)) as I2 by (rewrite Ex; apply in_or_app; right; left; reflexivity).
    rewrite Forall_forall in A5, Pi.
    destruct (ins_parse name net xs) as [ys Y]; [exact En|apply Forall_forall; auto|exact Fx|apply Forall_forall; auto|].
    exists ValueError.
    assert (bs = (pre ++ compactsize (zlen (t_ins tr))) ++ concat (map input_wire xs) ++ input_wire x ++
      (concat (map input_wire zs) ++ vector_wire output_wire (t_outs tr) ++ tail)) as Eb.
    { unfold bs, vector_wire at 1. norm_count. rewrite Ex at 2. rewrite map_app, concat_app. cbn [map concat]. rewrite <- !app_assoc. reflexivity. }
    rewrite Eb at 2.
    rewrite (read_many_err _ _ input_wire xs ys x ValueError Y); [reflexivity| | | |].
    - intros r. apply (TxIn_parse_big name); auto.
    - rewrite Ex in Fu1. rewrite app_length in Fu1. cbn [length] in Fu1. lia.
    - rewrite Ex, zlen_app, zlen_cons. pose proof (zlen_nonneg zs). lia.
    - rewrite zlen_app. lia. }
  destruct (ins_parse name net (t_ins tr) En A5 Fs Pi) as [ins' Fi].
  assert (bs = (pre ++ compactsize (zlen (t_ins tr))) ++ concat (map input_wire (t_ins tr)) ++ vector_wire output_wire (t_outs tr) ++ tail) as Eb.
  { unfold bs, vector_wire at 1. norm_count. rewrite <- !app_assoc. reflexivity. }
  set (c2 := k + zlen (compactsize (zlen (t_ins tr))) + zlen (concat (map input_wire (t_ins tr)))).
  assert (read_many (TxIn_from_bytes net) (fun i => zlen (ti_bytes i)) (Datatypes.S (length bs)) bs (zlen (t_ins tr))
            (k + zlen (compactsize (zlen (t_ins tr)))) = Ok (ins', c2)) as RM.
  { rewrite Eb at 2. rewrite (read_many_ok _ _ input_wire _ _ Fi); [reflexivity|lia|reflexivity|rewrite zlen_app; lia]. }
  rewrite RM. cbn [bind].
  assert (slice_from bs c2 = vector_wire output_wire (t_outs tr) ++ tail) as Es.
  { rewrite Eb. rewrite (app_assoc (pre ++ _)), slice_from_app; [reflexivity|]. rewrite !zlen_app. unfold c2. lia. }
  rewrite Es. unfold vector_wire at 1. rewrite <- app_assoc. norm_count.
  rewrite VarInt_roundtrip by (try assumption; lia). cbn [bind vi_number vi_bytes].
  destruct (first_bad (fun o => len (out_script o) < 252)) with (l := t_outs tr) as [Fo|[xs [x [zs [Ex [Fx Nx]]]]]].
  { intros a. lia. }
  { exfalso. apply N. auto. }
  assert (incl xs (t_outs tr)) as I1 by (rewrite Ex; intros a Ia; apply in_or_app; auto).
  assert (In x (t_outs tr)) as I2 by (rewrite Ex; apply in_or_app; right; left; reflexivity).
  rewrite Forall_forall in A6.
  destruct (outs_parse net xs) as [ys Y]; [apply Forall_forall; auto|exact Fx|].
  pose proof (fun r => TxOut_parse_big net x r (A6 x I2) ltac:(lia)) as Bx.
  eexists.
  assert (bs = ((pre ++ compactsize (zlen (t_ins tr))) ++ concat (map input_wire (t_ins tr)) ++ compactsize (zlen (t_outs tr))) ++ concat (map output_wire xs) ++ output_wire x ++
      (concat (map output_wire zs) ++ tail)) as Eb2.
  { rewrite Eb. unfold vector_wire at 1. norm_count. rewrite Ex at 2. rewrite map_app, concat_app. cbn [map concat]. rewrite <- !app_assoc. reflexivity. }
  rewrite Eb2 at 2.
  rewrite (read_many_err _ _ output_wire xs ys x _ Y Bx); [reflexivity| | |].
  - rewrite Ex in Fu2. rewrite app_length in Fu2. cbn [length] in Fu2. lia.
  - rewrite Ex, zlen_app, zlen_cons. pose proof (zlen_nonneg zs). lia.
  - rewrite !zlen_app. unfold c2. lia.
Qed.

Theorem wire_tx_parse name net tr rest : get_network name = Ok net -> transaction_ok tr -> bip144 tr -> kept_tx name tr ->
  ((exists t, Tx_from_bytes H net (wire_tx tr ++ rest) = Ok t) <->
   (Forall in_size (t_ins tr) /\ Forall (fun o => len (out_script o) < 252) (t_outs tr))) /\
  forall t, Tx_from_bytes H net (wire_tx tr ++ rest) = Ok t ->
    tx_obj H net t /\ the_tx t = tr /\ tx_bytes t = wire_tx tr.
Proof.
  intros En O B K.
  destruct (first_bad in_size) with (l := t_ins tr) as [Fs|[xs [x [zs [Ex [Fx Nx]]]]]]; [intros a; unfold in_size; lia| |].
  1: destruct (first_bad (fun o => len (out_script o) < 252)) with (l := t_outs tr) as [Fo|[xs [x [zs [Ex [Fx Nx]]]]]]; [intros a; lia| |].
  - destruct (tx_object name net tr En O B Fs) as [t0 [T0 E0]].
    destruct (tx_wire H name net t0 En T0) as [W _]. rewrite E0 in W.
    destruct (tx_parse H name net t0 rest En T0) as [t' [P1 [P2 [P3 [P4 [P5 P6]]]]]].
    + rewrite E0. split; assumption.
    + left. rewrite E0. exact B.
    + rewrite W in P1. rewrite P1. split; [split; [auto|eauto]|]. intros t Et. apply Ok_inj in Et. subst t'.
      split; [exact P2|]. split; [rewrite P3; exact E0|]. rewrite P5. exact W.
  - assert (~ (Forall in_size (t_ins tr) /\ Forall (fun o => len (out_script o) < 252) (t_outs tr))) as Bad.
    { intros [_ F]. rewrite Ex in F. apply Forall_app in F. destruct F as [_ F]. inversion F; subst; contradiction. }
    destruct (wire_tx_parse_err name net tr rest En O K Bad) as [e ->]. split; [split; [intros [t E]; discriminate|contradiction]|discriminate].
  - assert (~ (Forall in_size (t_ins tr) /\ Forall (fun o => len (out_script o) < 252) (t_outs tr))) as Bad.
    { intros [F _]. rewrite Ex in F. apply Forall_app in F. destruct F as [_ F]. inversion F; subst; contradiction. }
    destruct (wire_tx_parse_err name net tr rest En O K Bad) as [e ->]. split; [split; [intros [t E]; discriminate|contradiction]|discriminate].
Qed.

(** * identifiers *)

Lemma tx_ids name net t : get_network name = Ok net -> tx_obj H net t ->
  tx_tx_id_le t = hash256 H net (wire_tx (stripped (the_tx t))) /\
  tx_tx_id t = rev (hash256 H net (wire_tx (stripped (the_tx t)))) /\
  tx_wtx_id_le t = match tx_flag t with Some _ => Some (hash256 H net (wire_tx (the_tx t))) | None => None end /\
  tx_wtx_id t = match tx_flag t with Some _ => Some (rev (hash256 H net (wire_tx (the_tx t)))) | None => None end.
Proof.
  intros En O. destruct (tx_wire H name net t En O) as [W _]. apply tx_obj_iff in O. destruct O as [Fi [Fo [Fw [A E]]]].
  assert (tx_args_ok net (tx_version t) None (tx_tx_ins t) (tx_tx_outs t) None (tx_lock_time t) = true) as A'.
  { unfold tx_args_ok in *. rewrite !andb_true_iff in *. tauto. }
  destruct (body_wire net _ None _ _ None _ name En A' Fi Fo I) as [B _].
  assert (tx_flag t = None -> wire_tx (stripped (the_tx t)) = wire_tx (the_tx t)) as S.
  { intros F. unfold the_tx. rewrite F. reflexivity. }
  fold (stripped (the_tx t)) in B. change (body None (tx_version t) (tx_tx_ins t) (tx_tx_outs t) None (tx_lock_time t) = wire_tx (stripped (the_tx t))) in B.
  rewrite <- B, <- W.
  assert (tx_flag t = None -> body None (tx_version t) (tx_tx_ins t) (tx_tx_outs t) None (tx_lock_time t) = tx_bytes t) as S'.
  { intros F. rewrite B, W. auto. }
  pose proof (f_equal tx_bytes E) as Eb. pose proof (f_equal tx_tx_id_le E) as E1. pose proof (f_equal tx_tx_id E) as E2.
  pose proof (f_equal tx_wtx_id_le E) as E3. pose proof (f_equal tx_wtx_id E) as E4.
  cbn [tx_of tx_bytes tx_tx_id_le tx_tx_id tx_wtx_id_le tx_wtx_id] in Eb, E1, E2, E3, E4. unfold change_endianness in *.
  rewrite E1, E2, E3, E4, <- Eb. destruct (tx_flag t) eqn:F; [auto|]. rewrite S' by reflexivity. auto.
Qed.

Lemma txid_binding name net t u : get_network name = Ok net -> tx_obj H net t -> tx_obj H net u -> tx_tx_id t = tx_tx_id u ->
  stripped (the_tx t) = stripped (the_tx u) \/
  (wire_tx (stripped (the_tx t)) <> wire_tx (stripped (the_tx u)) /\
   hash256 H net (wire_tx (stripped (the_tx t))) = hash256 H net (wire_tx (stripped (the_tx u)))).
Proof.
  intros En Ot Ou E. destruct (tx_ids name net t En Ot) as [_ [It _]]. destruct (tx_ids name net u En Ou) as [_ [Iu _]].
  rewrite It, Iu in E. apply (f_equal (@rev Z)) in E. rewrite !rev_involutive in E.
  destruct (tx_wire H name net t En Ot) as [_ Kt]. destruct (tx_wire H name net u En Ou) as [_ Ku].
  destruct (list_eq_dec Z.eq_dec (wire_tx (stripped (the_tx t))) (wire_tx (stripped (the_tx u)))) as [W|N]; [left|right; auto].
  destruct (stripped_ok _ Kt), (stripped_ok _ Ku). apply wire_tx_inj; assumption.
Qed.

Lemma wtxid_binding name net t u : get_network name = Ok net -> tx_obj H net t -> tx_obj H net u ->
  bip144 (the_tx t) -> bip144 (the_tx u) -> tx_flag t <> None -> tx_flag u <> None -> tx_wtx_id t = tx_wtx_id u ->
  the_tx t = the_tx u \/
  (wire_tx (the_tx t) <> wire_tx (the_tx u) /\ hash256 H net (wire_tx (the_tx t)) = hash256 H net (wire_tx (the_tx u))).
Proof.
  intros En Ot Ou Bt Bu Nt Nu E. destruct (tx_ids name net t En Ot) as [_ [_ [_ It]]]. destruct (tx_ids name net u En Ou) as [_ [_ [_ Iu]]].
  rewrite It, Iu in E. destruct (tx_flag t); [|contradiction]. destruct (tx_flag u); [|contradiction].
  injection E as E. apply (f_equal (@rev Z)) in E. rewrite !rev_involutive in E.
  destruct (tx_wire H name net t En Ot) as [_ Kt]. destruct (tx_wire H name net u En Ou) as [_ Ku].
  destruct (list_eq_dec Z.eq_dec (wire_tx (the_tx t)) (wire_tx (the_tx u))) as [W|N]; [left|right; auto].
  apply wire_tx_inj; assumption.
Qed.
End Tx.
