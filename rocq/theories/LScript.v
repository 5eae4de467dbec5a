(* Lemmas about MScript.v *)
From Coq Require Import String.
From Verif Require Import Py LBase MNet MUtils MScript SNum SNet SScript LNet LUtils.
Open Scope list_scope.
Open Scope Z_scope.
Ltac Zify.zify_post_hook ::= idtac.

(** * words *)

Lemma split_ws_aux_word w t cur : Forall (fun c => py_space c = false) w ->
  split_ws_aux (w ++ t) cur = split_ws_aux t (rev w ++ cur).
Proof.
  revert cur. induction w as [|c w IH]; intros cur F; [reflexivity|].
  inversion F as [|? ? E F']; subst. cbn [app split_ws_aux]. rewrite E, IH by exact F'.
  cbn [rev]. rewrite <- app_assoc. reflexivity.
Qed.

Lemma split_ws_aux_spaces sep t : Forall (fun c => py_space c = true) sep -> split_ws_aux (sep ++ t) [] = split_ws_aux t [].
Proof.
  intros F. induction sep as [|c sep IH]; [reflexivity|].
  inversion F as [|? ? E F']; subst. cbn [app split_ws_aux]. rewrite E. apply IH, F'.
Qed.

Lemma words_split ws s : words ws s -> split_ws s = ws.
Proof.
  unfold split_ws. induction 1 as [s F|sep w rest ws Fs Ne Fw W IH C].
  - rewrite <- (app_nil_r s), split_ws_aux_spaces by exact F. reflexivity.
  - rewrite split_ws_aux_spaces, split_ws_aux_word by assumption. rewrite app_nil_r.
    destruct rest as [|c rest].
    + cbn [split_ws_aux] in *. subst ws. destruct (rev w) as [|x r] eqn:R.
      * apply (f_equal (@rev Z)) in R. rewrite rev_involutive in R. contradiction.
      * rewrite <- R, rev_involutive. reflexivity.
    + cbn [split_ws_aux] in IH |- *. rewrite (C c rest eq_refl) in IH |- *.
      destruct (rev w) as [|x r] eqn:R.
      * apply (f_equal (@rev Z)) in R. rewrite rev_involutive in R. contradiction.
      * rewrite <- R, rev_involutive, IH. reflexivity.
Qed.

Definition nonempty (w : str) : bool := negb (leqb w []).

Lemma split_ws_join ws : Forall (Forall (fun c => py_space c = false)) ws ->
  split_ws (join (lit " ") ws) = filter nonempty ws.
Proof.
  unfold split_ws. induction ws as [|w ws IH]; intros F; [reflexivity|].
  inversion F as [|? ? Fw F']; subst. specialize (IH F').
  assert (forall t, split_ws_aux t [] = filter nonempty ws ->
    (t = [] \/ exists t', t = 32 :: t' /\ split_ws_aux t' [] = filter nonempty ws) ->
    split_ws_aux (w ++ t) [] = filter nonempty (w :: ws)) as G.
  { intros t Et Ht. rewrite split_ws_aux_word, app_nil_r by exact Fw. cbn [filter]. unfold nonempty at 1.
    destruct w as [|c w].
    - cbn [rev leqb negb app]. exact Et.
    - cbn [leqb negb]. destruct (rev (c :: w)) as [|x r] eqn:R.
      + apply (f_equal (@rev Z)) in R. rewrite rev_involutive in R. discriminate.
      + destruct Ht as [->|[t' [-> E']]].
        * cbn [split_ws_aux] in Et |- *. rewrite <- Et, <- R, rev_involutive. reflexivity.
        * cbn [split_ws_aux]. change (py_space 32) with true. cbn iota. rewrite E', <- R, rev_involutive. reflexivity. }
  destruct ws as [|w' ws].
  - cbn [join]. rewrite <- (app_nil_r w) at 1. apply G; [reflexivity|left; reflexivity].
  - change (join (lit " ") (w :: w' :: ws)) with (w ++ lit " " ++ join (lit " ") (w' :: ws)).
    change (lit " " ++ join (lit " ") (w' :: ws)) with (32 :: join (lit " ") (w' :: ws)).
    apply G; [exact IH|right; eauto].
Qed.

Lemma hex_chars d : is_bytes d -> Forall (fun c => 48 <= c <= 57 \/ 97 <= c <= 102) (hex d).
Proof.
  induction d as [|b d IH]; intros B; [constructor|]. inversion B as [|? ? Hb B']; subst. unfold is_byte in Hb.
  cbn [hex]. constructor; [|constructor; [|apply IH, B']].
  - apply hexdigit_range. split; [apply Z.div_pos; lia|apply Z.div_lt_upper_bound; lia].
  - apply hexdigit_range. apply Z.mod_pos_bound. lia.
Qed.

Lemma hex_no_space d : is_bytes d -> Forall (fun c => py_space c = false) (hex d).
Proof.
  intros B. eapply Forall_impl; [|apply hex_chars, B]. intros c Hc. unfold py_space.
  destruct Hc; lia.
Qed.

(** * opcode tables *)

Definition opcodes_b (name : str) : list (Z * str) := if str_mem name decred_names then decred_opcodes else bitcoin_opcodes.
Lemma opcodes_of_b name : opcodes_of name = opcodes_b name.
Proof.
  unfold opcodes_of, opcodes_b. destruct in_dec as [I|N].
  - apply str_mem_In in I. rewrite I. reflexivity.
  - destruct (str_mem name decred_names) eqn:E; [|reflexivity]. apply str_mem_In in E. contradiction.
Qed.

Definition opname (net : network) (c : Z) : res str :=
  match assoc_z c (INT_TO_CODE_OVERWRITE net) with
  | Some w => Ok w
  | None => match INT_TO_CODE c with Some w => Ok w | None => Err ValueError end
  end.

Definition res_str_eqb (a : res bytes) (b : bytes) : bool := match a with Ok x => leqb x b | Err _ => false end.

Definition op_goodb (net : network) (c : Z) (n : str) : bool :=
  res_str_eqb (opname net c) n &&
  (if c =? 171 then true else res_str_eqb (serialize_token net n) [c]) &&
  forallb (fun x => negb (py_space x)) n && negb (leqb n []) && (0 <=? c) && (c <? 256) &&
  ((c =? 0) || (79 <=? c)).

Lemma op_good name net c n : get_network name = Ok net -> In (c, n) (opcodes_of name) -> op_goodb net c n = true.
Proof.
  intros En I. rewrite opcodes_of_b in I.
  assert (forallb (fun o => op_goodb net (fst o) (snd o)) (opcodes_b name) = true) as F.
  { revert name net En I. intros name net En _. revert name net En.
    apply (supported_forall (fun s t => forallb (fun o => op_goodb t (fst o) (snd o)) (opcodes_b s))).
    vm_compute. reflexivity. }
  rewrite forallb_forall in F. exact (F (c, n) I).
Qed.

Record op_facts (net : network) (c : Z) (n : str) : Prop := {
  op_name : opname net c = Ok n;
  op_serial : c <> 171 -> serialize_token net n = Ok [c];
  op_space : Forall (fun x => py_space x = false) n;
  op_ne : n <> [];
  op_range : 0 <= c < 256;
  op_nopush : c = 0 \/ 79 <= c }.

Lemma op_facts_of name net c n : get_network name = Ok net -> In (c, n) (opcodes_of name) -> op_facts net c n.
Proof.
  intros En I. pose proof (op_good name net c n En I) as B. unfold op_goodb in B. rewrite !andb_true_iff in B.
  destruct B as [[[[[[B1 B2] B3] B4] B5] B6] B7]. split; try lia.
  - unfold res_str_eqb in B1. destruct (opname net c); [|discriminate]. apply leqb_eq in B1. subst. reflexivity.
  - intros N. destruct (Z.eqb_spec c 171); [contradiction|]. unfold res_str_eqb in B2.
    destruct (serialize_token net n); [|discriminate]. apply leqb_eq in B2. subst. reflexivity.
  - apply Forall_forall. intros x Hx. rewrite forallb_forall in B3. specialize (B3 x Hx).
    apply negb_true_iff in B3. exact B3.
  - intros ->. discriminate B4.
Qed.

(* the name of each byte is the one in the table *)
Lemma opname_exact name net c : get_network name = Ok net -> 0 <= c < 256 -> c = 0 \/ 79 <= c ->
  (exists n, opname net c = Ok n /\ In (c, n) (opcodes_of name)) \/
  (opname net c = Err ValueError /\ forall n, ~ In (c, n) (opcodes_of name)).
Proof.
  intros En R NP.
  assert (match opname net c with
          | Ok n => existsb (fun o => (fst o =? c) && leqb (snd o) n) (opcodes_of name)
          | Err ValueError => true
          | _ => false end = true) as B.
  { rewrite opcodes_of_b.
    assert (forallb (fun k => let c := Z.of_nat k in ((1 <=? c) && (c <=? 78)) ||
        match opname net c with
          | Ok n => existsb (fun o => (fst o =? c) && leqb (snd o) n) (opcodes_b name)
          | Err ValueError => true
          | _ => false end) (seq 0 256) = true) as F.
    { revert name net En.
      apply (supported_forall (fun s t => forallb (fun k => let c := Z.of_nat k in ((1 <=? c) && (c <=? 78)) ||
        match opname t c with
          | Ok n => existsb (fun o => (fst o =? c) && leqb (snd o) n) (opcodes_b s)
          | Err ValueError => true
          | _ => false end) (seq 0 256))). vm_compute. reflexivity. }
    rewrite forallb_forall in F. specialize (F (Z.to_nat c)). cbv zeta in F. rewrite Z2Nat.id in F by lia.
    assert (In (Z.to_nat c) (seq 0 256)) as I by (apply in_seq; lia). specialize (F I).
    apply orb_true_iff in F. destruct F as [F|F]; [lia|exact F]. }
  destruct (opname net c) as [n|e] eqn:E.
  - left. exists n. split; [reflexivity|]. apply existsb_exists in B. destruct B as [[c' n'] [I B]]. cbn [fst snd] in B.
    apply andb_true_iff in B. destruct B as [B1 B2]. apply leqb_eq in B2. apply Z.eqb_eq in B1. subst. exact I.
  - right. destruct e; try discriminate B. split; [reflexivity|]. intros n I.
    pose proof (op_name _ _ _ (op_facts_of _ _ _ _ En I)). congruence.
Qed.

(* names begin with a letter that is not a hex digit *)
Lemma table_head t v : assoc_str t OPCODE_LIST = Some v -> hd 0 t = 79.
Proof.
  intros E. apply assoc_str_In in E.
  assert (forallb (fun o => hd 0 (fst o) =? 79) OPCODE_LIST = true) as F by (vm_compute; reflexivity).
  rewrite forallb_forall in F. specialize (F _ E). cbn [fst] in F. apply Z.eqb_eq, F.
Qed.

Lemma overwrite_head name net t v : get_network name = Ok net -> assoc_str t (CODE_TO_INT_OVERWRITE net) = Some v -> hd 0 t = 79.
Proof.
  intros En E. apply assoc_str_In in E.
  assert (forallb (fun o => hd 0 (fst o) =? 79) (CODE_TO_INT_OVERWRITE net) = true) as F.
  { revert En. apply (supported_forall (fun _ n => forallb (fun o => hd 0 (fst o) =? 79) (CODE_TO_INT_OVERWRITE n))).
    vm_compute. reflexivity. }
  rewrite forallb_forall in F. specialize (F _ E). cbn [fst] in F. apply Z.eqb_eq, F.
Qed.

Lemma leqb_false a b : a <> b -> leqb a b = false.
Proof. intros N. destruct (leqb_spec a b); [contradiction|reflexivity]. Qed.

Lemma serialize_token_hex name net t : get_network name = Ok net -> hd 0 t <> 79 ->
  serialize_token net t = (b <- fromhex t ;; serialize_push b).
Proof.
  intros En N. unfold serialize_token.
  rewrite (leqb_false t (lit "OP_CODESEPARATOR")), (leqb_false t (lit "OP_PUSHDATA4"))
    by (intros ->; apply N; reflexivity). cbn [orb].
  destruct (assoc_str t (CODE_TO_INT_OVERWRITE net)) eqn:E1.
  { exfalso. apply N. eapply overwrite_head; eassumption. }
  unfold CODE_TO_INT. destruct (assoc_str t OPCODE_LIST) eqn:E2.
  { exfalso. apply N. eapply table_head; eassumption. }
  reflexivity.
Qed.

(** * pushes *)

Lemma push_codes n : 1 <= n <= 75 -> code_to_int (lit "OP_PUSH_" ++ dec2 n) = Ok n.
Proof.
  intros Hn.
  assert (forallb (fun k => match code_to_int (lit "OP_PUSH_" ++ dec2 (Z.of_nat k)) with Ok v => v =? Z.of_nat k | Err _ => false end)
     (seq 1 75) = true) as F by (vm_compute; reflexivity).
  rewrite forallb_forall in F. specialize (F (Z.to_nat n)). rewrite Z2Nat.id in F by lia.
  assert (In (Z.to_nat n) (seq 1 75)) as I by (apply in_seq; lia). specialize (F I).
  destruct (code_to_int _); [|discriminate]. apply Z.eqb_eq in F. congruence.
Qed.

Lemma i2le_byte n : 1 <= n <= 255 -> i2le n = Ok [n].
Proof.
  intros Hn. destruct (i2le_Ok n ltac:(lia)) as [k [E [R M]]]. rewrite E.
  assert (k = O) as ->.
  { destruct M as [M|M]; [exact M|]. destruct k as [|k]; [reflexivity|]. exfalso.
    assert (256 ^ 1 <= 256 ^ Z.of_nat (S k)) by (apply Z.pow_le_mono_r; lia). lia. }
  cbn [to_le]. rewrite Z.mod_small by lia. reflexivity.
Qed.

Lemma serialize_push_small d : all_bytes d -> 1 <= len d <= 1000 -> serialize_push d = Ok (push (smallest d) d).
Proof.
  intros B L. norm_spec. unfold serialize_push, smallest. norm_spec.
  destruct (Z.leb_spec (zlen d) 75).
  - rewrite push_codes by lia. reflexivity.
  - destruct (Z.leb_spec (zlen d) 255).
    + rewrite i2le_byte by lia. reflexivity.
    + destruct (Z.leb_spec (zlen d) 1000); [|lia].
      rewrite i2le_padded_Ok by lia. reflexivity.
Qed.

Lemma serialize_push_0 : serialize_push [] = Err KeyError.
Proof. vm_compute. reflexivity. Qed.

Lemma serialize_push_big d : 1000 < zlen d -> serialize_push d = Err NotImplementedError.
Proof.
  intros L. unfold serialize_push. destruct (Z.leb_spec (zlen d) 75); [lia|]. destruct (Z.leb_spec (zlen d) 255); [lia|].
  destruct (Z.leb_spec (zlen d) 1000); [lia|]. reflexivity.
Qed.

Lemma hex_head d : is_bytes d -> hd 0 (hex d) <> 79.
Proof.
  intros B. pose proof (hex_chars d B) as F. destruct (hex d) as [|c t]; cbn [hd]; [lia|].
  inversion F; subst. lia.
Qed.

Lemma serialize_token_data name net d : get_network name = Ok net -> is_bytes d ->
  serialize_token net (hex d) = serialize_push d.
Proof.
  intros En B. rewrite (serialize_token_hex name) by (try exact En; apply hex_head, B).
  rewrite fromhex_hex by exact B. reflexivity.
Qed.

Lemma text_ne e name net : get_network name = Ok net -> standard_element name e -> text e <> [] /\
  Forall (fun c => py_space c = false) (text e) /\ serialize_token net (text e) = Ok (wire e).
Proof.
  intros En S. destruct e as [c n|f d]; cbn [text wire standard_element] in *.
  - destruct S as [I N]. pose proof (op_facts_of _ _ _ _ En I) as [F1 F2 F3 F4 F5 F6]. auto.
  - destruct S as [B [L ->]]. split; [|split].
    + intros Q. apply (f_equal zlen) in Q. rewrite zlen_hex, zlen_nil in Q. norm_spec. lia.
    + apply hex_no_space, B.
    + rewrite (serialize_token_data name) by assumption. apply serialize_push_small; assumption.
Qed.

Lemma mapM_map_Ok {A B C} (g : C -> A) (f : A -> res B) (h : C -> B) l :
  (forall x, In x l -> f (g x) = Ok (h x)) -> mapM f (map g l) = Ok (map h l).
Proof.
  induction l as [|x l IH]; intros F; [reflexivity|]. cbn [map mapM]. rewrite F by (left; reflexivity). cbn [bind].
  rewrite IH by (intros y Hy; apply F; right; exact Hy). reflexivity.
Qed.

(* C17: serialize *)
Lemma serialize_words name net es s : get_network name = Ok net -> Forall (standard_element name) es ->
  words (map text es) s -> serialize net s = Ok (concat (map wire es)).
Proof.
  intros En F W. unfold serialize. rewrite (words_split _ _ W).
  rewrite (mapM_map_Ok text (serialize_token net) wire); [reflexivity|].
  intros e I. rewrite Forall_forall in F. apply (text_ne e name net En), F, I.
Qed.

Lemma serialize_alias name net c n : get_network name = Ok net -> In (c, n) aliases -> serialize_token net n = Ok [c].
Proof.
  intros En I.
  assert (forallb (fun o => res_str_eqb (serialize_token net (snd o)) [fst o]) aliases = true) as F.
  { revert En. apply (supported_forall (fun _ t => forallb (fun o => res_str_eqb (serialize_token t (snd o)) [fst o]) aliases)).
    vm_compute. reflexivity. }
  rewrite forallb_forall in F. specialize (F _ I). cbn [fst snd] in F. unfold res_str_eqb in F.
  destruct (serialize_token net n); [|discriminate]. apply leqb_eq in F. subst. reflexivity.
Qed.

(** * deserialize *)

Fixpoint des (net : network) (fuel : nat) (r : bytes) : res (list str) :=
  match r with
  | [] => Ok []
  | c :: t =>
      match fuel with
      | O => Err EFuel
      | S f =>
          if c =? 171 then Err NotImplementedError
          else if (c <=? 75) && negb (c =? 0) then
            if zlen t <? c then Err IndexError
            else ws <- des net f (skipn (Z.to_nat c) t) ;; Ok (hex (firstn (Z.to_nat c) t) :: ws)
          else if c =? 76 then
            match t with
            | [] => Err IndexError
            | n :: d => ws <- des net f (skipn (Z.to_nat n) d) ;; Ok (hex (firstn (Z.to_nat n) d) :: ws)
            end
          else if c =? 77 then
            let n := from_le (firstn 2 t) in
            let d := skipn 2 t in
            ws <- des net f (skipn (Z.to_nat n) d) ;; Ok (hex (firstn (Z.to_nat n) d) :: ws)
          else if c =? 78 then Err NotImplementedError
          else w <- opname net c ;; ws <- des net f t ;; Ok (w :: ws)
      end
  end.

Lemma skipn_to_nat {A} (s : list A) i k : 0 <= i -> 0 <= k ->
  skipn (Z.to_nat (i + k)) s = skipn (Z.to_nat k) (skipn (Z.to_nat i) s).
Proof. intros. rewrite skipn_skipn. f_equal. lia. Qed.

Lemma slice_at {A} (s : list A) i a n : 0 <= i -> 0 <= a -> 0 <= n ->
  slice s (i + a) (i + a + n) = firstn (Z.to_nat n) (skipn (Z.to_nat a) (skipn (Z.to_nat i) s)).
Proof. intros. rewrite slice_firstn by lia. rewrite <- skipn_to_nat by lia. f_equal. f_equal. lia. Qed.

Lemma deserialize_loop_des net f s i : is_bytes s -> 0 <= i ->
  deserialize_loop net f s i = des net f (skipn (Z.to_nat i) s).
Proof.
  intros Bs. revert i. induction f as [|f IH]; intros i Hi.
  - cbn [deserialize_loop]. destruct (Z.leb_spec (zlen s) i) as [L|L].
    + rewrite skipn_all2 by (unfold zlen in L; lia). reflexivity.
    + destruct (skipn (Z.to_nat i) s) eqn:E; [|reflexivity].
      apply (f_equal (@length Z)) in E. rewrite skipn_length in E. cbn in E. unfold zlen in L. lia.
  - cbn [deserialize_loop]. destruct (Z.leb_spec (zlen s) i) as [L|L].
    + rewrite skipn_all2 by (unfold zlen in L; lia). reflexivity.
    + destruct (skipn (Z.to_nat i) s) as [|c t] eqn:E.
      { apply (f_equal (@length Z)) in E. rewrite skipn_length in E. cbn in E. unfold zlen in L. lia. }
      assert (is_bytes (c :: t)) as Bc by (rewrite <- E; apply is_bytes_skipn, Bs).
      inversion Bc as [|? ? Hc Bt]; subst. unfold is_byte in Hc.
      assert (index s i = Ok c) as ->.
      { rewrite <- (firstn_skipn (Z.to_nat i) s), E. apply index_app_mid. unfold zlen in *. rewrite firstn_length. lia. }
      assert (zlen s = i + 1 + zlen t) as Ls.
      { apply (f_equal zlen) in E. rewrite zlen_cons in E. unfold zlen in *. rewrite skipn_length in E. lia. }
      cbn [bind des]. destruct (c =? 171); [reflexivity|].
      destruct ((c <=? 75) && negb (c =? 0)) eqn:D.
      { rewrite slice_at by lia. rewrite E. cbn [skipn Z.to_nat Pos.to_nat Pos.iter_op Init.Nat.add].
        replace (zlen s <? i + (1 + c)) with (zlen t <? c) by (destruct (Z.ltb_spec (zlen t) c), (Z.ltb_spec (zlen s) (i + (1 + c))); try reflexivity; lia).
        destruct (zlen t <? c); [reflexivity|]. rewrite IH by lia. rewrite skipn_to_nat by lia. rewrite E.
        replace (Z.to_nat (1 + c)) with (S (Z.to_nat c)) by lia. reflexivity. }
      destruct (c =? 76).
      { destruct t as [|n d].
        - rewrite index_err by (rewrite zlen_nil in Ls; lia). reflexivity.
        - inversion Bt as [|? ? Hn Bd]; subst. unfold is_byte in Hn.
          assert (index s (i + 1) = Ok n) as ->.
          { rewrite <- (firstn_skipn (Z.to_nat i) s), E.
            replace (firstn (Z.to_nat i) s ++ c :: n :: d) with ((firstn (Z.to_nat i) s ++ [c]) ++ n :: d)
              by (rewrite <- app_assoc; reflexivity).
            apply index_app_mid. rewrite zlen_app, zlen_cons, zlen_nil. unfold zlen in *. rewrite firstn_length. lia. }
          cbn [bind]. rewrite slice_at by lia. rewrite E. change (Z.to_nat 2) with 2%nat. cbn [skipn].
          rewrite IH by lia. rewrite skipn_to_nat by lia. rewrite E.
          replace (Z.to_nat (2 + n)) with (S (S (Z.to_nat n))) by lia. reflexivity. }
      destruct (c =? 77).
      { assert (slice s (i + 1) (i + 3) = firstn 2 t) as ->.
        { replace (i + 3) with (i + 1 + 2) by lia. rewrite slice_at by lia. rewrite E. reflexivity. }
        assert (le2i (firstn 2 t) false = from_le (firstn 2 t)) as -> by reflexivity.
        assert (0 <= from_le (firstn 2 t)) as N by (apply from_le_range, is_bytes_firstn, Bt).
        cbn [bind]. rewrite slice_at by lia. rewrite E. change (Z.to_nat 3) with 3%nat.
        rewrite IH by lia. rewrite skipn_to_nat by lia. rewrite E.
        replace (Z.to_nat (3 + from_le (firstn 2 t))) with (S (S (S (Z.to_nat (from_le (firstn 2 t)))))) by lia. 
        cbn [skipn]. destruct t as [|a [|b t]]; cbn [skipn]; rewrite ?skipn_nil; reflexivity. }
      destruct (c =? 78); [reflexivity|]. unfold opname.
      rewrite IH by lia. replace (i + 1) with (i + 1) by lia. rewrite skipn_to_nat by lia. rewrite E. reflexivity.
Qed.

Lemma deserialize_des net s : is_bytes s ->
  deserialize net s = (ws <- des net (S (length s)) s ;; Ok (join (lit " ") ws)).
Proof. intros B. unfold deserialize. rewrite deserialize_loop_des by (try exact B; lia). reflexivity. Qed.

Lemma des_fuel net : forall f g r, (length r <= f)%nat -> (length r <= g)%nat -> des net f r = des net g r.
Proof.
  induction f as [|f IH]; intros g r Hf Hg.
  - destruct r; [|cbn in Hf; lia]. destruct g; reflexivity.
  - destruct r as [|c t]; [destruct g; reflexivity|]. destruct g as [|g]; [cbn in Hg; lia|].
    cbn [length] in Hf, Hg. cbn [des].
    rewrite (IH g t) by lia.
    rewrite (IH g (skipn (Z.to_nat c) t)) by (rewrite skipn_length; lia).
    cbv zeta. rewrite (IH g (skipn _ (skipn 2 t))) by (rewrite !skipn_length; lia).
    destruct t as [|n d]; [reflexivity|]. cbn [length] in Hf, Hg.
    rewrite (IH g (skipn (Z.to_nat n) d)) by (rewrite skipn_length; lia). reflexivity.
Qed.

Definition DES net r := des net (length r) r.
Lemma DES_des net f r : (length r <= f)%nat -> des net f r = DES net r.
Proof. intros. apply des_fuel; lia. Qed.

Lemma DES_cons net c t : DES net (c :: t) =
  if c =? 171 then Err NotImplementedError
  else if (c <=? 75) && negb (c =? 0) then
    if zlen t <? c then Err IndexError
    else ws <- DES net (skipn (Z.to_nat c) t) ;; Ok (hex (firstn (Z.to_nat c) t) :: ws)
  else if c =? 76 then
    match t with
    | [] => Err IndexError
    | n :: d => ws <- DES net (skipn (Z.to_nat n) d) ;; Ok (hex (firstn (Z.to_nat n) d) :: ws)
    end
  else if c =? 77 then
    let n := from_le (firstn 2 t) in
    let d := skipn 2 t in
    ws <- DES net (skipn (Z.to_nat n) d) ;; Ok (hex (firstn (Z.to_nat n) d) :: ws)
  else if c =? 78 then Err NotImplementedError
  else w <- opname net c ;; ws <- DES net t ;; Ok (w :: ws).
Proof.
  unfold DES at 1. cbn [length des].
  rewrite (DES_des net _ t) by lia.
  rewrite (DES_des net _ (skipn (Z.to_nat c) t)) by (rewrite skipn_length; lia).
  cbv zeta. rewrite (DES_des net _ (skipn _ (skipn 2 t))) by (rewrite !skipn_length; lia).
  destruct t as [|n d]; [reflexivity|]. cbn [length].
  rewrite (DES_des net _ (skipn (Z.to_nat n) d)) by (rewrite skipn_length; lia). reflexivity.
Qed.

Lemma deserialize_DES net s : is_bytes s ->
  deserialize net s = (ws <- DES net s ;; Ok (join (lit " ") ws)).
Proof. intros B. rewrite deserialize_des, DES_des by (try exact B; lia). reflexivity. Qed.

Lemma firstn_zlen_app {A} (d r : list A) : firstn (Z.to_nat (zlen d)) (d ++ r) = d.
Proof. unfold zlen. rewrite Nat2Z.id, firstn_app, Nat.sub_diag, firstn_all, app_nil_r. reflexivity. Qed.
Lemma skipn_zlen_app {A} (d r : list A) : skipn (Z.to_nat (zlen d)) (d ++ r) = r.
Proof. unfold zlen. rewrite Nat2Z.id, skipn_app, Nat.sub_diag, skipn_all. reflexivity. Qed.

Lemma from_le_le_bytes2 n : 0 <= n < 65536 -> from_le (le_bytes 2 n) = n.
Proof. intros Hn. norm_spec. rewrite le_bytes_to_le, from_to_le. apply Z.mod_small. cbn. lia. Qed.

Lemma DES_element name net e r : get_network name = Ok net -> element_ok name e ->
  DES net (wire e ++ r) = (ws <- DES net r ;; Ok (text e :: ws)).
Proof.
  intros En. destruct e as [c n|f d]; cbn [element_ok wire text].
  - intros [I N]. pose proof (op_facts_of _ _ _ _ En I) as [F1 F2 F3 F4 F5 F6].
    cbn [app]. rewrite DES_cons. destruct (Z.eqb_spec c 171); [contradiction|].
    destruct ((c <=? 75) && negb (c =? 0)) eqn:E; [lia|].
    destruct (Z.eqb_spec c 76); [lia|]. destruct (Z.eqb_spec c 77); [lia|]. destruct (Z.eqb_spec c 78); [lia|].
    rewrite F1. reflexivity.
  - unfold push_fits, push. intros [B L]. norm_spec. destruct f.
    + cbn [app]. rewrite DES_cons. destruct (Z.eqb_spec (zlen d) 171); [lia|].
      destruct ((zlen d <=? 75) && negb (zlen d =? 0)) eqn:E; [|lia].
      rewrite zlen_app. pose proof (zlen_nonneg r). destruct (Z.ltb_spec (zlen d + zlen r) (zlen d)); [lia|].
      rewrite skipn_zlen_app, firstn_zlen_app. reflexivity.
    + cbn [app]. rewrite DES_cons. cbn -[skipn firstn zlen DES Z.to_nat].
      rewrite skipn_zlen_app, firstn_zlen_app. reflexivity.
    + rewrite <- app_comm_cons, <- app_assoc, DES_cons. cbv zeta.
      pose proof (zlen_nonneg d).
      assert (firstn 2 (le_bytes 2 (zlen d) ++ d ++ r) = le_bytes 2 (zlen d)) as -> by reflexivity.
      assert (skipn 2 (le_bytes 2 (zlen d) ++ d ++ r) = d ++ r) as -> by reflexivity.
      rewrite from_le_le_bytes2 by lia. rewrite skipn_zlen_app, firstn_zlen_app. reflexivity.
Qed.

Lemma DES_elements name net es r : get_network name = Ok net -> Forall (element_ok name) es ->
  DES net (concat (map wire es) ++ r) = (ws <- DES net r ;; Ok (map text es ++ ws)).
Proof.
  intros En F. induction F as [|e es Fe F IH].
  - change (concat (map wire []) ++ r) with r. destruct (DES net r); reflexivity.
  - cbn [map concat]. rewrite <- app_assoc, (DES_element name) by assumption. rewrite IH.
    destruct (DES net r); reflexivity.
Qed.

Lemma le_bytes_is_bytes k n : is_bytes (le_bytes k n).
Proof. rewrite le_bytes_to_le. apply to_le_bytes. Qed.

Lemma wire_bytes name net e : get_network name = Ok net -> element_ok name e -> is_bytes (wire e).
Proof.
  intros En. destruct e as [c n|f d]; cbn [element_ok wire].
  - intros [I _]. pose proof (op_range _ _ _ (op_facts_of _ _ _ _ En I)). constructor; [exact H|constructor].
  - intros [B L]. unfold all_bytes in B. norm_spec. pose proof (zlen_nonneg d).
    destruct f; cbn [push].
    + constructor; [unfold is_byte; norm_spec; lia|exact B].
    + constructor; [unfold is_byte; lia|constructor; [unfold is_byte; norm_spec; lia|exact B]].
    + constructor; [unfold is_byte; lia|]. apply is_bytes_app. split; [apply le_bytes_is_bytes|exact B].
Qed.

Lemma wires_bytes name net es : get_network name = Ok net -> Forall (element_ok name) es -> is_bytes (concat (map wire es)).
Proof.
  intros En F. induction F as [|e es Fe F IH]; [constructor|]. cbn [map concat].
  apply is_bytes_app. split; [eapply wire_bytes; eassumption|exact IH].
Qed.

Lemma deserialize_wires name net es : get_network name = Ok net -> Forall (element_ok name) es ->
  deserialize net (concat (map wire es)) = Ok (join (lit " ") (map text es)).
Proof.
  intros En F. rewrite deserialize_DES by (eapply wires_bytes; eassumption).
  rewrite <- (app_nil_r (concat _)), (DES_elements name) by assumption.
  cbn [DES length des bind]. rewrite app_nil_r. reflexivity.
Qed.

Lemma standard_ok name e : standard_element name e -> element_ok name e.
Proof.
  destruct e as [c n|f d]; cbn; [auto|]. intros [B [L ->]]. split; [exact B|]. unfold smallest.
  destruct (Z.leb_spec (len d) 75); [lia|]. destruct (Z.leb_spec (len d) 255); lia.
Qed.
Lemma standard_oks name es : Forall (standard_element name) es -> Forall (element_ok name) es.
Proof. apply Forall_impl, standard_ok. Qed.

(** ** what deserialize does to any byte string *)

Inductive ending (name : str) : bytes -> res (list str) -> Prop :=
| end_nil : ending name [] (Ok [])
| end_direct : forall r d, overrun Direct r d -> ending name r (Err IndexError)
| end_nolen1 : ending name [76] (Err IndexError)
| end_1 : forall r d, r <> [76] -> overrun Pushdata1 r d -> ending name r (Ok [hex d])
| end_2 : forall r d, overrun Pushdata2 r d -> ending name r (Ok [hex d])
| end_refused : forall c t, c = 171 \/ c = 78 -> ending name (c :: t) (Err NotImplementedError)
| end_unknown : forall c t, unknown_opcode name c -> ending name (c :: t) (Err ValueError).

Lemma overrun_DES name net f r d : get_network name = Ok net -> overrun f r d -> is_bytes r ->
  DES net r = match f with Direct => Err IndexError | _ => if leqb r [76] then Err IndexError else Ok [hex d] end.
Proof.
  intros En O B. inversion O; subst; norm_spec; rewrite DES_cons.
  - destruct (Z.eqb_spec c 171); [lia|]. destruct ((c <=? 75) && negb (c =? 0)) eqn:E; [|lia].
    destruct (Z.ltb_spec (zlen d) c); [reflexivity|lia].
  - reflexivity.
  - cbn -[skipn firstn zlen DES Z.to_nat].
    rewrite skipn_all2, firstn_all2 by (unfold zlen in *; lia). reflexivity.
  - cbv zeta. assert (skipn 2 l = []) as -> by (apply skipn_all2; unfold zlen in *; lia).
    rewrite skipn_nil, firstn_nil. reflexivity.
  - cbv zeta. assert (firstn 2 (le_bytes 2 n ++ d) = le_bytes 2 n) as -> by reflexivity.
    assert (skipn 2 (le_bytes 2 n ++ d) = d) as -> by reflexivity.
    rewrite from_le_le_bytes2 by lia. rewrite (skipn_all2 (n := Z.to_nat n) d), (firstn_all2 (n := Z.to_nat n) d) by (unfold zlen in *; lia). reflexivity.
Qed.

Lemma separator_in name : In (171, lit "OP_CODESEPARATOR") (opcodes_of name).
Proof.
  rewrite opcodes_of_b. unfold opcodes_b. destruct (str_mem name decred_names);
  [assert (existsb (fun o => (fst o =? 171) && leqb (snd o) (lit "OP_CODESEPARATOR")) decred_opcodes = true) as E by (vm_compute; reflexivity)
  |assert (existsb (fun o => (fst o =? 171) && leqb (snd o) (lit "OP_CODESEPARATOR")) bitcoin_opcodes = true) as E by (vm_compute; reflexivity)];
  apply existsb_exists in E; destruct E as [[c n] [I E]]; cbn [fst snd] in E; apply andb_true_iff in E; destruct E as [E1 E2];
  apply Z.eqb_eq in E1; apply leqb_eq in E2; subst; exact I.
Qed.

Lemma ending_DES name net r out : get_network name = Ok net -> is_bytes r -> ending name r out -> DES net r = out.
Proof.
  intros En B E. inversion E as [|r' d O|  |r' d N O|r' d O|c t C|c t [R [P U]]]; subst.
  - reflexivity.
  - rewrite (overrun_DES name net _ _ _ En O B). reflexivity.
  - reflexivity.
  - rewrite (overrun_DES name net _ _ _ En O B), (leqb_false _ _ N). reflexivity.
  - rewrite (overrun_DES name net _ _ _ En O B), leqb_false; [reflexivity|]. intros ->. inversion O.
  - rewrite DES_cons. destruct C as [-> | ->]; reflexivity.
  - rewrite DES_cons. destruct (Z.eqb_spec c 171) as [->|N1].
    { exfalso. exact (U _ (separator_in name)). }
    destruct ((c <=? 75) && negb (c =? 0)) eqn:D; [lia|].
    destruct (Z.eqb_spec c 76); [lia|]. destruct (Z.eqb_spec c 77); [lia|]. destruct (Z.eqb_spec c 78); [lia|].
    destruct (opname_exact name net c En R P) as [[nn [_ I]]|[X _]]; [exfalso; exact (U nn I)|]. rewrite X. reflexivity.
Qed.

Lemma from_le_two a b : from_le [a; b] = a + 256 * b.
Proof. cbn [from_le]. lia. Qed.

Lemma le_bytes_two a b : 0 <= a < 256 -> 0 <= b < 256 -> le_bytes 2 (a + 256 * b) = [a; b].
Proof.
  intros Ha Hb. rewrite le_bytes_to_le. rewrite <- from_le_two. apply (to_from_le [a; b]).
  constructor; [exact Ha|constructor; [exact Hb|constructor]].
Qed.

Lemma decompose name net b : get_network name = Ok net -> is_bytes b ->
  exists es r out, b = concat (map wire es) ++ r /\ Forall (element_ok name) es /\ ending name r out.
Proof.
  intros En. remember (length b) as k eqn:K. assert (length b <= k)%nat as Hk by lia. clear K. revert b Hk.
  induction k as [|k IH]; intros b Hk B.
  { destruct b; [|cbn in Hk; lia]. exists [], [], (Ok []). repeat constructor. }
  destruct b as [|c t]; [exists [], [], (Ok []); repeat constructor|].
  cbn [length] in Hk. inversion B as [|? ? Hc Bt]; subst. unfold is_byte in Hc.
  assert (forall e r, element_ok name e -> c :: t = wire e ++ r -> (length r <= k)%nat ->
    exists es r out, c :: t = concat (map wire es) ++ r /\ Forall (element_ok name) es /\ ending name r out) as STEP.
  { intros e r Oe E L. assert (is_bytes r) as Br by (rewrite E in B; apply is_bytes_app in B; apply B).
    destruct (IH r L Br) as [es [r' [out [Er [F En']]]]]. exists (e :: es), r', out.
    split; [|split; [constructor; assumption|exact En']]. cbn [map concat]. rewrite <- app_assoc, <- Er. exact E. }
  assert (forall f d r, push_fits f d -> c :: t = push f d ++ r ->
    exists es r out, c :: t = concat (map wire es) ++ r /\ Forall (element_ok name) es /\ ending name r out) as PUSH.
  { intros f d r Fd E. apply (STEP (Push f d) r); [exact Fd|exact E|].
    apply (f_equal (@length Z)) in E. rewrite app_length in E. cbn [length] in E. destruct f; cbn [push length app] in E; lia. }
  assert (forall out, ending name (c :: t) out ->
    exists es r out, c :: t = concat (map wire es) ++ r /\ Forall (element_ok name) es /\ ending name r out) as STOP.
  { intros out E. exists [], (c :: t), out. split; [reflexivity|split; [constructor|exact E]]. }
  assert (forall d n, is_bytes d -> 0 <= n <= zlen d ->
    zlen (firstn (Z.to_nat n) d) = n /\ is_bytes (firstn (Z.to_nat n) d)) as CUT.
  { intros d n Bd L. split; [unfold zlen in *; rewrite firstn_length; lia|apply is_bytes_firstn, Bd]. }
  destruct (Z.eq_dec c 171) as [->|N1]; [eapply STOP, end_refused; lia|].
  destruct (Z.eq_dec c 78) as [->|N2]; [eapply STOP, end_refused; lia|].
  destruct (Z_lt_dec 0 c) as [Pc|Zc]; [destruct (Z_le_dec c 75) as [D|ND]|].
  - destruct (Z_lt_dec (zlen t) c) as [L|L].
    { eapply STOP, end_direct. apply overrun_direct; [lia|exact L]. }
    destruct (CUT t c Bt ltac:(lia)) as [C1 C2].
    apply (PUSH Direct (firstn (Z.to_nat c) t) (skipn (Z.to_nat c) t)).
    { split; [exact C2|]. norm_spec. lia. }
    cbn [push]. norm_spec. rewrite C1. cbn [app]. rewrite firstn_skipn. reflexivity.
  - destruct (Z.eq_dec c 76) as [->|N3]; [|destruct (Z.eq_dec c 77) as [->|N4]].
    + destruct t as [|n d]; [eapply STOP, end_nolen1|].
      inversion Bt as [|? ? Hn Bd]; subst. unfold is_byte in Hn.
      destruct (Z_lt_dec (zlen d) n) as [L|L].
      { eapply STOP, end_1; [discriminate|]. apply overrun_pushdata1; [lia|exact L]. }
      destruct (CUT d n Bd ltac:(lia)) as [C1 C2].
      apply (PUSH Pushdata1 (firstn (Z.to_nat n) d) (skipn (Z.to_nat n) d)).
      { split; [exact C2|]. norm_spec. lia. }
      cbn [push]. norm_spec. rewrite C1. cbn [app]. rewrite firstn_skipn. reflexivity.
    + destruct t as [|x [|y d]].
      { eapply STOP, end_2, overrun_pushdata2_nolength. cbn. lia. }
      { eapply STOP, end_2, overrun_pushdata2_nolength. cbn. lia. }
      inversion Bt as [|? ? Hx Bt']; subst. inversion Bt' as [|? ? Hy Bd]; subst. unfold is_byte in Hx, Hy.
      destruct (Z_lt_dec (zlen d) (x + 256 * y)) as [L|L].
      { eapply STOP, end_2. change (x :: y :: d) with ([x; y] ++ d). rewrite <- (le_bytes_two x y Hx Hy).
        apply overrun_pushdata2; [lia|exact L]. }
      destruct (CUT d (x + 256 * y) Bd ltac:(lia)) as [C1 C2].
      apply (PUSH Pushdata2 (firstn (Z.to_nat (x + 256 * y)) d) (skipn (Z.to_nat (x + 256 * y)) d)).
      { split; [exact C2|]. norm_spec. lia. }
      cbn [push]. norm_spec. rewrite C1, (le_bytes_two x y Hx Hy).
      rewrite <- app_comm_cons, <- app_assoc, firstn_skipn. reflexivity.
    + destruct (opname_exact name net c En ltac:(lia) ltac:(lia)) as [[n [_ I]]|[_ U]].
      * apply (STEP (Op c n) t); [split; [exact I|exact N1]|reflexivity|lia].
      * eapply STOP, end_unknown. repeat split; try lia. exact U.
  - destruct (opname_exact name net c En ltac:(lia) ltac:(lia)) as [[n [_ I]]|[_ U]].
      * apply (STEP (Op c n) t); [split; [exact I|exact N1]|reflexivity|lia].
      * eapply STOP, end_unknown. repeat split; try lia. exact U.
Qed.

Definition texts (es : list element) (out : res (list str)) : res str :=
  match out with Ok ws => Ok (join (lit " ") (map text es ++ ws)) | Err e => Err e end.

Lemma deserialize_ending name net es r out : get_network name = Ok net -> Forall (element_ok name) es ->
  is_bytes r -> ending name r out -> deserialize net (concat (map wire es) ++ r) = texts es out.
Proof.
  intros En F B E. rewrite deserialize_DES by (apply is_bytes_app; split; [eapply wires_bytes; eassumption|exact B]).
  rewrite (DES_elements name) by assumption. rewrite (ending_DES _ _ _ _ En B E). destruct out; reflexivity.
Qed.

(** * C17 *)

Lemma Forall2_mapM {A B} (f : A -> res B) l l' : Forall2 (fun a b => f a = Ok b) l l' -> mapM f l = Ok l'.
Proof. induction 1 as [|a b l l' E F IH]; [reflexivity|]. cbn [mapM]. rewrite E, IH. reflexivity. Qed.

Lemma c17 name net ts es s : get_network name = Ok net -> Forall (standard_element name) es ->
  Forall2 spelled ts es -> words ts s ->
  serialize net s = Ok (concat (map wire es)) /\
  deserialize net (concat (map wire es)) = Ok (join (lit " ") (map text es)).
Proof.
  intros En F S W. split; [|apply (deserialize_wires name); [exact En|apply standard_oks, F]].
  unfold serialize. rewrite (words_split _ _ W).
  rewrite (Forall2_mapM _ _ (map wire es)); [reflexivity|]. clear W.
  induction S as [|t e ts es Se S IH]; [constructor|]. inversion F as [|? ? Fe F']; subst.
  cbn [map]. constructor; [|apply IH, F'].
  destruct Se as [->|A]; [eapply text_ne; eassumption|]. destruct e as [c n|]; [|contradiction].
  cbn [wire]. eapply serialize_alias; eassumption.
Qed.

Lemma smallest_fits d : all_bytes d -> 1 <= len d <= 1000 -> push_fits (smallest d) d.
Proof. intros B L. apply (standard_ok [] (Push (smallest d) d)). cbn. auto. Qed.

Lemma smallest_min d f : push_fits f d -> len d <= 1000 -> len (push (smallest d) d) <= len (push f d).
Proof.
  intros [B L] M. unfold smallest. norm_spec. pose proof (zlen_nonneg d).
  assert (forall n, zlen (le_bytes 2 n ++ d) = 2 + zlen d) as Q by (intros n; reflexivity || (rewrite zlen_app; reflexivity)).
  destruct (Z.leb_spec (zlen d) 75); [|destruct (Z.leb_spec (zlen d) 255)]; destruct f; unfold push;
    rewrite ?zlen_cons, ?Q; norm_spec; lia.
Qed.

(** * C18 *)

Definition is_text (name : str) (w : str) : Prop :=
  (exists c n, In (c, n) (opcodes_of name) /\ c <> 171 /\ w = n) \/ exists d, is_bytes d /\ w = hex d.

Lemma is_text_space name net w : get_network name = Ok net -> is_text name w -> Forall (fun c => py_space c = false) w.
Proof.
  intros En [[c [n [I [N ->]]]]|[d [B ->]]]; [|apply hex_no_space, B].
  exact (op_space _ _ _ (op_facts_of _ _ _ _ En I)).
Qed.

Lemma token_standard name net w x : get_network name = Ok net -> is_text name w -> serialize_token net w = Ok x ->
  exists e, standard_element name e /\ x = wire e.
Proof.
  intros En [[c [n [I [N ->]]]]|[d [B ->]]] E.
  - rewrite (op_serial _ _ _ (op_facts_of _ _ _ _ En I) N) in E. apply Ok_inj in E. subst.
    exists (Op c n). split; [split; assumption|reflexivity].
  - rewrite (serialize_token_data name) in E by assumption.
    destruct (Z_le_dec (zlen d) 0) as [Z|NZ].
    { pose proof (zlen_nonneg d). destruct d; [|rewrite zlen_cons in Z; pose proof (zlen_nonneg d); lia].
      rewrite serialize_push_0 in E. discriminate. }
    destruct (Z_lt_dec 1000 (zlen d)) as [G|G]; [rewrite serialize_push_big in E by exact G; discriminate|].
    rewrite serialize_push_small in E by (try exact B; norm_spec; lia). apply Ok_inj in E. subst.
    exists (Push (smallest d) d). split; [|reflexivity]. split; [exact B|split; [norm_spec; lia|reflexivity]].
Qed.

Lemma tokens_standard name net ws xs : get_network name = Ok net -> Forall (is_text name) ws ->
  mapM (serialize_token net) ws = Ok xs -> exists es, Forall (standard_element name) es /\ xs = map wire es.
Proof.
  intros En F. revert xs. induction F as [|w ws Fw F IH]; intros xs E.
  - apply Ok_inj in E. subst. exists []. split; [constructor|reflexivity].
  - cbn [mapM] in E. apply bind_Ok in E. destruct E as [x [E1 E]]. apply bind_Ok in E. destruct E as [ys [E2 E]].
    apply Ok_inj in E. subst. destruct (token_standard _ _ _ _ En Fw E1) as [e [S ->]].
    destruct (IH _ E2) as [es [Fs ->]]. exists (e :: es). split; [constructor; assumption|reflexivity].
Qed.

Lemma element_text name e : element_ok name e -> is_text name (text e).
Proof.
  destruct e as [c n|f d]; cbn.
  - intros [I N]. left. eauto 6.
  - intros [B _]. right. exists d. split; [exact B|reflexivity].
Qed.

Lemma Forall_filter {A} (P : A -> Prop) f l : Forall P l -> Forall P (filter f l).
Proof. intros F. apply Forall_forall. intros x I. apply filter_In in I. rewrite Forall_forall in F. apply F, I. Qed.

Lemma serialize_texts name net ws : get_network name = Ok net -> Forall (is_text name) ws ->
  serialize net (join (lit " ") ws) = (xs <- mapM (serialize_token net) (filter nonempty ws) ;; Ok (concat xs)).
Proof.
  intros En F. unfold serialize. rewrite split_ws_join; [reflexivity|].
  eapply Forall_impl; [|exact F]. intros w. apply (is_text_space name net w En).
Qed.

Lemma ending_texts name r ws : is_bytes r -> ending name r (Ok ws) -> Forall (is_text name) ws.
Proof.
  intros B E. inversion E as [|r' d O|  |r' d N O|r' d O|c t C|c t U]; subst.
  - constructor.
  - constructor; [|constructor]. right. exists d. split; [|reflexivity]. inversion O; subst.
    + constructor.
    + inversion B as [|? ? ? B']; subst. inversion B'; assumption.
  - constructor; [|constructor]. right. exists d. split; [|reflexivity]. inversion O; subst.
    + constructor.
    + inversion B as [|? ? ? B']; subst. inversion B' as [|? ? ? B2]; subst. inversion B2; assumption.
Qed.

Lemma texts_all name es : Forall (element_ok name) es -> Forall (is_text name) (map text es).
Proof. intros F. apply Forall_map. eapply Forall_impl; [|exact F]. apply element_text. Qed.

Lemma filter_all {A} f (l : list A) : Forall (fun x => f x = true) l -> filter f l = l.
Proof. induction 1 as [|x l E F IH]; [reflexivity|]. cbn. rewrite E, IH. reflexivity. Qed.

Lemma serialize_standard name net es : get_network name = Ok net -> Forall (standard_element name) es ->
  serialize net (join (lit " ") (map text es)) = Ok (concat (map wire es)).
Proof.
  intros En F. rewrite (serialize_texts name) by (try exact En; apply texts_all, standard_oks, F).
  rewrite filter_all.
  - rewrite (mapM_map_Ok text (serialize_token net) wire); [reflexivity|].
    intros e I. rewrite Forall_forall in F. apply (text_ne e name net En), F, I.
  - apply Forall_map. eapply Forall_impl; [|exact F]. intros e Se. unfold nonempty.
    rewrite leqb_false; [reflexivity|]. eapply text_ne; eassumption.
Qed.

Lemma c18 name net b s : get_network name = Ok net -> all_bytes b -> deserialize net b = Ok s ->
  (serialize net s = Ok b <-> exists es, Forall (standard_element name) es /\ b = concat (map wire es)).
Proof.
  intros En B D. split.
  - intros S. destruct (decompose name net b En B) as [es [r [out [-> [F E]]]]].
    unfold all_bytes in B. assert (is_bytes r) as Br by (eapply is_bytes_app; exact B).
    rewrite (deserialize_ending name net es r out En F Br E) in D. destruct out as [ws|]; [|discriminate].
    cbn [texts] in D. apply Ok_inj in D. subst s.
    rewrite (serialize_texts name) in S; [|exact En|apply Forall_app; split; [apply texts_all, F|eapply ending_texts; eassumption]].
    apply bind_Ok in S. destruct S as [xs [S1 S2]]. apply Ok_inj in S2.
    apply (tokens_standard name) in S1; [|exact En|].
    + destruct S1 as [es' [F' ->]]. exists es'. split; [exact F'|]. symmetry. exact S2.
    + apply Forall_filter, Forall_app. split; [apply texts_all, F|eapply ending_texts; eassumption].
  - intros [es [F ->]]. rewrite (deserialize_wires name) in D by (try exact En; apply standard_oks, F).
    apply Ok_inj in D. subst s. apply serialize_standard with (1 := En); exact F.
Qed.

Lemma normal_texts name es : Forall (element_ok name) es ->
  Forall (fun e => match e with Push _ d => len d <= 1000 | _ => True end) es ->
  Forall (standard_element name) (concat (map normal es)) /\
  filter nonempty (map text es) = filter nonempty (map text (concat (map normal es))).
Proof.
  intros F L. induction F as [|e es Fe F IH]; [split; [constructor|reflexivity]|].
  inversion L as [|? ? Le L']; subst. destruct (IH L') as [I1 I2]. clear IH.
  cbn [map concat]. rewrite map_app, filter_app. cbn [filter]. rewrite I2.
  destruct e as [c n|f d]; cbn [normal].
  - split; [cbn [app]; constructor; [exact Fe|exact I1]|]. cbn [map filter text]. destruct (nonempty n); reflexivity.
  - destruct Fe as [B _]. norm_spec. pose proof (zlen_nonneg d). destruct (Z.eqb_spec (zlen d) 0) as [Z|NZ].
    + apply zlen_0 in Z. subst d. split; [exact I1|reflexivity].
    + split; [cbn [app]; constructor; [|exact I1]|cbn [map filter text]; destruct (nonempty (hex d)); reflexivity].
      split; [exact B|split; [norm_spec; lia|reflexivity]].
Qed.

Lemma reserialize name net es : get_network name = Ok net -> Forall (element_ok name) es ->
  Forall (fun e => match e with Push _ d => len d <= 1000 | _ => True end) es ->
  serialize net (join (lit " ") (map text es)) = Ok (concat (map wire (concat (map normal es)))).
Proof.
  intros En F L. destruct (normal_texts name es F L) as [F' Q].
  rewrite (serialize_texts name) by (try exact En; apply texts_all, F). rewrite Q.
  rewrite <- (serialize_texts name) by (try exact En; apply texts_all, standard_oks, F').
  apply serialize_standard with (1 := En); exact F'.
Qed.

(** * C19 *)

Lemma c19 name net es r f d : get_network name = Ok net -> Forall (element_ok name) es -> all_bytes r -> overrun f r d ->
  deserialize net (concat (map wire es) ++ r) =
  match f with Direct => Err IndexError
  | _ => if leqb r [76] then Err IndexError else Ok (join (lit " ") (map text es ++ [hex d])) end.
Proof.
  intros En F B O. unfold all_bytes in B.
  rewrite deserialize_DES by (apply is_bytes_app; split; [eapply wires_bytes; eassumption|exact B]).
  rewrite (DES_elements name) by assumption. rewrite (overrun_DES name net f r d En O B).
  destruct f; [reflexivity| |]; destruct (leqb r [76]); reflexivity.
Qed.

(** * C50 *)

Lemma c50_name name net c : get_network name = Ok net -> 0 <= c < 256 ->
  (exists w, deserialize net [c] = Ok w /\ w <> [] /\ In (c, w) (opcodes_of name) /\ c <> 171 /\ serialize net w = Ok [c]) \/
  (exists e, deserialize net [c] = Err e) \/ (c = 77 /\ deserialize net [c] = Ok []).
Proof.
  intros En R. assert (is_bytes [c]) as B by (constructor; [exact R|constructor]).
  destruct (Z.eq_dec c 171) as [->|N1]; [right; left; eexists; vm_compute; reflexivity|].
  destruct (Z.eq_dec c 77) as [->|N2]; [right; right; split; [reflexivity|]; vm_compute; reflexivity|].
  rewrite deserialize_DES by exact B. rewrite DES_cons. destruct (Z.eqb_spec c 171); [contradiction|].
  destruct ((c <=? 75) && negb (c =? 0)) eqn:D.
  { rewrite zlen_nil. destruct (Z.ltb_spec 0 c); [|lia]. right. left. eexists. reflexivity. }
  destruct (Z.eqb_spec c 76); [right; left; eexists; reflexivity|]. destruct (Z.eqb_spec c 77); [contradiction|].
  destruct (Z.eqb_spec c 78); [right; left; eexists; reflexivity|].
  destruct (opname_exact name net c En R ltac:(lia)) as [[n' [E I]]|[E _]]; rewrite E; [|right; left; eexists; reflexivity].
  left. exists n'. pose proof (op_facts_of _ _ _ _ En I) as [F1 F2 F3 F4 F5 F6].
  split; [reflexivity|]. split; [exact F4|]. split; [exact I|]. split; [exact N1|].
  pose proof (serialize_standard name net [Op c n'] En) as S. cbn in S.
  apply S. constructor; [split; assumption|constructor].
Qed.
