(* C93 and C94: reading byte-like objects, and the entry points that take hexadecimal
   text.  [occurs], [part_of], [digit], [hex_text] and [literal] are in SRead.v,
   [content_of] in SByteData.v, [all_bytes], [compactsize] in SNum.v. *)
From Coq Require Import String.
From Verif Require Import Py SNum SHash SScript MNet MUtils MShared MByteData MTx SByteData SRead LBase LIndex LVarint LTx LRead.
Open Scope list_scope.
Open Scope Z_scope.

(* d[i]: the byte at i, counted from the end when i is negative *)
Theorem bytedata_index : forall d i, let b := bd_to_bytes d in
  (forall x, bd_getitem d i = Ok x <-> (0 <= i /\ nth_error b (Z.to_nat i) = Some x) \/ (- len b <= i < 0 /\ nth_error b (Z.to_nat (len b + i)) = Some x)) /\
  (i < - len b \/ len b <= i -> bd_getitem d i = Err IndexError) /\
  bd_len d = len b /\ bd_iter d = b.
Proof.
  intros d i b. unfold bd_getitem, bd_to_bytes in *. subst b. split; [|split; [|split; reflexivity]].
  - intros x. unfold index. change len with (@zlen Z). set (b := bd_bytes d). pose proof (zlen_nonneg b).
    destruct (Z.ltb_spec i 0).
    + destruct (Z.ltb_spec (zlen b + i) 0); cbn [orb].
      * split; [discriminate|]. intros [[X _]|[X _]]; lia.
      * destruct (Z.leb_spec (zlen b) (zlen b + i)); [lia|]. destruct (nth_error b (Z.to_nat (zlen b + i))) as [y|] eqn:E.
        -- split; [intros X; apply Ok_inj in X; subst; right; split; [lia|first [exact E|reflexivity]]|]. intros [[X _]|[_ X]]; [lia|]. congruence.
        -- split; [discriminate|]. intros [[X _]|[_ X]]; [lia|]. congruence.
    + destruct (Z.ltb_spec i 0); [lia|]. cbn [orb]. destruct (Z.leb_spec (zlen b) i).
      * split; [discriminate|]. intros [[_ X]|[X _]]; [|lia].
        assert (nth_error b (Z.to_nat i) <> None) as Y by congruence. apply nth_error_Some in Y. unfold zlen in *. lia.
      * destruct (nth_error b (Z.to_nat i)) as [y|] eqn:E.
        -- split; [intros X; apply Ok_inj in X; subst; left; split; [lia|first [exact E|reflexivity]]|]. intros [[_ X]|[X _]]; [congruence|lia].
        -- split; [discriminate|]. intros [[_ X]|[X _]]; [congruence|lia].
  - apply index_outside.
Qed.
Print Assumptions bytedata_index.

(* d[i:j]: the bytes from i up to j; bounds outside the object count as its ends,
   negative bounds count from the end *)
Theorem bytedata_slice : forall d i j, let b := bd_to_bytes d in let n := len b in
  (0 <= i <= j -> j <= n -> part_of b i j (bd_getslice d i j)) /\
  (0 <= j <= i -> bd_getslice d i j = []) /\
  (n < i -> bd_getslice d i j = bd_getslice d n j) /\ (n < j -> bd_getslice d i j = bd_getslice d i n) /\
  (- n <= i < 0 -> bd_getslice d i j = bd_getslice d (n + i) j) /\ (- n <= j < 0 -> bd_getslice d i j = bd_getslice d i (n + j)) /\
  (i < - n -> bd_getslice d i j = bd_getslice d 0 j) /\ (j < - n -> bd_getslice d i j = bd_getslice d i 0).
Proof.
  intros d i j b n. unfold bd_getslice, bd_to_bytes in *. subst b n. change len with (@zlen Z). set (b := bd_bytes d). pose proof (zlen_nonneg b).
  split; [apply slice_part|]. split; [apply slice_nil|].
  assert (forall x y, (zlen b < x -> y = zlen b -> clampi (zlen b) x = clampi (zlen b) y) /\
    (- zlen b <= x < 0 -> y = zlen b + x -> clampi (zlen b) x = clampi (zlen b) y) /\ (x < - zlen b -> y = 0 -> clampi (zlen b) x = clampi (zlen b) y)) as C.
  { intros x y. unfold clampi. destruct (Z.ltb_spec x 0), (Z.ltb_spec y 0); repeat split; intros; lia. }
  repeat split; intros R; apply slice_clamp; try reflexivity;
    match goal with |- clampi _ ?x = clampi _ ?y => destruct (C x y) as [C1 [C2 C3]] end; first [apply C1; [exact R|reflexivity]|apply C2; [exact R|reflexivity]|apply C3; [exact R|reflexivity]].
Qed.
Print Assumptions bytedata_slice.

(* d.find(p): the first position at which p occurs, -1 when it does not occur *)
Theorem bytedata_find : forall d p, let b := bd_to_bytes d in
  (occurs p b (bd_find d p) /\ (forall k, occurs p b k -> bd_find d p <= k) /\ 0 <= bd_find d p) \/
  (bd_find d p = -1 /\ forall k, ~ occurs p b k).
Proof.
  intros d p b. unfold bd_find, find, bd_to_bytes in *. subst b. destruct (find_from_spec p (bd_bytes d) 0) as [[k [O [F M]]]|[F M]].
  - left. rewrite F. cbn [Z.add]. split; [exact O|]. split; [exact M|]. exact (occurs_nonneg _ _ _ O).
  - right. auto.
Qed.
Print Assumptions bytedata_find.
Theorem bytedata_find_object : forall d e, bd_find_object d e = bd_find d (bd_to_bytes e).
Proof. reflexivity. Qed.
Print Assumptions bytedata_find_object.

(* hex(), format and from_hex *)
Theorem bytedata_hex : forall d, all_bytes (bd_to_bytes d) ->
  len (bd_hex d) = 2 * len (bd_to_bytes d) /\ (forall c, In c (bd_hex d) -> In c (lit "0123456789abcdef")) /\
  hex_text (bd_hex d) (bd_to_bytes d) /\
  (forall code, In 120 code -> bd_format d code = Ok (bd_hex d)) /\
  (forall code, ~ In 120 code -> In 88 code ->
   exists s, bd_format d code = Ok s /\ hex_text s (bd_to_bytes d) /\ (forall c, In c s -> In c (lit "0123456789ABCDEF"))) /\
  (forall code, ~ In 120 code -> ~ In 88 code -> code <> [] -> bd_format d code = Err TypeError).
Proof.
  intros d F. unfold bd_hex, bd_to_bytes in *. split; [apply zlen_hex|].
  assert (forall c, In c (hex (bd_bytes d)) -> 48 <= c <= 57 \/ 97 <= c <= 102) as R.
  { induction F as [|x b Hx F IH]; [intros c []|]. cbn [hex]. intros c [<-|[<-|I]]; [apply hexdigit_range; lia|apply hexdigit_range; lia|exact (IH _ I)]. }
  split. { intros c I. specialize (R c I). cbn. lia. }
  split; [apply hex_text_hex, F|]. unfold bd_format. change (lit "x") with [120]. change (lit "X") with [88].
  split; [|split]; intros code I.
  - apply contains_1 in I. rewrite I. reflexivity.
  - intros J. apply contains_1 in J. destruct (contains code [120]) eqn:E; [destruct I; apply contains_1, E|]. rewrite J. eexists. split; [reflexivity|].
    split; [apply hex_text_hex, F|]. intros c Jc. apply in_map_iff in Jc. destruct Jc as [c' [<- Jc]]. specialize (R c' Jc). unfold upper1. destruct (_ && _)%bool eqn:E'; cbn; lia.
  - intros J N. destruct (contains code [120]) eqn:E; [destruct I; apply contains_1, E|]. destruct (contains code [88]) eqn:E'; [destruct J; apply contains_1, E'|].
    destruct (leqb code []) eqn:L; [|reflexivity]. apply leqb_eq in L. contradiction.
Qed.
Print Assumptions bytedata_hex.
Theorem bytedata_from_hex : forall s,
  (forall b, hex_text s b -> exists d, bd_from_hex s = Ok d /\ bd_to_bytes d = b /\ bd_immutable d = false) /\
  ((forall b, ~ hex_text s b) -> bd_from_hex s = Err ValueError).
Proof.
  intros s. unfold bd_from_hex. split.
  - intros b T. rewrite (fromhex_text _ _ T). eexists. split; [reflexivity|]. split; reflexivity.
  - intros N. rewrite (fromhex_not _ N). reflexivity.
Qed.
Print Assumptions bytedata_from_hex.

(* Tx.from_hex is from_bytes of the bytes that the text stands for *)
Theorem tx_from_hex : forall H net s,
  (forall b, hex_text s b -> Tx_from_hex H net s = Tx_from_bytes H net b) /\
  ((forall b, ~ hex_text s b) -> Tx_from_hex H net s = Err ValueError).
Proof.
  intros H net s. unfold Tx_from_hex. split.
  - intros b T. rewrite (fromhex_text _ _ T). reflexivity.
  - intros N. rewrite (fromhex_not _ N). reflexivity.
Qed.
Print Assumptions tx_from_hex.
(* a text stands for at most one byte string; hex() and its upper case stand for
   the bytes *)
Theorem hex_text_one : forall s b b', hex_text s b -> hex_text s b' -> b = b'.
Proof. intros s b b' T T'. apply fromhex_text in T, T'. rewrite T in T'. apply Ok_inj in T'. exact T'. Qed.
Print Assumptions hex_text_one.
Theorem hex_text_of_bytes : forall b, all_bytes b -> hex_text (hex b) b /\ hex_text (upper (hex b)) b.
Proof. exact hex_text_hex. Qed.
Print Assumptions hex_text_of_bytes.

(* repr: printable, and two objects with the same repr have the same class name,
   the same bytes, and are both immutable or both not *)
Theorem bytedata_repr_printable : forall c d, all_bytes (bd_to_bytes d) -> Forall (fun x => 32 <= x < 127) c ->
  Forall (fun x => 32 <= x < 127) (bd_repr c d).
Proof.
  intros c d F C. unfold bd_repr. apply Forall_app. split; [exact C|]. change (lit ": ") with [58; 32]. cbn [app]. constructor; [lia|]. constructor; [lia|].
  apply inner_repr_printable, F.
Qed.
Print Assumptions bytedata_repr_printable.
Theorem bytedata_repr_injective : forall c c' d d', all_bytes (bd_to_bytes d) -> all_bytes (bd_to_bytes d') -> ~ In 58 c -> ~ In 58 c' ->
  bd_repr c d = bd_repr c' d' -> c = c' /\ bd_to_bytes d = bd_to_bytes d' /\ bd_immutable d = bd_immutable d'.
Proof.
  intros c c' d d' F F' N N' E. destruct (bd_repr_inj c c' d d' N N' F F' E) as [A [B C]]. unfold bd_to_bytes. auto.
Qed.
Print Assumptions bytedata_repr_injective.
(* repr shows the bytes as a Python literal *)
Theorem bytedata_repr_literal : forall c d, all_bytes (bd_to_bytes d) -> exists q body,
  (q = 39 \/ q = 34) /\ literal q body (bd_to_bytes d) /\
  bd_repr c d = c ++ lit ": " ++ (if bd_immutable d then lit "b" ++ [q] ++ body ++ [q] else lit "bytearray(b" ++ [q] ++ body ++ [q] ++ lit ")").
Proof.
  intros c d F. exists (repr_quote (bd_bytes d)), (concat (map (repr_byte (repr_quote (bd_bytes d))) (bd_bytes d))).
  split; [apply repr_quote_cases|]. split; [apply repr_literal; [apply repr_quote_cases|exact F]|].
  unfold bd_repr, inner_repr, bytes_repr. destruct (bd_immutable d); [reflexivity|].
  change (lit "bytearray(b") with (lit "bytearray(" ++ lit "b"). rewrite <- !app_assoc. reflexivity.
Qed.
Print Assumptions bytedata_repr_literal.
(* the empty format gives the repr without the class name *)
Theorem bytedata_format_empty : forall d c, exists s, bd_format d [] = Ok s /\ bd_repr c d = c ++ lit ": " ++ s.
Proof. intros d c. eexists. split; reflexivity. Qed.
Print Assumptions bytedata_format_empty.

(* the constructors' pattern: the parts one after the other; nothing can be added
   afterwards; something that is not byte-like is refused *)
Theorem bytedata_build : forall parts xs, Forall2 (fun p x => content_of p = Some x) parts xs ->
  exists d, bd_build parts = Ok d /\ bd_to_bytes d = concat xs /\ bd_immutable d = true /\
    (forall p x, content_of p = Some x -> bd_iadd d p = Err AttributeError) /\
    (forall p, content_of p = None -> bd_iadd d p = Err TypeError) /\ bd_make_immutable d = Err TypeError.
Proof.
  intros parts xs F. unfold bd_build. rewrite (iadd_all_Ok bd_new parts xs eq_refl F). eexists. split; [reflexivity|]. split; [reflexivity|]. split; [reflexivity|].
  split; [|split; [|reflexivity]].
  - intros p x E. destruct p; try discriminate E; reflexivity.
  - intros p E. destruct p; try discriminate E; reflexivity.
Qed.
Print Assumptions bytedata_build.
Theorem bytedata_build_refuses : forall parts, Exists (fun p => content_of p = None) parts -> bd_build parts = Err TypeError.
Proof. intros parts E. unfold bd_build. rewrite (iadd_all_Err bd_new parts eq_refl E). reflexivity. Qed.
Print Assumptions bytedata_build_refuses.

(* C94: VarInt.copy keeps the number and writes it in the shortest form *)
Theorem varint_copy_exact : forall n l v, VarInt n l = Ok v ->
  VarInt_copy v = Ok {| vi_number := n; vi_bytes := compactsize n |} /\ (VarInt_copy v = Ok v <-> vi_bytes v = compactsize n).
Proof.
  intros n l v E. destruct (VarInt_Ok_inv _ _ _ E) as [N R]. unfold VarInt_copy. rewrite N, (VarInt_None n R). split; [reflexivity|].
  destruct v as [m b]. cbn in *. subst m. split; [intros X; injection X as ->; reflexivity|intros ->; reflexivity].
Qed.
Print Assumptions varint_copy_exact.
(* so the copy of a VarInt read from a longer form is not equal to it *)
Theorem varint_copy_refuted : exists v c, VarInt_from_bytes BitcoinMain [253; 1; 0] = Ok v /\ VarInt_copy v = Ok c /\ vi_bytes c <> vi_bytes v.
Proof. eexists. eexists. split; [vm_compute; reflexivity|]. split; [vm_compute; reflexivity|]. cbn. discriminate. Qed.
Print Assumptions varint_copy_refuted.

(* is_p2sh: the redeem script is not empty *)
Theorem txin_is_p2sh : forall o stack redeem q i, TxIn o stack redeem q = Ok i -> (TxIn_is_p2sh i = true <-> redeem <> []).
Proof.
  intros o stack redeem q i E. rewrite TxIn_spec in E. destruct (_ && _)%bool; [|discriminate]. apply Ok_inj in E. subst i. unfold TxIn_is_p2sh. cbn.
  destruct (leqb redeem []) eqn:L; cbn.
  - apply leqb_eq in L. split; [discriminate|contradiction].
  - split; [|reflexivity]. intros _ ->. discriminate L.
Qed.
Print Assumptions txin_is_p2sh.

(* cases *)
Definition ex_data : bytedata := {| bd_bytes := [1; 39; 0; 254; 39; 10]; bd_immutable := true; bd_attrs := [] |}.
Example bytedata_ex : all_bytes (bd_to_bytes ex_data) /\ bd_getitem ex_data (-3) = Ok 254 /\ bd_getslice ex_data (-5) 4 = [39; 0; 254] /\
  bd_find ex_data [39] = 1 /\ bd_find ex_data [39; 1] = -1 /\ bd_format ex_data (lit "08X") = Ok (lit "012700FE270A") /\
  bd_repr (lit "TxIn") ex_data = lit "TxIn: b""\x01'\x00\xfe'\n""" /\
  bd_format {| bd_bytes := [39; 34]; bd_immutable := false; bd_attrs := [] |} [] = Ok (lit "bytearray(b'\'""')") /\ bd_format ex_data (lit "d") = Err TypeError.
Proof. split; [|vm_compute; repeat split]. repeat (apply Forall_cons; [cbn; lia|]). apply Forall_nil. Qed.
Example hex_text_ex : hex_text (lit " 0aFf 10") [10; 255; 16] /\ (forall b, ~ hex_text (lit "0 1") b).
Proof.
  split.
  - destruct (fromhex_total (lit " 0aFf 10")) as [[b [T E]]|E]; vm_compute in E; [|discriminate]. apply Ok_inj in E. subst b. exact T.
  - intros b T. apply fromhex_text in T. vm_compute in T. discriminate.
Qed.
Example bytedata_build_ex : exists d, bd_build [VBytes [1; 2]; VByteData ex_data; VBytes []] = Ok d /\ bd_to_bytes d = [1; 2; 1; 39; 0; 254; 39; 10].
Proof. eexists. split; reflexivity. Qed.
