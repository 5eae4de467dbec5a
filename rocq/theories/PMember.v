(* Property C106: the operator in, and reversed.  [in_bytes] is in SMember.v, [occurs] in SRead.v, [sought] in MMember.v *)
From Coq Require Import String Lia.
From Verif Require Import Py MShared MByteData MMember SNum SRead SMember LBase LMember.
Open Scope list_scope.
Open Scope Z_scope.

(* C106, the part that holds: x in d gives what x in the bytes of d gives exactly for byte values, for bytes that do not occur,
   and for objects if d is not empty *)
Theorem member_exact_partial : forall d x, in_bytes (bd_to_bytes d) x (bd_contains d x) <->
  match x with
  | QInt k => 0 <= k < 256
  | QValue (VBytes p) => forall k, ~ occurs p (bd_to_bytes d) k
  | QValue (VByteData _) => bd_to_bytes d <> []
  | QValue VOther => False
  end.
Proof.
  intros d [k|[p|e|]]; unfold in_bytes, bd_to_bytes.
  - rewrite contains_int. split.
    + intros [_ X]. destruct (Z.ltb_spec k 0); [discriminate X; lia|]. destruct (Z.leb_spec 256 k); [discriminate X; lia|lia].
    + intros R. split; [|lia]. intros _. eexists. split; [reflexivity|apply existsb_In].
  - rewrite contains_bytes. split.
    + intros [a [E X]] k O. injection E as <-. assert (false = true) by (apply X; exists k; exact O). discriminate.
    + intros N. exists false. split; [reflexivity|]. split; [discriminate|intros [k O]; destruct (N k O)].
  - rewrite contains_object. destruct (bd_bytes d); split; intros X; congruence.
  - rewrite contains_other. split; [discriminate|tauto].
Qed.
Print Assumptions member_exact_partial.

(* C106, false: bytes are never found, not those that are there nor the empty string; numbers that are no bytes are not refused *)
Theorem member_refuted : forall d,
  (forall p, bd_contains d (QValue (VBytes p)) = Ok false) /\
  (forall p k, occurs p (bd_to_bytes d) k -> ~ in_bytes (bd_to_bytes d) (QValue (VBytes p)) (bd_contains d (QValue (VBytes p)))) /\
  (forall k, all_bytes (bd_to_bytes d) -> k < 0 \/ 256 <= k -> bd_contains d (QInt k) = Ok false) /\
  bd_contains d (QValue VOther) = Ok false.
Proof.
  intros d. split; [intros p; apply contains_bytes|]. split; [|split; [|apply contains_other]].
  - intros p k O X. exact (proj1 (member_exact_partial d (QValue (VBytes p))) X k O).
  - intros k B R. rewrite contains_int. destruct (existsb (fun i => i =? k) (bd_bytes d)) eqn:E; [|reflexivity].
    apply existsb_In in E. unfold all_bytes, bd_to_bytes in B. rewrite Forall_forall in B. specialize (B k E). unfold is_byte in B. lia.
Qed.
Print Assumptions member_refuted.
Example member_ex : let d := {| bd_bytes := [1; 39; 2]; bd_immutable := true; bd_attrs := [] |} in
  bd_contains d (QInt 39) = Ok true /\ bd_contains d (QInt 40) = Ok false /\ bd_contains d (QInt 256) = Ok false /\
  bd_contains d (QValue (VBytes [1; 39])) = Ok false /\ occurs [1; 39] (bd_to_bytes d) 0 /\ bd_find d [1; 39] = 0 /\
  bd_contains d (QValue (VByteData d)) = Err TypeError.
Proof. repeat (split; [reflexivity|]). split; [exists [], [2]; split; reflexivity|]. split; reflexivity. Qed.

(* x in a list of objects: whether one of them has the bytes of x; any other x raises TypeError, unless the list is empty *)
Theorem member_of_list : forall os,
  (forall b, exists a, objects_contain os (VBytes b) = Ok a /\ (a = true <-> exists o, In o os /\ bd_to_bytes o = b)) /\
  (forall d, exists a, objects_contain os (VByteData d) = Ok a /\ (a = true <-> exists o, In o os /\ bd_to_bytes o = bd_to_bytes d)) /\
  objects_contain os VOther = if match os with [] => true | _ => false end then Ok false else Err TypeError.
Proof.
  intros os. split; [|split].
  - intros b. rewrite objects_bytes. eexists. split; [reflexivity|apply existsb_bytes].
  - intros d. rewrite objects_object. eexists. split; [reflexivity|apply existsb_bytes].
  - rewrite objects_other. destruct os; reflexivity.
Qed.
Print Assumptions member_of_list.
Example member_of_list_ex : let d := {| bd_bytes := [1; 39]; bd_immutable := true; bd_attrs := [] |} in
  objects_contain [bd_new; d] (VBytes [1; 39]) = Ok true /\ objects_contain [bd_new; d] (VBytes [1]) = Ok false /\ objects_contain [d] VOther = Err TypeError.
Proof. repeat split. Qed.

(* reversed(d): the bytes from the last to the first *)
Theorem reversed_bytes : forall d, bd_reversed d = Ok (rev (bd_to_bytes d)).
Proof. exact reversed_ok. Qed.
Print Assumptions reversed_bytes.
Example reversed_ex : bd_reversed {| bd_bytes := [1; 39; 2]; bd_immutable := true; bd_attrs := [] |} = Ok [2; 39; 1].
Proof. reflexivity. Qed.
