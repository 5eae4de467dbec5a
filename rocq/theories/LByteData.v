(* Lemmas about ByteData comparison *)
From Verif Require Import Py LBase MShared SByteData.

Lemma eq_content o a b x y : content_of a = Some x -> content_of b = Some y ->
  py_eq o a b = Ok (leqb x y) /\ py_ne o a b = Ok (negb (leqb x y)).
Proof.
  assert (forall u v : bytes, leqb u v = leqb v u) as C.
  { intros u v. destruct (leqb_spec u v), (leqb_spec v u); congruence. }
  destruct a as [u|d|], b as [v|e|]; cbn; intros A B; try discriminate;
    injection A as <-; injection B as <-; unfold bd_eq; cbn; rewrite ?negb_involutive; split; try reflexivity.
  - rewrite C. reflexivity.
  - rewrite C. reflexivity.
Qed.

Lemma c21_eq o a b x y : content_of a = Some x -> content_of b = Some y ->
  (py_eq o a b = Ok true <-> x = y) /\ (py_eq o a b = Ok false <-> x <> y) /\
  (py_ne o a b = Ok true <-> x <> y) /\ (py_ne o a b = Ok false <-> x = y).
Proof.
  intros A B. destruct (eq_content o a b x y A B) as [-> ->].
  destruct (leqb_spec x y) as [E|N]; cbn; repeat split; intros; try reflexivity; try assumption; try discriminate; try congruence.
Qed.

Lemma c21_other o a b : is_bytedata a \/ is_bytedata b -> content_of a = None \/ content_of b = None ->
  py_eq o a b = Err TypeError /\ py_ne o a b = Err TypeError.
Proof. destruct a, b; cbn; intros [[]|[]] [Q|Q]; try discriminate; split; reflexivity. Qed.
