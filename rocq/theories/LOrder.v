(* Lemmas for POrder.v: a heap with one more bytearray *)
From Coq Require Import String Lia.
From Verif Require Import Py SNum LBase MHeap MHeapTx LHeap LHeapTx.
Open Scope list_scope.
Open Scope Z_scope.

Lemma content_is_old h v x : content h v = Some x -> old h v.
Proof.
  intros E. destruct v; try exact I. cbn [content] in E. cbn [old]. apply nth_error_Some. destruct (nth_error h l); [discriminate|discriminate E].
Qed.
Lemma buffer_content h v x : buffer h v = Some x -> content h v = Some x.
Proof.
  intros E. destruct v; try exact E. cbn [buffer] in E. cbn [content]. destruct (nth_error h l) as [[]|]; try discriminate E. exact E.
Qed.

Section array.
  Variables (h : heap) (c : bytes).
  Hypothesis Cl : closed h.
  Let h1 := h ++ [CArray c].
  Lemma array_same i : (i < length h)%nat -> nth_error h1 i = nth_error h i.
  Proof. intros; unfold h1; apply nth_error_app1; assumption. Qed.
  Lemma array_new : nth_error h1 (length h) = Some (CArray c).
  Proof. unfold h1. rewrite nth_error_app2, Nat.sub_diag by lia. reflexivity. Qed.
  Lemma array_length : length h1 = S (length h).
  Proof. unfold h1. rewrite app_length. cbn [length]. lia. Qed.
  Lemma array_old v : old h v -> old h1 v.
  Proof. intros E. destruct v; try exact I. cbn [old] in *. rewrite array_length. lia. Qed.
  Lemma array_closed : closed h1.
  Proof using Cl.
    intros i f attrs N v A. destruct (Nat.lt_ge_cases i (length h)) as [L|G].
    - rewrite array_same in N by exact L. apply array_old, (Cl i f attrs N v A).
    - unfold h1 in N. rewrite nth_error_app2 in N by exact G. destruct (i - length h)%nat as [|[|n]]; discriminate N.
  Qed.
  Lemma array_content v x : content h v = Some x -> content h1 v = Some x.
  Proof using Cl.
    intros E. pose proof (content_is_old h v x E) as U. destruct v; try exact E. cbn [content] in *. cbn [old] in U. rewrite (array_same l U).
    destruct (nth_error h l) as [[| |f attrs]|] eqn:N; try exact E. destruct (assoc (lit "_bytes") attrs) as [w|] eqn:A; [|exact E].
    pose proof (Cl l f attrs N w A) as Ow. destruct w; try exact E. cbn [buffer old] in *. rewrite (array_same _ Ow). exact E.
  Qed.
  Lemma array_buffer v x : buffer h v = Some x -> buffer h1 v = Some x.
  Proof.
    intros E. pose proof (content_is_old h v x (buffer_content _ _ _ E)) as U. destruct v; try exact E. cbn [buffer old] in *. rewrite (array_same l U). exact E.
  Qed.
End array.

(* + on a bytearray *)
Lemma add_array h s a r b : nth_error h s = Some (CArray a) -> buffer h r = Some b -> add h (VRef s) r = Ok (h ++ [CArray (a ++ b)], VRef (length h)).
Proof. intros S R. unfold add. rewrite R. cbn [buffer]. rewrite S. reflexivity. Qed.
