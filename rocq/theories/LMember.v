(* Lemmas for C106 *)
From Coq Require Import Lia.
From Verif Require Import Py MShared MByteData MMember SNum SRead SMember LBase.
Open Scope list_scope.
Open Scope Z_scope.

Lemma search_ok {A} (eq : A -> bool) l : search (fun a => Ok (eq a)) l = Ok (existsb eq l).
Proof. induction l as [|a l IH]; [reflexivity|]. cbn [search existsb bind]. destruct (eq a); [reflexivity|exact IH]. Qed.
Lemma search_none {A} (eq : A -> res bool) l : (forall a, eq a = Ok false) -> search eq l = Ok false.
Proof. intros E. induction l as [|a l IH]; [reflexivity|]. cbn [search]. rewrite E. exact IH. Qed.
Lemma search_err {A} (eq : A -> res bool) l e : (forall a, eq a = Err e) -> search eq l = match l with [] => Ok false | _ => Err e end.
Proof. intros E. destruct l as [|a l]; [reflexivity|]. cbn [search]. rewrite E. reflexivity. Qed.
Lemma contains_int d k : bd_contains d (QInt k) = Ok (existsb (fun i => i =? k) (bd_bytes d)).
Proof. apply (search_ok (fun i => i =? k)). Qed.
Lemma contains_bytes d p : bd_contains d (QValue (VBytes p)) = Ok false.
Proof. apply search_none. reflexivity. Qed.
Lemma contains_other d : bd_contains d (QValue VOther) = Ok false.
Proof. apply search_none. reflexivity. Qed.
Lemma contains_object d e : bd_contains d (QValue (VByteData e)) = match bd_bytes d with [] => Ok false | _ => Err TypeError end.
Proof. unfold bd_contains, bd_iter. apply search_err. reflexivity. Qed.
Lemma existsb_In k (b : bytes) : existsb (fun i => i =? k) b = true <-> In k b.
Proof. rewrite existsb_exists. split; [intros [x [I E]]; apply Z.eqb_eq in E; subst; exact I|intros I; exists k; split; [exact I|apply Z.eqb_refl]]. Qed.

Lemma search_ext {A} (f g : A -> res bool) l : (forall a, f a = g a) -> search f l = search g l.
Proof. intros E. induction l as [|a l IH]; [reflexivity|]. cbn [search]. rewrite E, IH. reflexivity. Qed.
Lemma objects_bytes os b : objects_contain os (VBytes b) = Ok (existsb (fun o => leqb (bd_bytes o) b) os).
Proof. unfold objects_contain. rewrite <- search_ok. apply search_ext. intros o. cbn [py_eq]. unfold bd_eq, bd_ne. cbn [bind]. rewrite negb_involutive. reflexivity. Qed.
Lemma objects_object os d : objects_contain os (VByteData d) = Ok (existsb (fun o => leqb (bd_bytes o) (bd_bytes d)) os).
Proof. unfold objects_contain. rewrite <- search_ok. apply search_ext. intros o. cbn [py_eq]. unfold bd_eq, bd_ne. cbn [bind]. rewrite negb_involutive. reflexivity. Qed.
Lemma objects_other os : objects_contain os VOther = match os with [] => Ok false | _ => Err TypeError end.
Proof. apply search_err. reflexivity. Qed.
Lemma existsb_bytes os b : existsb (fun o => leqb (bd_bytes o) b) os = true <-> exists o, In o os /\ bd_bytes o = b.
Proof. rewrite existsb_exists. split; intros [o [I E]]; exists o; (split; [exact I|]); apply leqb_eq; exact E. Qed.

Lemma mapM_rev (l : bytes) : forall c, mapM (fun n => index (l ++ c) (zlen l - 1 - Z.of_nat n)) (seq 0 (length l)) = Ok (rev l).
Proof.
  induction l as [|x l IH] using rev_ind; intros c; [reflexivity|]. rewrite app_length, Nat.add_1_r, zlen_app. change (zlen [x]) with 1.
  cbn [seq mapM]. rewrite <- app_assoc. cbn [app]. rewrite index_app_mid by lia. cbn [bind]. rewrite <- seq_shift.
  specialize (IH (x :: c)). revert IH. generalize (seq 0 (length l)). intros s E. rewrite rev_app_distr. cbn [rev app].
  assert (mapM (fun n => index (l ++ x :: c) (zlen l + 1 - 1 - Z.of_nat n)) (map S s) = mapM (fun n => index (l ++ x :: c) (zlen l - 1 - Z.of_nat n)) s) as ->.
  { clear E. induction s as [|n s IH]; [reflexivity|]. cbn [map mapM]. replace (zlen l + 1 - 1 - Z.of_nat (S n)) with (zlen l - 1 - Z.of_nat n) by lia. rewrite IH. reflexivity. }
  rewrite E. reflexivity.
Qed.
Lemma reversed_ok d : bd_reversed d = Ok (rev (bd_bytes d)).
Proof.
  unfold bd_reversed, bd_getitem, bd_len. rewrite <- (mapM_rev (bd_bytes d) []), app_nil_r. unfold zlen at 2. rewrite Nat2Z.id. reflexivity.
Qed.
