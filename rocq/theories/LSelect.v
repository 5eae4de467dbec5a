(* Lemmas about select_network *)
From Coq Require Import String.
From Verif Require Import Py LBase MNet SNet SSelect LNet.
Open Scope list_scope.
Open Scope Z_scope.

Lemma get_network_names name : (exists net, get_network name = Ok net) <-> In name supported_names.
Proof.
  assert (forallb (fun n => match get_network n with Ok _ => true | _ => false end) supported_names = true) as A by (vm_compute; reflexivity).
  split.
  - intros [net E]. apply str_mem_In. exact (supported_forall (fun n _ => str_mem n supported_names) ltac:(vm_compute; reflexivity) name net E).
  - intros I. rewrite forallb_forall in A. apply A in I. destruct (get_network name) as [net|]; [exists net; reflexivity|discriminate].
Qed.
Lemma get_network_Err name e : get_network name = Err e -> e = ValueError.
Proof. unfold get_network. destruct assoc_str; congruence. Qed.
Lemma get_network_unsupported name : ~ In name supported_names -> get_network name = Err ValueError.
Proof. intros N. destruct (get_network name) as [net|e] eqn:E; [exfalso; apply N, get_network_names; eauto|]. apply get_network_Err in E as ->. reflexivity. Qed.

Lemma select_ok name current : In name supported_names ->
  snd (select_network name current) = Ok tt /\ get_current_network_name (fst (select_network name current)) = name.
Proof.
  intros I. apply get_network_names in I. destruct I as [net E]. unfold select_network. rewrite E. split; [reflexivity|]. apply name_agrees, E.
Qed.
Lemma select_bad name current : ~ In name supported_names -> select_network name current = (current, Err ValueError).
Proof. intros N. unfold select_network. rewrite get_network_unsupported by exact N. reflexivity. Qed.

Lemma calls_app l1 : forall l2 cur, fst (calls (l1 ++ l2) cur) = fst (calls l2 (fst (calls l1 cur))).
Proof.
  induction l1 as [|a l1 IH]; intros l2 cur; [reflexivity|]. cbn [calls app]. destruct (select_network a cur) as [n o].
  specialize (IH l2 n). destruct (calls (l1 ++ l2) n), (calls l1 n). exact IH.
Qed.
Lemma calls_bad l : forall cur, (forall n, In n l -> ~ In n supported_names) -> fst (calls l cur) = cur.
Proof.
  induction l as [|a l IH]; intros cur N; [reflexivity|]. cbn [calls]. rewrite select_bad by (apply N; left; reflexivity).
  specialize (IH cur (fun n I => N n (or_intror I))). destruct (calls l cur). exact IH.
Qed.
Lemma calls_settle names start cur final : get_current_network_name cur = start -> settles start names final ->
  get_current_network_name (fst (calls names cur)) = final.
Proof.
  intros E S. destruct S as [names N|before name after I N].
  - rewrite calls_bad by exact N. exact E.
  - rewrite calls_app. cbn [calls]. destruct (select_network name (fst (calls before cur))) as [n o] eqn:S.
    pose proof (calls_bad after n N) as B. destruct (calls after n). cbn [fst] in *. subst.
    pose proof (proj2 (select_ok name (fst (calls before cur)) I)) as R. rewrite S in R. exact R.
Qed.
Lemma settles_total start names : exists final, settles start names final.
Proof.
  induction names as [|a l IH] using rev_ind.
  - exists start. constructor. intros n [].
  - destruct (in_dec list_eq_dec_Z a supported_names) as [I|N].
    + exists a. constructor; [exact I|intros n []].
    + destruct IH as [f S]. exists f. destruct S as [names A|b n c I A].
      * constructor. intros n I. apply in_app_or in I as [I|[<-|[]]]; [apply A, I|exact N].
      * rewrite <- app_assoc. cbn [app]. constructor; [exact I|]. intros m J. apply in_app_or in J as [J|[<-|[]]]; [apply A, J|exact N].
Qed.
Lemma calls_outcomes names : forall cur, Forall2 (fun n o => (In n supported_names /\ o = Ok tt) \/ (~ In n supported_names /\ o = Err ValueError)) names (snd (calls names cur)).
Proof.
  induction names as [|a l IH]; intros cur; [constructor|]. cbn [calls]. destruct (select_network a cur) as [n o] eqn:S. specialize (IH n).
  destruct (calls l n) as [f os]. constructor; [|exact IH]. destruct (in_dec list_eq_dec_Z a supported_names) as [I|N].
  - left. split; [exact I|]. pose proof (proj1 (select_ok a cur I)) as R. rewrite S in R. exact R.
  - right. split; [exact N|]. rewrite select_bad in S by exact N. congruence.
Qed.
