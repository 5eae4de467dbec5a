(* The digests of SSha.v satisfy hashes_ok *)
From Verif Require Import Py MUtils SHash SBlake SSha LBase LBlakeMain.
Open Scope Z_scope.

Lemma bytes_concat l : Forall is_bytes l -> is_bytes (concat l).
Proof. induction 1; cbn [concat]; [constructor|]. apply Forall_app. split; assumption. Qed.
Lemma words_ok (f : Z -> bytes) n l : (forall w, length (f w) = n /\ is_bytes (f w)) ->
  length (concat (map f l)) = (n * length l)%nat /\ is_bytes (concat (map f l)).
Proof.
  intros F. split.
  - induction l as [|w l IH]; cbn [map concat length]; [lia|]. rewrite app_length, IH, (proj1 (F w)). lia.
  - apply bytes_concat. apply Forall_forall. intros x I. apply in_map_iff in I. destruct I as [w [<- _]]. apply F.
Qed.
Lemma rev_bytes l : is_bytes l -> is_bytes (rev l).
Proof. intros B. apply Forall_forall. intros x I. apply in_rev in I. exact (proj1 (Forall_forall _ _) B x I). Qed.
Lemma fold_length {A} (f : list Z -> A -> list Z) n l st : (forall s a, length s = n -> length (f s a) = n) ->
  length st = n -> length (fold_left f l st) = n.
Proof. intros F. revert st. induction l as [|a l IH]; intros st L; [exact L|]. cbn [fold_left]. apply IH, F, L. Qed.
Lemma zlen_nat (l : bytes) n : length l = n -> zlen l = Z.of_nat n.
Proof. intros <-. reflexivity. Qed.

Lemma sha256_ok m : zlen (real_sha256 m) = 32 /\ is_bytes (real_sha256 m).
Proof.
  unfold real_sha256. set (st := fold_left _ _ _). assert (L : length st = 8%nat).
  { apply fold_length; [|reflexivity]. intros s b Ls. unfold sha256_block. rewrite map_length, combine_length, Ls.
    rewrite (fold_length _ 8%nat); [reflexivity| |exact Ls]. intros s' kw L'. unfold sha256_round.
    do 9 (destruct s' as [|? s']; try discriminate L'). reflexivity. }
  clearbody st. destruct (words_ok (fun w => rev (to_le 4 w)) 4 st) as [A B].
  { intros w. rewrite rev_length, to_le_length. split; [reflexivity|]. apply rev_bytes, to_le_bytes. }
  split; [|exact B]. rewrite L in A. exact (zlen_nat _ _ A).
Qed.
Lemma rmd160_ok m : zlen (real_rmd160 m) = 20 /\ is_bytes (real_rmd160 m).
Proof.
  unfold real_rmd160. set (st := fold_left _ _ _). assert (L : length st = 5%nat).
  { apply fold_length; reflexivity. }
  clearbody st. destruct (words_ok (to_le 4) 4 st) as [A B].
  { intros w. rewrite to_le_length. split; [reflexivity|]. apply to_le_bytes. }
  split; [|exact B]. rewrite L in A. exact (zlen_nat _ _ A).
Qed.
Lemma blake2b_ok p n m : 1 <= n <= 64 -> zlen (real_blake2b p n m) = n /\ is_bytes (real_blake2b p n m).
Proof.
  intros N. unfold real_blake2b. set (st := blake2b_blocks _ _ _ _). assert (L : length st = 8%nat).
  { subst st. generalize (cut 128 (Nat.div (length (m ++ repeat 0 (Z.to_nat (if zlen m =? 0 then 128 else (- zlen m) mod 128)))) 128)
      (m ++ repeat 0 (Z.to_nat (if zlen m =? 0 then 128 else (- zlen m) mod 128)))).
    assert (G : forall bs h t, length h = 8%nat -> length (blake2b_blocks h t m bs) = 8%nat).
    { induction bs as [|b bs IH]; intros h t Lh; [exact Lh|]. cbn [blake2b_blocks]. destruct bs as [|b' bs]; [reflexivity|].
      apply IH. reflexivity. }
    intros l. apply G. reflexivity. }
  clearbody st. destruct (words_ok (to_le 8) 8 st) as [A B].
  { intros w. rewrite to_le_length. split; [reflexivity|]. apply to_le_bytes. }
  rewrite L in A. split.
  - unfold zlen. rewrite firstn_length, A. lia.
  - apply Forall_forall. intros x I. refine (proj1 (Forall_forall _ _) B x _). revert I. rewrite <- (firstn_skipn (Z.to_nat n) (concat (map (to_le 8) st))) at 2.
    intros I. apply in_or_app. left. exact I.
Qed.
Lemma real_ok : hashes_ok real.
Proof.
  unfold hashes_ok, real. cbn [h_sha256 h_rmd160 h_blake256 h_blake2b]. repeat apply conj.
  - exact sha256_ok.
  - exact rmd160_ok.
  - intros m. exact (digest_size 256 BLAKE256 no_salt m v256).
  - intros p n m. exact (blake2b_ok p n m).
Qed.
