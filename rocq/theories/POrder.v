(* C62, C79 and C89: the script_sig of an input with a bytearray for stack script, witnesses without a flag, and the signed input of an example.
   [new_txin] is in MHeapTx.v, [closed] in LHeap.v, [call_Tx] in MClass.v, [op_return_with] in MPrograms.v *)
From Coq Require Import String Lia.
From Verif Require Import Py SNum SNet SHash STx SDecred MDecred MHeapDecred MNet MUtils MShared MTx MHeap MHeapTx MBuilder MClass MPrograms SHeap SHeapTx LBase LTx LNet LDecred LDecredTop LHeap LHeapTx LOrder MScript PZSign.
Open Scope list_scope.
Open Scope Z_scope.

(* C62: stack_script + redeem_script, where the stack script is a bytearray, is a new bytearray: no cell of the heap is changed, and the object
   has the bytes of the input *)
Theorem script_sig_new : forall h outpoint s redeem sequence o a b q, closed h ->
  content h outpoint = Some o -> nth_error h s = Some (CArray a) -> buffer h redeem = Some b -> content h sequence = Some q ->
  zlen o = 36 -> zlen q = 4 -> zlen a + zlen b <= 1650 ->
  exists h' l attrs k, new_txin h outpoint (VRef s) redeem sequence = Ok (h', l) /\ nth_error h' l = Some (CObj true attrs) /\
    content h' (VRef l) = Some (o ++ compactsize (zlen a + zlen b) ++ a ++ b ++ q) /\
    assoc (lit "stack_script") attrs = Some (VRef s) /\
    assoc (lit "script_sig") attrs = Some (VRef k) /\ (length h <= k)%nat /\ nth_error h' k = Some (CArray (a ++ b)) /\
    (forall i, (i < length h)%nat -> nth_error h' i = nth_error h i).
Proof.
  intros h ov s rv qv o a b q Cl O S R Q Lo Lq Le. pose proof (zlen_nonneg a) as Pa. pose proof (zlen_nonneg b) as Pb.
  assert (content h (VRef s) = Some a) as Cs by (cbn [content]; rewrite S; reflexivity). pose proof (buffer_content _ _ _ R) as Cr.
  assert (forall v x, content h v = Some x -> old (h ++ [CArray (a ++ b)]) v /\ content (h ++ [CArray (a ++ b)]) v = Some x) as Part
    by (intros v x E; split; [apply array_old, (content_is_old _ _ _ E)|apply (array_content _ _ Cl), E]).
  destruct (construct_sealed _ [ov; VB (compactsize (zlen a + zlen b)); VRef s; rv; qv] [o; compactsize (zlen a + zlen b); a; b; q]
    [(lit "outpoint", ov); (lit "stack_script", VRef s); (lit "redeem_script", rv); (lit "script_sig", VRef (length h)); (lit "sequence", qv)] (array_closed h (a ++ b) Cl))
    as [h' [l [fin [E [N [A [_ U]]]]]]].
  - repeat (constructor; [first [split; [exact I|reflexivity] | apply Part; assumption]|]). constructor.
  - repeat (constructor; [discriminate|]). constructor.
  - repeat (constructor; [vm_compute; intuition discriminate|]). constructor.
  - rewrite array_length in U. exists h', l, fin, (length h). split; [|split; [exact N|split; [|split; [|split; [|split; [|split]]]]]].
    + unfold new_txin, check_len, check_bytes. rewrite O, Cs, Cr, Q, Lo, Lq. cbn [Z.eqb Pos.eqb negb guard bind].
      destruct (Z.ltb_spec 1650 (zlen a + zlen b)); [lia|]. cbn [guard bind]. rewrite VarInt_len by lia.
      destruct (Z.ltb_spec (zlen a + zlen b) (2 ^ 64)); [|lia]. cbn [bind vi_bytes]. rewrite (add_array _ _ _ _ _ S R). exact E.
    + cbn [content]. rewrite N, A. cbn [assoc]. cbn [buffer concat]. rewrite app_nil_r. reflexivity.
    + rewrite A. reflexivity.
    + rewrite A. reflexivity.
    + lia.
    + rewrite U by lia. apply array_new.
    + intros i L. rewrite U by lia. apply array_same, L.
Qed.
Print Assumptions script_sig_new.
Example script_sig_new_ex :
  let h := [CArray [0x51]] in
  match new_txin h (VB (repeat 7 36)) (VRef 0) (VB [0x52]) (VB [9; 9; 9; 9]) with
  | Ok (h', l) => exists attrs, nth_error h' l = Some (CObj true attrs) /\ assoc (lit "script_sig") attrs = Some (VRef 1) /\
      nth_error h' 1 = Some (CArray [0x51; 0x52]) /\ nth_error h' 0 = Some (CArray [0x51])
  | Err _ => False
  end.
Proof. vm_compute. eexists. repeat split. Qed.

(* the same for the witnesses of Decred *)
Theorem dwitness_script_sig_new : forall name net h value height index s redeem x y z a b, get_network name = Ok net -> In name decred_names -> closed h ->
  content h value = Some x -> content h height = Some y -> content h index = Some z -> nth_error h s = Some (CArray a) -> buffer h redeem = Some b ->
  zlen x = 8 -> zlen y = 4 -> zlen z = 4 -> zlen a + zlen b < 2 ^ 64 ->
  exists h' l attrs k, new_dwitness net h value height index (VRef s) redeem = Ok (h', l) /\ nth_error h' l = Some (CObj true attrs) /\
    content h' (VRef l) = Some (x ++ y ++ z ++ compactsize (zlen a + zlen b) ++ a ++ b) /\
    assoc (lit "stack_script") attrs = Some (VRef s) /\ assoc (lit "script_len") attrs = Some (VInt (zlen a + zlen b)) /\
    assoc (lit "script_sig") attrs = Some (VRef k) /\ (length h <= k)%nat /\ nth_error h' k = Some (CArray (a ++ b)) /\
    (forall i, (i < length h)%nat -> nth_error h' i = nth_error h i).
Proof.
  intros name net h xv yv zv s rv x y z a b En D Cl X Y Z0 S R Lx Ly Lz Le. pose proof (zlen_nonneg a) as Pa. pose proof (zlen_nonneg b) as Pb.
  assert (content h (VRef s) = Some a) as Cs by (cbn [content]; rewrite S; reflexivity). pose proof (buffer_content _ _ _ R) as Cr.
  pose proof (array_closed h (a ++ b) Cl) as Cl1.
  assert (s < length h)%nat as Ls by exact (content_is_old h (VRef s) a Cs).
  assert (nth_error (h ++ [CArray (a ++ b)]) s = Some (CArray a)) as S1 by (rewrite (array_same h (a ++ b) s Ls); exact S).
  pose proof (array_buffer h (a ++ b) rv b R) as R1. remember (h ++ [CArray (a ++ b)]) as h1 eqn:H1.
  assert (length h1 = Datatypes.S (length h)) as L1 by (rewrite H1; apply array_length).
  assert (forall v x, content h v = Some x -> old (h1 ++ [CArray (a ++ b)]) v /\ content (h1 ++ [CArray (a ++ b)]) v = Some x) as Part.
  { intros v w E. assert (content h1 v = Some w) as E1 by (rewrite H1; apply (array_content _ _ Cl), E).
    split; [apply array_old, (content_is_old _ _ _ E1)|apply (array_content _ _ Cl1), E1]. }
  destruct (construct_sealed _ [xv; yv; zv; VB (compactsize (zlen a + zlen b)); VRef s; rv] [x; y; z; compactsize (zlen a + zlen b); a; b]
    [(lit "value", xv); (lit "height", yv); (lit "index", zv); (lit "script_len", VInt (zlen (a ++ b))); (lit "stack_script", VRef s);
     (lit "redeem_script", rv); (lit "script_sig", VRef (length h1))] (array_closed h1 (a ++ b) Cl1))
    as [h' [l [fin [E [N [A [_ U]]]]]]].
  - repeat (constructor; [first [split; [exact I|reflexivity] | apply Part; assumption]|]). constructor.
  - repeat (constructor; [discriminate|]). constructor.
  - repeat (constructor; [vm_compute; intuition discriminate|]). constructor.
  - rewrite array_length in U. exists h', l, fin, (length h1). split; [|split; [exact N|split; [|split; [|split; [|split; [|split; [|split]]]]]]].
    + unfold new_dwitness, check_len, check_bytes. rewrite (decred_only_Ok name net En D), X, Y, Z0, Cs, Cr, Lx, Ly, Lz. cbn [Z.eqb Pos.eqb negb guard bind].
      rewrite VarInt_len by lia.
      destruct (Z.ltb_spec (zlen a + zlen b) (2 ^ 64)); [|lia]. cbn [bind vi_bytes]. rewrite (add_array _ _ _ _ _ S R), <- H1. cbn [bind].
      unfold get_content. cbn [content]. rewrite H1, array_new, <- H1. cbn [bind]. rewrite (add_array _ _ _ _ _ S1 R1). exact E.
    + cbn [content]. rewrite N, A. cbn [assoc]. cbn [buffer concat]. rewrite app_nil_r. reflexivity.
    + rewrite A. reflexivity.
    + rewrite A, <- zlen_app. reflexivity.
    + rewrite A. reflexivity.
    + lia.
    + rewrite U by lia. apply array_new.
    + intros i L. rewrite U by lia. rewrite array_same by lia. rewrite H1. apply array_same, L.
Qed.
Print Assumptions dwitness_script_sig_new.
Example dwitness_script_sig_new_ex :
  match new_dwitness DecredMain [CArray [0x51]] (VB (repeat 7 8)) (VB [1; 0; 0; 0]) (VB [2; 0; 0; 0]) (VRef 0) (VB [0x52]) with
  | Ok (h', l) => exists attrs, nth_error h' l = Some (CObj true attrs) /\ assoc (lit "script_sig") attrs = Some (VRef 2) /\
      nth_error h' 2 = Some (CArray [0x51; 0x52]) /\ nth_error h' 0 = Some (CArray [0x51])
  | Err _ => False
  end.
Proof. vm_compute. eexists. repeat split. Qed.

(* a script or an item that is not byte-like is refused with ValueError *)
Theorem scripts_checked : forall h script, content h script = None ->
  new_item h script = Err ValueError /\
  (forall value, new_txout h value script = Err ValueError) /\
  (forall outpoint other sequence, new_txin h outpoint script other sequence = Err ValueError /\ new_txin h outpoint other script sequence = Err ValueError) /\
  (forall name net, get_network name = Ok net -> In name decred_names ->
   (forall value version, new_dtxout net h value version script = Err ValueError) /\
   (forall value height index other, new_dwitness net h value height index script other = Err ValueError /\
      new_dwitness net h value height index other script = Err ValueError)).
Proof.
  intros h script N.
  assert (forall v n (A : Type) (f : unit -> res A), f tt = Err ValueError -> bind (check_len h v n) f = Err ValueError) as C.
  { intros v n A f E. unfold check_len. destruct (content h v); [|reflexivity]. destruct (negb (zlen b =? n)); [reflexivity|exact E]. }
  assert (forall v (A : Type) (f : bytes -> res A), (forall b, f b = Err ValueError) -> bind (check_bytes h v) f = Err ValueError) as B.
  { intros v A f E. unfold check_bytes. destruct (content h v); [apply E|reflexivity]. }
  assert (check_bytes h script = Err ValueError) as X by (unfold check_bytes; rewrite N; reflexivity).
  split; [unfold new_item; rewrite X; reflexivity|]. split; [intros; unfold new_txout; apply C; rewrite X; reflexivity|]. split.
  - intros. split; unfold new_txin; apply C; [rewrite X; reflexivity|]. apply B. intros. rewrite X. reflexivity.
  - intros name net En D. pose proof (decred_only_Ok name net En D) as Y. split.
    + intros. unfold new_dtxout. rewrite Y. cbn [bind]. do 2 apply C. rewrite X. reflexivity.
    + intros. split; unfold new_dwitness; rewrite Y; cbn [bind]; do 3 apply C; [rewrite X; reflexivity|]. apply B. intros. rewrite X. reflexivity.
Qed.
Print Assumptions scripts_checked.
Example scripts_checked_ex : content [CArray []; CList []] (VRef 1) = None /\ new_txout [CArray []; CList []] (VB (repeat 7 8)) (VRef 1) = Err ValueError /\
  exists r, new_txout [CArray []; CList []] (VB (repeat 7 8)) (VRef 0) = Ok r.
Proof. split; [reflexivity|]. split; [vm_compute; reflexivity|]. eexists. vm_compute. reflexivity. Qed.

(* C79: witnesses without a flag are refused before the inputs and outputs are looked at, so that the exception is ValueError whatever those are *)
Theorem witnesses_without_flag : forall H net version ins outs witnesses lock_time v l w ws,
  byte_content version = Some v -> zlen v = 4 -> byte_content lock_time = Some l -> zlen l = 4 ->
  witnesses = PList (w :: ws) \/ witnesses = PTuple (w :: ws) ->
  call_Tx H net version PNone ins outs witnesses lock_time = Err ValueError.
Proof.
  intros H net version ins outs witnesses lock_time v l w ws V Lv L Ll W. unfold call_Tx, sized. rewrite V, L, Lv, Ll.
  assert (zlen (w :: ws) =? 0 = false) as Z0 by (rewrite zlen_cons; pose proof (zlen_nonneg ws); destruct (Z.eqb_spec (1 + zlen ws) 0); [lia|reflexivity]).
  destruct W as [-> | ->]; cbn [Z.eqb Pos.eqb negb guard bind none orb sequence]; rewrite Z0; reflexivity.
Qed.
Print Assumptions witnesses_without_flag.
Example witnesses_without_flag_ex : forall H,
  call_Tx H BitcoinMain (PBytes [1; 0; 0; 0]) PNone PNone PNone (PList [PInt 5]) (PBytes [0; 0; 0; 0]) = Err ValueError /\
  call_Tx H BitcoinMain (PBytes [1; 0; 0; 0]) PNone PNone PNone (PList []) (PBytes [0; 0; 0; 0]) = Err TypeError.
Proof. intros H. split; vm_compute; reflexivity. Qed.

(* C89: whatever simple.p2pkh_input were, p2pkh_op_return.py would give it the output that the unsigned transaction spends, the signature of the
   digest and the key of the sender, and would print that transaction with the input it returns *)
Theorem op_return_signed : forall H net helper version sequence lock sender receiver tx_id index value fee note sign t,
  op_return_with H net (Some helper) version sequence lock sender receiver tx_id index value fee note sign = Ok t ->
  exists o u d i, op_return_unsigned H net version sequence lock sender receiver tx_id index value fee note = Ok (o, AnyTx u, d) /\
    helper o (sign d) sender sequence = Ok (AnyIn i) /\
    tx_tx_ins t = [i] /\ tx_tx_outs t = tx_tx_outs u /\ tx_version t = tx_version u /\ tx_lock_time t = tx_lock_time u.
Proof.
  intros H net helper version sequence lock sender receiver tx_id index value fee note sign t E. unfold op_return_with in E.
  destruct (op_return_unsigned _ _ _ _ _ _ _ _ _ _ _ _) as [[[o u] d]|]; cbn [bind member] in E; [|discriminate E].
  destruct (helper o (sign d) sender sequence) as [i|] eqn:F; cbn [bind] in E; [|discriminate E].
  destruct u as [u| | | |]; try discriminate E. destruct i as [i|]; try discriminate E. unfold Tx_copy in E. apply Tx_Ok in E. destruct E as [_ ->].
  exists o, u, d, i. split; [reflexivity|]. split; [exact F|]. repeat split.
Qed.
Print Assumptions op_return_signed.
Example op_return_signed_ex : exists t i,
  op_return_with small BitcoinMain (Some (fun o sig pk seq => s <- serialize BitcoinMain pk ;; make_legacy_input BitcoinMain o s [] seq))
    1 0xfffffffe 0 (hex [2; 7; 9]) (hex [2; 8; 8]) (hex (repeat 0xff 32)) 0 1000 10 (lit "made with riemann") (fun d => hex d) = Ok t /\
  tx_tx_ins t = [i] /\ ti_script_sig i = [3; 2; 7; 9].
Proof. eexists. eexists. split; [vm_compute; reflexivity|]. split; reflexivity. Qed.
