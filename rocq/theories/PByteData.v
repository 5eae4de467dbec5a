(* Properties C20 and C21: byte-like objects *)
From Coq Require Import String.
From Verif Require Import Py LBase MShared MHeap SHeap SByteData LHeap LByteData.
Open Scope list_scope.
Open Scope Z_scope.

(* C20: whatever a program does, an immutable object keeps its attribute
   bindings and its bytes *)
Theorem immutable_bindings : forall h l attrs ops,
  nth_error h l = Some (CObj true attrs) -> nth_error (run h ops) l = Some (CObj true attrs).
Proof. exact cell_forever. Qed.
Print Assumptions immutable_bindings.
Theorem immutable_bytes : forall h l attrs b ops,
  nth_error h l = Some (CObj true attrs) -> assoc (lit "_bytes") attrs = Some (VB b) ->
  content (run h ops) (VRef l) = Some b.
Proof. exact bytes_forever. Qed.
Print Assumptions immutable_bytes.

(* C20: if all its attributes are bytes, ints, None, tuples or immutable
   objects, then nothing that can be read from it ever changes *)
Theorem immutable_forever_partial : forall h v ops, frozen h v ->
  frozen (run h ops) v /\ forall depth, view depth (run h ops) v = view depth h v.
Proof. exact frozen_forever. Qed.
Print Assumptions immutable_forever_partial.

(* C20: each attempted write raises *)
Theorem immutable_writes_raise : forall h l attrs b,
  nth_error h l = Some (CObj true attrs) -> assoc (lit "_bytes") attrs = Some (VB b) ->
  (forall k v, step h (OSetattr l k v) = (h, Err TypeError)) /\
  (forall w, step h (OIadd (VRef l) w) =
             (h, Err (match content h w with Some _ => AttributeError | None => TypeError end))) /\
  (forall k w, exists e, snd (step h (OAttrIadd l k w)) = Err e) /\
  step h (OMakeImmutable l) = (h, Err TypeError).
Proof. exact writes_raise. Qed.
Print Assumptions immutable_writes_raise.

(* C20: constructors return such objects; [old] and [closed] say that the
   arguments and the heap contain no dangling references *)
Theorem construct_immutable : forall h parts xs attrs, closed h ->
  Forall2 (fun p x => old h p /\ content h p = Some x) parts xs ->
  Forall (fun kv => fst kv <> lit "_bytes" /\ frozen h (snd kv)) attrs ->
  exists h' l, construct h parts attrs = Ok (h', l) /\ frozen h' (VRef l) /\ content h' (VRef l) = Some (concat xs).
Proof. exact construct_frozen. Qed.
Print Assumptions construct_immutable.
Theorem construct_immutable_bytes : forall h parts xs attrs, closed h ->
  Forall2 (fun p x => old h p /\ content h p = Some x) parts xs ->
  Forall (fun kv => fst kv <> lit "_bytes") attrs ->
  exists h' l final, construct h parts attrs = Ok (h', l) /\ nth_error h' l = Some (CObj true final) /\
    assoc (lit "_bytes") final = Some (VB (concat xs)) /\ length h' = S (S (length h)) /\
    (forall k v, In (k, v) final -> k = lit "_bytes" /\ v = VB (concat xs) \/ In (k, v) attrs).
Proof. exact construct_object. Qed.
Print Assumptions construct_immutable_bytes.
Example construct_immutable_ex : exists h l,
  new_outpoint [] (VB (zrepeat 7 32)) (VB [1; 2; 3; 4]) = Ok (h, l) /\ frozen h (VRef l) /\
  content h (VRef l) = Some (zrepeat 7 32 ++ [1; 2; 3; 4]) /\
  step h (OSetattr l (lit "index") (VB [])) = (h, Err TypeError) /\
  step h (OAttrIadd l (lit "index") (VB [5])) = (h, Err TypeError) /\
  step h (OIadd (VRef l) (VB [5])) = (h, Err AttributeError).
Proof.
  eexists. eexists. split; [vm_compute; reflexivity|]. split; [|repeat split].
  econstructor; [reflexivity|]. intros k v I. cbn in I. repeat (destruct I as [I|I]; [injection I as <- <-; constructor|]).
  contradiction.
Qed.

(* C20 fails when an attribute is a bytearray: += on it raises but changes it.
   The object's own bytes stay the same. *)
Theorem immutable_bytearray_refuted : exists h l,
  new_outpoint [CArray (zrepeat 7 32)] (VRef 0) (VB [1; 2; 3; 4]) = Ok (h, l) /\
  let '(h', r) := step h (OAttrIadd l (lit "tx_id") (VB [9])) in
  r = Err TypeError /\
  getattr h l (lit "tx_id") = Ok (VRef 0) /\
  content h (VRef 0) = Some (zrepeat 7 32) /\ content h' (VRef 0) = Some (zrepeat 7 32 ++ [9]).
Proof. eexists. eexists. split; [vm_compute; reflexivity|]. vm_compute. repeat split. Qed.
Print Assumptions immutable_bytearray_refuted.

(* C21: the operators compare contents, and each is the negation of the other *)
Theorem bytedata_eq_content : forall o a b x y, content_of a = Some x -> content_of b = Some y ->
  (py_eq o a b = Ok true <-> x = y) /\ (py_eq o a b = Ok false <-> x <> y) /\
  (py_ne o a b = Ok true <-> x <> y) /\ (py_ne o a b = Ok false <-> x = y).
Proof. exact c21_eq. Qed.
Print Assumptions bytedata_eq_content.
Theorem bytedata_eq_other : forall o a b, is_bytedata a \/ is_bytedata b -> content_of a = None \/ content_of b = None ->
  py_eq o a b = Err TypeError /\ py_ne o a b = Err TypeError.
Proof. exact c21_other. Qed.
Print Assumptions bytedata_eq_other.
Example bytedata_eq_ex : let d := {| bd_bytes := [1; 2]; bd_immutable := true; bd_attrs := [] |} in
  py_eq (Ok false) (VBytes [1; 2]) (VByteData d) = Ok true /\ py_ne (Ok false) (VByteData d) (VBytes [1]) = Ok true /\
  py_eq (Ok false) VOther (VByteData d) = Err TypeError.
Proof. repeat split. Qed.
