(* Object identity and mutation of ByteData objects (riemann/tx/shared.py) *)
From Coq Require Import String.
From Verif Require Import Py.
Open Scope list_scope.
Open Scope Z_scope.

(* MShared.v treats objects as values.  Here they live in a heap, so that two
   attributes may share a mutable bytearray or list. *)

(* A Python value: None, int, bytes, tuple, or a reference to a heap cell;
   the arguments of the constructors, for example tx.py:30 *)
Inductive val :=
  | VNone
  | VInt (n : Z)
  | VB (b : bytes)
  | VTuple (vs : list val)
  | VRef (l : nat).

(* A heap cell: a bytearray, a list, or an instance of a ByteData class with
   its __immutable flag and its other attributes, _bytes among them; shared.py:14-29 *)
Inductive cell :=
  | CArray (b : bytes)
  | CList (vs : list val)
  | CObj (immutable : bool) (attrs : list (str * val)).

(* the objects that a program has made, shared.py:14-29 *)
Definition heap := list cell.

(* an assignment to an object in place, shared.py:42, 78-81 *)
Definition update (h : heap) (l : nat) (c : cell) : heap := firstn l h ++ c :: skipn (S l) h.

(* shared.py:78-81: the attributes of an object *)
Fixpoint assoc (k : str) (attrs : list (str * val)) : option val :=
  match attrs with
  | [] => None
  | (k', v) :: r => if leqb k k' then Some v else assoc k r
  end.

(* shared.py:81 *)
Definition set_assoc (k : str) (v : val) (attrs : list (str * val)) : list (str * val) :=
  (k, v) :: filter (fun kv => negb (leqb k (fst kv))) attrs.

(* obj.k; for example tx.py:51-52 *)
Definition getattr (h : heap) (l : nat) (k : str) : res val :=
  match nth_error h l with
  | Some (CObj _ attrs) => match assoc k attrs with Some v => Ok v | None => Err AttributeError end
  | _ => Err AttributeError
  end.

(* shared.py:78-81: obj.k = v *)
Definition setattr (h : heap) (l : nat) (k : str) (v : val) : res heap :=
  match nth_error h l with
  | Some (CObj true _) => Err TypeError
  | Some (CObj false attrs) => Ok (update h l (CObj false (set_assoc k v attrs)))
  | _ => Err AttributeError
  end.

(* the content of a bytes or bytearray value; shared.py:41 *)
Definition buffer (h : heap) (v : val) : option bytes :=
  match v with
  | VB b => Some b
  | VRef l => match nth_error h l with Some (CArray b) => Some b | _ => None end
  | _ => None
  end.

(* the same, or the _bytes of a ByteData; shared.py:41-44 *)
Definition content (h : heap) (v : val) : option bytes :=
  match v with
  | VRef l =>
      match nth_error h l with
      | Some (CArray b) => Some b
      | Some (CObj _ attrs) =>
          match assoc (lit "_bytes") attrs with Some b => buffer h b | None => None end
      | _ => None
      end
  | _ => buffer h v
  end.

(* the items of an iterable; iterating over bytes, a bytearray or a ByteData
   (shared.py:29-30) gives integers *)
Definition items (h : heap) (v : val) : option (list val) :=
  match v with
  | VTuple vs => Some vs
  | VRef l =>
      match nth_error h l with
      | Some (CList vs) => Some vs
      | _ => option_map (map VInt) (content h v)
      end
  | _ => option_map (map VInt) (content h v)
  end.

(* v += w: the new heap and the value v is bound to afterwards.  bytes, tuples
   and integers make a new value; bytearrays and lists are extended in place;
   for a ByteData see shared.py:35-49 (a bytes object has no extend). *)
Definition iadd (h : heap) (v w : val) : res (heap * val) :=
  match v with
  | VNone => Err TypeError
  | VInt n => match w with VInt m => Ok (h, VInt (n + m)) | _ => Err TypeError end
  | VB a => match buffer h w with Some b => Ok (h, VB (a ++ b)) | None => Err TypeError end
  | VTuple a => match w with VTuple b => Ok (h, VTuple (a ++ b)) | _ => Err TypeError end
  | VRef l =>
      match nth_error h l with
      | Some (CArray a) =>
          match buffer h w with
          | Some b => Ok (update h l (CArray (a ++ b)), v)
          | None => Err TypeError
          end
      | Some (CList a) =>
          match items h w with
          | Some b => Ok (update h l (CList (a ++ b)), v)
          | None => Err TypeError
          end
      | Some (CObj _ attrs) =>
          match content h w with
          | None => Err TypeError
          | Some b =>
              match assoc (lit "_bytes") attrs with
              | Some (VRef a) =>
                  match nth_error h a with
                  | Some (CArray x) => Ok (update h a (CArray (x ++ b)), v)
                  | _ => Err AttributeError
                  end
              | _ => Err AttributeError
              end
          end
      | None => Err TypeError
      end
  end.

(* shared.py:26-27: the new object and its bytearray *)
Definition new_object (h : heap) : heap * nat :=
  (h ++ [CArray []; CObj false [(lit "_bytes", VRef (length h))]], S (length h)).

(* shared.py:112-117 *)
Definition make_immutable (h : heap) (l : nat) : res heap :=
  match content h (VRef l) with
  | None => Err TypeError
  | Some b =>
      h <- setattr h l (lit "_bytes") (VB b) ;;
      match nth_error h l with
      | Some (CObj _ attrs) => Ok (update h l (CObj true attrs))
      | _ => Err AttributeError
      end
  end.

(* for example tx.py:36-37 *)
Fixpoint iadd_all (h : heap) (l : nat) (parts : list val) : res heap :=
  match parts with
  | [] => Ok h
  | p :: ps => ' (h, _) <- iadd h (VRef l) p ;; iadd_all h l ps
  end.

(* for example tx.py:39-40 *)
Fixpoint setattr_all (h : heap) (l : nat) (attrs : list (str * val)) : res heap :=
  match attrs with
  | [] => Ok h
  | (k, v) :: r => h <- setattr h l k v ;; setattr_all h l r
  end.

(* The shape of every constructor after its checks: self += each part, assign
   the attributes, make immutable (for example tx.py:36-42) *)
Definition construct (h : heap) (parts : list val) (attrs : list (str * val)) : res (heap * nat) :=
  let '(h, l) := new_object h in
  h <- iadd_all h l parts ;;
  h <- setattr_all h l attrs ;;
  h <- make_immutable h l ;;
  Ok (h, l).

(* shared.py:128-149; content is None for values that are not byte-like *)
Definition check_len (h : heap) (v : val) (n : Z) : res unit :=
  match content h v with None => Err ValueError | Some b => guard (negb (zlen b =? n)) ValueError end.

(* tx.py:30-42 *)
Definition new_outpoint (h : heap) (tx_id index : val) : res (heap * nat) :=
  _ <- check_len h tx_id 32 ;;
  _ <- check_len h index 4 ;;
  construct h [tx_id; index] [(lit "tx_id", tx_id); (lit "index", index)].

(* What a program can do with its references: assign an attribute, use += on a
   value or on an attribute, create a bytearray or a list, change one in any
   way, call a constructor, call _make_immutable;
   shared.py:35-48, 78-81, 112-117 are what it meets *)
Inductive op :=
  | OSetattr (l : nat) (k : str) (v : val)
  | OIadd (v w : val)
  | OAttrIadd (l : nat) (k : str) (w : val)
  | ONewArray (b : bytes)
  | ONewList (vs : list val)
  | OMutateArray (l : nat) (b : bytes)
  | OMutateList (l : nat) (vs : list val)
  | OConstruct (parts : list val) (attrs : list (str * val))
  | OMakeImmutable (l : nat).

(* One operation: the heap afterwards (also after an exception) and the
   exception.  obj.k += w reads obj.k, adds to that value, then assigns.
   shared.py:35-48, 78-81, 112-117 *)
Definition step (h : heap) (o : op) : heap * res unit :=
  let keep (r : res heap) := match r with Ok h' => (h', Ok tt) | Err e => (h, Err e) end in
  match o with
  | OSetattr l k v => keep (setattr h l k v)
  | OIadd v w => keep (' (h', _) <- iadd h v w ;; Ok h')
  | OAttrIadd l k w =>
      match getattr h l k with
      | Err e => (h, Err e)
      | Ok v =>
          match iadd h v w with
          | Err e => (h, Err e)
          | Ok (h', v') =>
              match setattr h' l k v' with Ok h'' => (h'', Ok tt) | Err e => (h', Err e) end
          end
      end
  | ONewArray b => (h ++ [CArray b], Ok tt)
  | ONewList vs => (h ++ [CList vs], Ok tt)
  | OMutateArray l b =>
      match nth_error h l with Some (CArray _) => (update h l (CArray b), Ok tt) | _ => (h, Err TypeError) end
  | OMutateList l vs =>
      match nth_error h l with Some (CList _) => (update h l (CList vs), Ok tt) | _ => (h, Err TypeError) end
  | OConstruct parts attrs => keep (' (h', _) <- construct h parts attrs ;; Ok h')
  | OMakeImmutable l => keep (make_immutable h l)
  end.

(* a program: shared.py:35-48, 78-81, 112-117 in any order *)
Definition run (h : heap) (ops : list op) : heap := fold_left (fun h o => fst (step h o)) ops h.
