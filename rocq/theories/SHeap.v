(* What an observer sees of an object, and which values can never change *)
From Coq Require Import String.
From Verif Require Import Py MHeap.
Open Scope list_scope.
Open Scope Z_scope.

(* a value unfolded to a given depth *)
Inductive seen :=
  | SHidden
  | SNone
  | SInt (n : Z)
  | SBytes (b : bytes)
  | STuple (vs : list seen)
  | SArray (b : bytes)
  | SList (vs : list seen)
  | SObject (immutable : bool) (attrs : list (str * seen))
  | SNothing.

Fixpoint view (depth : nat) (h : heap) (v : val) : seen :=
  match depth with
  | O => SHidden
  | S n =>
      match v with
      | VNone => SNone
      | VInt z => SInt z
      | VB b => SBytes b
      | VTuple vs => STuple (map (view n h) vs)
      | VRef l =>
          match nth_error h l with
          | None => SNothing
          | Some (CArray b) => SArray b
          | Some (CList vs) => SList (map (view n h) vs)
          | Some (CObj i attrs) => SObject i (map (fun kv => (fst kv, view n h (snd kv))) attrs)
          end
      end
  end.

(* no bytearray, list or mutable object can be reached: None, int, bytes, and
   tuples and immutable objects made of such values *)
Inductive frozen (h : heap) : val -> Prop :=
  | frozen_none : frozen h VNone
  | frozen_int : forall n, frozen h (VInt n)
  | frozen_bytes : forall b, frozen h (VB b)
  | frozen_tuple : forall vs, (forall v, In v vs -> frozen h v) -> frozen h (VTuple vs)
  | frozen_object : forall l attrs, nth_error h l = Some (CObj true attrs) ->
      (forall k v, In (k, v) attrs -> frozen h v) -> frozen h (VRef l).
