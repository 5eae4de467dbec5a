(* del obj.attribute on ByteData objects (riemann/tx/shared.py) *)
From Coq Require Import String.
From Verif Require Import Py MHeap.
Open Scope list_scope.
Open Scope Z_scope.

(* The name under which shared.py:24, 79 and 117 keep __immutable: Python puts the name of the class in front.  In MHeap.v it
   is the first component of the cell of an object. *)
Definition flag_name : str := lit "_ByteData__immutable".

(* del obj.k.  ByteData has __setattr__ (shared.py:78-81) but no __delattr__, so that object's is used, which looks at
   nothing but whether the object itself has the attribute.  Without its own flag an object has that of the class, False
   (shared.py:24).  Simplified: an object with the flag set to False by an assignment is treated as one without. *)
Definition delattr (h : heap) (l : nat) (k : str) : res heap :=
  match nth_error h l with
  | Some (CObj immutable attrs) =>
      if leqb k flag_name
      then if immutable then Ok (update h l (CObj false attrs)) else Err AttributeError
      else match assoc k attrs with
           | Some _ => Ok (update h l (CObj immutable (filter (fun kv => negb (leqb k (fst kv))) attrs)))
           | None => Err AttributeError
           end
  | _ => Err AttributeError
  end.

(* an operation of MHeap.v (shared.py:35-48, 78-81, 112-117), or a deletion *)
Inductive del_op :=
  | DOp (o : op)
  | DDel (l : nat) (k : str).
(* shared.py:35-48, 78-81, 112-117 *)
Definition del_step (h : heap) (o : del_op) : heap * res unit :=
  match o with
  | DOp o => step h o
  | DDel l k => match delattr h l k with Ok h' => (h', Ok tt) | Err e => (h, Err e) end
  end.
(* a program: shared.py:35-48, 78-81, 112-117 in any order *)
Definition del_run (h : heap) (ops : list del_op) : heap := fold_left (fun h o => fst (del_step h o)) ops h.
