(* riemann/tx/shared.py: the operators that Python derives from the methods of ByteData: in, reversed, and in on tuples of objects *)
From Verif Require Import Py MShared MByteData.
Open Scope list_scope.
Open Scope Z_scope.

(* the left side of in: an int, or one of the values of MShared.v, VOther being None, a str and others that never equal an int;
   shared.py:29-30 *)
Inductive sought := QInt (k : Z) | QValue (v : pyvalue).

(* item == x for an item of the iteration, which is an int.  An object x gets the reflected call, ByteData.__eq__ of an int;
   shared.py:29-30, 51-70 *)
Definition item_eq (item : Z) (x : sought) : res bool :=
  match x with
  | QInt k => Ok (item =? k)
  | QValue (VBytes _) => Ok false
  | QValue (VByteData d) => bd_eq d VOther
  | QValue VOther => Ok false
  end.

(* goes on until an item is equal; shared.py:29-30 *)
Fixpoint search {A} (eq : A -> res bool) (l : list A) : res bool :=
  match l with
  | [] => Ok false
  | a :: r => b <- eq a ;; if b : bool then Ok true else search eq r
  end.
(* x in self.  The class has no __contains__, so Python compares x with the items of __iter__; shared.py:14-30 *)
Definition bd_contains (self : bytedata) (x : sought) : res bool := search (fun i => item_eq i x) (bd_iter self).

(* x in objects, for a tuple or list of ByteData, such as tx_ins (tx.py:526); shared.py:51-70 *)
Definition objects_contain (objects : list bytedata) (x : pyvalue) : res bool :=
  search (fun o => py_eq (Err TypeError) (VByteData o) x) objects.

(* list(reversed(self)): there is no __reversed__, so Python calls __len__ and then __getitem__ from the last index down to 0;
   shared.py:32-33, 72-76 *)
Definition bd_reversed (self : bytedata) : res (list Z) :=
  mapM (fun n => bd_getitem self (bd_len self - 1 - Z.of_nat n)) (seq 0 (Z.to_nat (bd_len self))).
