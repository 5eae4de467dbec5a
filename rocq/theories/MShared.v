(* riemann/tx/shared.py *)
From Coq Require Import String.
From Verif Require Import Py MNet MUtils.
Open Scope list_scope.
Open Scope Z_scope.

(* shared.py:7-11 *)
Definition SIGHASH_ALL : Z := 0x01.
(* shared.py:8 *)
Definition SIGHASH_NONE : Z := 0x02.
(* shared.py:9 *)
Definition SIGHASH_SINGLE : Z := 0x03.
(* shared.py:10 *)
Definition SIGHASH_FORKID : Z := 0x40.
(* shared.py:11 *)
Definition SIGHASH_ANYONECANPAY : Z := 0x80.

(** * ByteData *)

(* A ByteData object: its bytes, whether _make_immutable has run, and its other
   attributes (shared.py:24-27).  After _make_immutable, _bytes is a bytes
   object, before it is a bytearray (shared.py:112-117). *)
Record bytedata := {
  bd_bytes : bytes;
  bd_immutable : bool;
  bd_attrs : list (str * bytes)
}.

(* The right-hand side of +=, == and !=; shared.py:35-69 *)
Inductive pyvalue :=
  | VBytes (b : bytes)        (* bytes or bytearray *)
  | VByteData (d : bytedata)
  | VOther.                   (* anything else: None, int, str, ... *)

(* shared.py:26-27 *)
Definition bd_new : bytedata :=
  {| bd_bytes := []; bd_immutable := false; bd_attrs := [] |}.

(* bytearray.extend(b); a bytes object has no attribute extend; shared.py:42, 44 *)
Definition bd_extend (self : bytedata) (b : bytes) : res bytedata :=
  if bd_immutable self then Err AttributeError
  else Ok {| bd_bytes := bd_bytes self ++ b; bd_immutable := bd_immutable self;
             bd_attrs := bd_attrs self |}.

(* shared.py:35-49 *)
Definition bd_iadd (self : bytedata) (other : pyvalue) : res bytedata :=
  match other with
  | VBytes b => bd_extend self b
  | VByteData d => bd_extend self (bd_bytes d)
  | VOther => Err TypeError
  end.

(* shared.py:51-63 *)
Definition bd_ne (self : bytedata) (other : pyvalue) : res bool :=
  match other with
  | VBytes b => Ok (negb (leqb (bd_bytes self) b))
  | VByteData d => Ok (negb (leqb (bd_bytes self) (bd_bytes d)))
  | VOther => Err TypeError
  end.

(* shared.py:65-70 *)
Definition bd_eq (self : bytedata) (other : pyvalue) : res bool :=
  r <- bd_ne self other ;; Ok (negb r).

(* The operators == and != on any two values.  bytes and bytearray return
   NotImplemented for a ByteData on the right, and so does every other type
   (object's default), so Python calls the reflected method of the ByteData.
   Two values that are no ByteData never reach the library: bytes are compared,
   other is some result of the interpreter that the model leaves open.  shared.py:65-70 *)
Definition py_eq (other : res bool) (a b : pyvalue) : res bool :=
  match a, b with
  | VByteData d, _ => bd_eq d b
  | _, VByteData d => bd_eq d a
  | VBytes x, VBytes y => Ok (leqb x y)
  | _, _ => other
  end.
(* shared.py:50-63 *)
Definition py_ne (other : res bool) (a b : pyvalue) : res bool :=
  match a, b with
  | VByteData d, _ => bd_ne d b
  | _, VByteData d => bd_ne d a
  | VBytes x, VBytes y => Ok (negb (leqb x y))
  | _, _ => other
  end.

(* shared.py:72-76 *)
Definition bd_len (self : bytedata) : Z := zlen (bd_bytes self).

(* shared.py:32-33, for an int *)
Definition bd_getitem (self : bytedata) (i : Z) : res Z := index (bd_bytes self) i.
(* shared.py:32-33, for a slice [a:b] *)
Definition bd_getslice (self : bytedata) (a b : Z) : bytes := slice (bd_bytes self) a b.

(* shared.py:112-117; the first assignment goes through __setattr__ and so
   raises on an object that is immutable already *)
Definition bd_make_immutable (self : bytedata) : res bytedata :=
  if bd_immutable self then Err TypeError
  else Ok {| bd_bytes := bd_bytes self; bd_immutable := true;
             bd_attrs := bd_attrs self |}.

(* shared.py:100-104 *)
Definition bd_to_bytes (self : bytedata) : bytes := bd_bytes self.
(* shared.py:106-110 *)
Definition bd_hex (self : bytedata) : str := hex (bd_bytes self).

(* shared.py:119-126 *)
Definition bd_find (self : bytedata) (substring : bytes) : Z :=
  find (bd_bytes self) substring.

(* shared.py:128-149; None stands for anything that is not byte-like *)
Definition validate_bytes (data : option bytes) (length : option Z) : res unit :=
  match data with
  | None => Err ValueError
  | Some d =>
      match length with
      | None => Ok tt
      | Some n => guard (negb (zlen d =? n)) ValueError
      end
  end.

(* shared.py:155-159 *)
Definition bd_from_bytes (byte_string : bytes) : res bytedata :=
  bd_iadd bd_new (VBytes byte_string).

(** * VarInt *)

(* The attributes of a VarInt: number, and the bytes; shared.py:162-196 *)
Record varint := { vi_number : Z; vi_bytes : bytes }.

(* shared.py:188-190: append zero bytes up to length *)
Definition pad_to (b : bytes) (length : Z) : bytes :=
  b ++ zrepeat 0 (length - zlen b).

(* shared.py:166-194; length=None is None *)
Definition VarInt (number : Z) (length : option Z) : res varint :=
  let length_is n := match length with Some l => l =? n | None => false end in
  raise_if number <? 0 as ValueError ;;
  raise_if 0xffffffffffffffff <? number as ValueError ;;
  let '(prefix, length) :=
    if number <=? 0xfc then ([], length)
    else if (number <=? 0xffff) || length_is 3 then ([0xfd], Some 3)
    else if (number <=? 0xffffffff) || length_is 5 then ([0xfe], Some 5)
    else if (number <=? 0xffffffffffffffff) || length_is 9 then ([0xff], Some 9)
    else ([], length) in
  n <- i2le number ;;
  let b := prefix ++ n in
  let b := match length with Some l => pad_to b l | None => b end in
  Ok {| vi_number := number; vi_bytes := b |}.

(* shared.py:196-197 *)
Definition VarInt_copy (v : varint) : res varint := VarInt (vi_number v) None.

Section VarInt_parse.
  Context (net : network).

  (* shared.py:223-224 *)
  Definition compact_only : bool :=
    contains (get_current_network_name net) (lit "overwinter")
    || contains (get_current_network_name net) (lit "sapling").

  (* shared.py:199-232; a first byte is at most 0xff, so the chain of tests on
     lines 206-217 always assigns non_compact *)
  Definition VarInt_from_bytes (byte_string : bytes) : res varint :=
    first <- index byte_string 0 ;;
    let '(num, non_compact) :=
      if first <=? 0xfc then (slice byte_string 0 1, false)
      else if first =? 0xfd
      then let num := slice byte_string 1 3 in
           (num, leqb (slice_from num (-1)) [0])
      else if first =? 0xfe
      then let num := slice byte_string 1 5 in
           (num, leqb (slice_from num (-2)) [0; 0])
      else let num := slice byte_string 1 9 in
           (num, leqb (slice_from num (-4)) [0; 0; 0; 0]) in
    raise_if negb (zmem (zlen num) [1; 2; 4; 8]) as ValueError ;;
    raise_if non_compact && compact_only as ValueError ;;
    VarInt (le2i num false) (Some (if non_compact then zlen num + 1 else 0)).
End VarInt_parse.
