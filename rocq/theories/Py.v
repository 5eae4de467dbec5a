(* Python values and built-ins used by the model.  Nothing in this file comes
   from /repo: it is the reading of the Python language that the model rests on
   (ints, bytes, str, slices, exceptions).  The lines cited are where the code
   uses them. *)
From Coq Require Export List ZArith Lia Bool.
From Coq Require Import String Ascii.
Export ListNotations.
Open Scope Z_scope.

(* Exceptions, as values.  StructError is struct.error, PyException is a bare
   Exception.  EFuel is not a Python exception: it marks an exhausted recursion
   bound of the model and is proved unreachable.
   for example raised in shared.py:45-48, 218-226, blake256.py:189, serialization.py:23, 57 *)
Inductive exn :=
  | ValueError | TypeError | IndexError | KeyError | OverflowError
  | NotImplementedError | AttributeError | StructError | PyException | EFuel.

(* the result of a call that may raise, such as tx.py:276 *)
Inductive res (A : Type) :=
  | Ok (a : A)
  | Err (e : exn).
Arguments Ok {A} a.
Arguments Err {A} e.

(* one statement after another, such as tx.py:193-196 *)
Definition bind {A B} (x : res A) (f : A -> res B) : res B :=
  match x with Ok a => f a | Err e => Err e end.
Notation "x <- a ;; b" := (bind a (fun x => b))
  (at level 61, a at next level, right associativity).
Notation "' p <- a ;; b" := (bind a (fun p => b))
  (at level 61, p pattern, a at next level, right associativity).

(* if c then raise e; for example tx.py:123-126 *)
Definition guard (c : bool) (e : exn) : res unit :=
  if c then Err e else Ok tt.
Notation "'raise_if' c 'as' e ;; b" := (bind (guard c e) (fun _ => b))
  (at level 61, c at next level, e at next level, right associativity).

(* bytes / bytearray: the list of their values; str: the list of code points;
   for example tx.py:30-42 *)
Definition bytes := list Z.
(* for example serialization.py:9-18 *)
Definition str := list Z.

(* an item of a bytes object, such as shared.py:206 *)
Definition is_byte (b : Z) : Prop := 0 <= b < 256.
(* a bytes object, such as the argument of shared.py:200 *)
Definition is_bytes (l : bytes) : Prop := Forall is_byte l.

(* len(); for example tx.py:123 *)
Definition zlen {A} (l : list A) : Z := Z.of_nat (List.length l).

(* str literals; for example networks.py and opcodes.py *)
Fixpoint lit (s : string) : str :=
  match s with
  | EmptyString => []
  | String c s' => Z.of_N (N_of_ascii c) :: lit s'
  end.

(* == on bytes and on str; for example tx.py:205, 559 *)
Fixpoint leqb (a b : list Z) : bool :=
  match a, b with
  | [], [] => true
  | x :: a', y :: b' => (x =? y) && leqb a' b'
  | _, _ => false
  end.

(* Bounds of a slice: negative values count from the end, both are clamped.
   for example shared.py:207-217, tx.py:201 *)
Definition clampi (len i : Z) : Z :=
  if i <? 0 then Z.max 0 (len + i) else Z.min i len.

(* l[a:b], l[a:], l[:b]; for example tx.py:201 *)
Definition slice {A} (l : list A) (a b : Z) : list A :=
  let a' := clampi (zlen l) a in
  let b' := clampi (zlen l) b in
  firstn (Z.to_nat (b' - a')) (skipn (Z.to_nat a') l).
(* for example tx.py:276 *)
Definition slice_from {A} (l : list A) (a : Z) : list A :=
  skipn (Z.to_nat (clampi (zlen l) a)) l.
(* for example tx.py:193 *)
Definition slice_to {A} (l : list A) (b : Z) : list A :=
  firstn (Z.to_nat (clampi (zlen l) b)) l.

(* l[i], IndexError out of range, negative indices from the end;
   for example shared.py:206 *)
Definition index {A} (l : list A) (i : Z) : res A :=
  let j := if i <? 0 then zlen l + i else i in
  if (j <? 0) || (zlen l <=? j) then Err IndexError
  else match nth_error l (Z.to_nat j) with
       | Some a => Ok a
       | None => Err IndexError
       end.

(* l[i] = a on a list; decred.py:350, 374, 381, 423 *)
Fixpoint set_nth {A} (l : list A) (n : nat) (a : A) : list A :=
  match l, n with
  | [], _ => []
  | _ :: t, O => a :: t
  | x :: t, S n' => x :: set_nth t n' a
  end.
(* decred.py:350, 374, 381, 423 *)
Definition set_index {A} (l : list A) (i : Z) (a : A) : res (list A) :=
  let j := if i <? 0 then zlen l + i else i in
  if (j <? 0) || (zlen l <=? j) then Err IndexError
  else Ok (set_nth l (Z.to_nat j) a).

(* x in l, for ints; for example shared.py:218 *)
Definition zmem (x : Z) (l : list Z) : bool := existsb (Z.eqb x) l.

(* b'\x00' * n; for example tx.py:57 *)
Definition zrepeat (b : Z) (n : Z) : bytes := repeat b (Z.to_nat n).

(* [f(x) for x in l] where f may raise; stops at the first exception;
   for example tx.py:642 *)
Fixpoint mapM {A B} (f : A -> res B) (l : list A) : res (list B) :=
  match l with
  | [] => Ok []
  | a :: t => b <- f a ;; bs <- mapM f t ;; Ok (b :: bs)
  end.

(* int.from_bytes(b, 'little' / 'big', signed=...); utils.py:66, 79 *)
Fixpoint from_le (l : bytes) : Z :=
  match l with
  | [] => 0
  | b :: t => b + 256 * from_le t
  end.
(* utils.py:66, 79 *)
Definition from_bytes (big signed : bool) (l : bytes) : Z :=
  let u := from_le (if big then rev l else l) in
  if signed && (256 ^ zlen l <=? 2 * u) && negb (zlen l =? 0)
  then u - 256 ^ zlen l else u.

(* int.to_bytes(length, 'little' / 'big', signed=...).  CPython accepts -1 with
   length 0 when signed (it returns b'').  utils.py:17, 30, 46, 93, 106 *)
Fixpoint to_le (len : nat) (n : Z) : bytes :=
  match len with
  | O => []
  | S k => n mod 256 :: to_le k (n / 256)
  end.
(* utils.py:17, 30, 46, 93, 106 *)
Definition fits (signed : bool) (n len : Z) : bool :=
  if signed
  then (- 256 ^ len <=? 2 * n) && (2 * n <? 256 ^ len)
       || ((len =? 0) && (n =? -1))
  else (0 <=? n) && (n <? 256 ^ len).
(* utils.py:17, 30, 46, 93, 106 *)
Definition to_bytes (n len : Z) (big signed : bool) : res bytes :=
  if len <? 0 then Err ValueError
  else if fits signed n len
  then let l := to_le (Z.to_nat len) n in Ok (if big then rev l else l)
  else Err OverflowError.

(* int.bit_length(); utils.py:17, 93 *)
Definition bit_length (n : Z) : Z :=
  if n =? 0 then 0 else Z.log2 (Z.abs n) + 1.

(* bytes.hex(); shared.py:110 *)
Definition hexdigit (d : Z) : Z := if d <? 10 then 48 + d else 87 + d.
(* shared.py:110 *)
Fixpoint hex (l : bytes) : str :=
  match l with
  | [] => []
  | b :: t => hexdigit (b / 16) :: hexdigit (b mod 16) :: hex t
  end.

(* bytes.fromhex(s): pairs of hex digits, ASCII white space allowed between
   pairs, everything else is ValueError; serialization.py:33 *)
Definition unhexdigit (c : Z) : option Z :=
  if (48 <=? c) && (c <=? 57) then Some (c - 48)
  else if (97 <=? c) && (c <=? 102) then Some (c - 87)
  else if (65 <=? c) && (c <=? 70) then Some (c - 55)
  else None.
(* serialization.py:33 *)
Definition ascii_space (c : Z) : bool := (c =? 32) || ((9 <=? c) && (c <=? 13)).
(* serialization.py:33 *)
Fixpoint fromhex (s : str) : res bytes :=
  match s with
  | [] => Ok []
  | c :: t =>
      if ascii_space c then fromhex t
      else match t with
           | [] => Err ValueError
           | d :: t' =>
               match unhexdigit c, unhexdigit d with
               | Some h, Some l => r <- fromhex t' ;; Ok (16 * h + l :: r)
               | _, _ => Err ValueError
               end
           end
  end.

(* l.startswith(p); used by find below, addresses.py:259 *)
Fixpoint is_prefix (p l : list Z) : bool :=
  match p, l with
  | [], _ => true
  | x :: p', y :: l' => (x =? y) && is_prefix p' l'
  | _, _ => false
  end.

(* l.find(p): the first position, or -1; addresses.py:259, bech32.py:97 *)
Fixpoint find_from (p l : list Z) (i : Z) : Z :=
  if is_prefix p l then i
  else match l with
       | [] => -1
       | _ :: t => find_from p t (i + 1)
       end.
(* addresses.py:259, bech32.py:97 *)
Definition find (l p : list Z) : Z := find_from p l 0.

(* p in s, for str; for example shared.py:223-224 *)
Definition contains (s p : str) : bool := negb (find s p =? -1).

(* s.rfind(c) for a single character c; bech32.py:91 *)
Fixpoint rfind_from (c : Z) (l : list Z) (i acc : Z) : Z :=
  match l with
  | [] => acc
  | x :: t => rfind_from c t (i + 1) (if x =? c then i else acc)
  end.
(* bech32.py:91 *)
Definition rfind1 (l : str) (c : Z) : Z := rfind_from c l 0 (-1).

(* s.split(c) for a single character c; cashaddr.py:57 *)
Fixpoint split_char (c : Z) (s : str) : list str :=
  match s with
  | [] => [[]]
  | x :: t =>
      if x =? c then [] :: split_char c t
      else match split_char c t with
           | [] => [[x]]
           | w :: ws => (x :: w) :: ws
           end
  end.

(* s.split(): words separated by Unicode white space; serialization.py:18, tx.py:180 *)
Definition py_space (c : Z) : bool :=
  ((9 <=? c) && (c <=? 13)) || ((28 <=? c) && (c <=? 32)) || (c =? 133)
  || (c =? 160) || (c =? 5760) || ((8192 <=? c) && (c <=? 8202))
  || (c =? 8232) || (c =? 8233) || (c =? 8239) || (c =? 8287) || (c =? 12288).
(* serialization.py:18, tx.py:180 *)
Fixpoint split_ws_aux (s : str) (cur : str) : list str :=
  match s with
  | [] => match cur with [] => [] | _ => [rev cur] end
  | x :: t =>
      if py_space x
      then match cur with
           | [] => split_ws_aux t []
           | _ => rev cur :: split_ws_aux t []
           end
      else split_ws_aux t (x :: cur)
  end.
(* serialization.py:18, tx.py:180 *)
Definition split_ws (s : str) : list str := split_ws_aux s [].

(* sep.join(ws); serialization.py:136, tx.py:182 *)
Fixpoint join (sep : str) (ws : list str) : str :=
  match ws with
  | [] => []
  | [w] => w
  | w :: ws' => w ++ sep ++ join sep ws'
  end.

(* s.encode('utf8'); a surrogate raises UnicodeEncodeError, a ValueError;
   blake256.py:380 *)
Definition utf8_char (c : Z) : res bytes :=
  if c <? 128 then Ok [c]
  else if c <? 2048 then Ok [192 + c / 64; 128 + c mod 64]
  else if (55296 <=? c) && (c <=? 57343) then Err ValueError
  else if c <? 65536
  then Ok [224 + c / 4096; 128 + (c / 64) mod 64; 128 + c mod 64]
  else Ok [240 + c / 262144; 128 + (c / 4096) mod 64;
           128 + (c / 64) mod 64; 128 + c mod 64].
(* blake256.py:380 *)
Fixpoint utf8 (s : str) : res bytes :=
  match s with
  | [] => Ok []
  | c :: t => b <- utf8_char c ;; r <- utf8 t ;; Ok (b ++ r)
  end.

(* ASCII parts of str.lower() / str.upper(); only used on ASCII strings; bech32.py:88-90 *)
Definition lower1 (c : Z) : Z := if (65 <=? c) && (c <=? 90) then c + 32 else c.
(* bech32.py:88, shared.py:91 *)
Definition upper1 (c : Z) : Z := if (97 <=? c) && (c <=? 122) then c - 32 else c.
(* bech32.py:88-90 *)
Definition lower (s : str) : str := map lower1 s.
(* bech32.py:88, shared.py:91 *)
Definition upper (s : str) : str := map upper1 s.

(* dict lookup in an association list; for a dict built from a list of pairs
   the last pair with a given key wins; opcodes.py:151, serialization.py:25-30 *)
Fixpoint assoc_str {B} (k : str) (l : list (str * B)) : option B :=
  match l with
  | [] => None
  | (k', b) :: t =>
      match assoc_str k t with
      | Some r => Some r
      | None => if leqb k k' then Some b else None
      end
  end.
(* opcodes.py:152, serialization.py:122-126 *)
Fixpoint assoc_z {B} (k : Z) (l : list (Z * B)) : option B :=
  match l with
  | [] => None
  | (k', b) :: t =>
      match assoc_z k t with
      | Some r => Some r
      | None => if k =? k' then Some b else None
      end
  end.
