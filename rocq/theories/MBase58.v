(* riemann/encoding/base58.py *)
From Coq Require Import String.
From Verif Require Import Py MNet MUtils.
Open Scope list_scope.
Open Scope Z_scope.

(* base58.py:28-29 *)
Definition BASE58_ALPHABET : bytes :=
  lit "123456789ABCDEFGHJKLMNPQRSTUVWXYZabcdefghijkmnopqrstuvwxyz".
(* base58.py:29 *)
Definition BASE58_BASE : Z := zlen BASE58_ALPHABET.

(* base58.py:30: BASE58_LOOKUP[c] *)
Fixpoint lookup_from (c : Z) (l : bytes) (i : Z) : res Z :=
  match l with
  | [] => Err KeyError
  | x :: t => if c =? x then Ok i else lookup_from c t (i + 1)
  end.
(* base58.py:30 *)
Definition BASE58_LOOKUP (c : Z) : res Z := lookup_from c BASE58_ALPHABET 0.

(* base58.py:114-138; any exception of lookup_f becomes ValueError *)
Fixpoint to_long_loop (base : Z) (lookup_f : Z -> res Z) (s : bytes) (v prefix : Z)
  : res (Z * Z) :=
  match s with
  | [] => Ok (v, prefix)
  | c :: t =>
      match lookup_f c with
      | Err _ => Err ValueError
      | Ok d =>
          let v := v * base + d in
          to_long_loop base lookup_f t v (if v =? 0 then prefix + 1 else prefix)
      end
  end.
(* base58.py:114-138 *)
Definition to_long (base : Z) (lookup_f : Z -> res Z) (s : bytes) : res (Z * Z) :=
  to_long_loop base lookup_f s 0 0.

(* base58.py:102-108; ba is built by append *)
Fixpoint from_long_loop (fuel : nat) (v base : Z) (charset : Z -> res Z) : res bytes :=
  if 0 <? v
  then match fuel with
       | O => Err EFuel
       | S f =>
           match charset (v mod base) with
           | Err _ => Err ValueError
           | Ok c => r <- from_long_loop f (v / base) base charset ;; Ok (c :: r)
           end
       end
  else Ok [].

(* base58.py:87-111; a base of at least 2 halves v at every step *)
Definition from_long (v prefix base : Z) (charset : Z -> res Z) : res bytes :=
  ba <- from_long_loop (S (Z.to_nat (Z.log2 v))) v base charset ;;
  z <- charset 0 ;;
  Ok (rev (ba ++ zrepeat z prefix)).

Section Base58.
  Context (H : hashes) (net : network).

  (* base58.py:33-40 *)
  Definition base58_encode (data : bytes) (checksum : bool) : res str :=
    let data := if checksum then data ++ slice_to (hash256 H net data) 4 else data in
    ' (v, prefix) <- to_long 256 (fun x => Ok x) data ;;
    from_long v prefix BASE58_BASE (fun v => index BASE58_ALPHABET v).

  (* base58.py:43-56 *)
  Definition base58_decode (s : str) (checksum : bool) : res bytes :=
    b <- utf8 s ;;
    ' (v, prefix) <- to_long BASE58_BASE BASE58_LOOKUP b ;;
    data <- from_long v prefix 256 (fun x => Ok x) ;;
    if checksum
    then let the_hash := slice_from data (-4) in
         let data := slice_to data (-4) in
         if leqb (slice_to (hash256 H net data) 4) the_hash then Ok data
         else Err ValueError
    else Ok data.

  (* base58.py:59-66 *)
  Definition encode_with_checksum (data : bytes) : res str := base58_encode data true.
  (* base58.py:69-75 *)
  Definition decode_with_checksum (s : str) : res bytes := base58_decode s true.

  (* base58.py:78-84 *)
  Definition has_checksum (base58 : str) : res bool :=
    match decode_with_checksum base58 with
    | Ok _ => Ok true
    | Err ValueError => Ok false
    | Err e => Err e
    end.
End Base58.
