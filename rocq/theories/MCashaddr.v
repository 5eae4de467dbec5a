(* riemann/encoding/cashaddr.py *)
From Coq Require Import String.
From Verif Require Import Py MNet MUtils MBech32.
Open Scope list_scope.
Open Scope Z_scope.

(* cashaddr.py:26 is the same CHARSET as bech32.py:28;
   cashaddr.py:113-132 is the same convertbits as bech32.py:132-152 *)

(* cashaddr.py:68-73 *)
Definition ca_generator : list (Z * Z) :=
  [(0x01, 0x98f2bc8e61); (0x02, 0x79b76d99e2); (0x04, 0xf33e5fb3c4);
   (0x08, 0xae2eabe2a8); (0x10, 0x1e4f43e470)].

(* cashaddr.py:75-79 *)
Definition ca_polymod_step (chk value : Z) : Z :=
  let top := Z.shiftr chk 35 in
  let chk := Z.lxor (Z.shiftl (Z.land chk 0x07ffffffff) 5) value in
  fold_left (fun chk i => if negb (Z.land top (fst i) =? 0) then Z.lxor chk (snd i) else chk)
            ca_generator chk.

(* cashaddr.py:66-80 *)
Definition ca_polymod (values : list Z) : Z :=
  Z.lxor (fold_left ca_polymod_step values 1) 1.

(* cashaddr.py:83-84 *)
Definition ca_prefix_expand (prefix : str) : list Z :=
  map (fun x => Z.land x 0x1f) prefix ++ [0].

(* cashaddr.py:87-92 *)
Definition ca_calculate_checksum (prefix : str) (payload : list Z) : list Z :=
  let poly := ca_polymod (ca_prefix_expand prefix ++ payload ++ [0; 0; 0; 0; 0; 0; 0; 0]) in
  map (fun i => Z.land (Z.shiftr poly (5 * (7 - Z.of_nat i))) 0x1f) (seq 0 8).

(* cashaddr.py:95-96 *)
Definition ca_verify_checksum (prefix : str) (payload : list Z) : bool :=
  ca_polymod (ca_prefix_expand prefix ++ payload) =? 0.

(* cashaddr.py:99-103 *)
Definition b32decode (inputs : str) : list Z := map (fun x => find CHARSET [x]) inputs.

(* cashaddr.py:106-110 *)
Definition b32encode (inputs : list Z) : res str := mapM (fun d => index CHARSET d) inputs.

Section Cashaddr.
  Context (net : network).

  (* cashaddr.py:29-43; None + list is a TypeError *)
  Definition cashaddr_encode (data : bytes) : res str :=
    match CASHADDR_PREFIX net with
    | None => Err ValueError
    | Some prefix =>
        c <- convertbits data 8 5 true ;;
        match c with
        | None => Err TypeError
        | Some data =>
            payload <- b32encode (data ++ ca_calculate_checksum prefix data) ;;
            Ok (prefix ++ lit ":" ++ payload)
        end
    end.

  (* cashaddr.py:46-63; None[:-6] is a TypeError *)
  Definition cashaddr_decode (data : str) : res bytes :=
    match CASHADDR_PREFIX net with
    | None => Err ValueError
    | Some net_prefix =>
        raise_if negb (find data net_prefix =? 0) as ValueError ;;
        match split_char 58 data with
        | [prefix; data] =>
            let decoded := b32decode data in
            raise_if negb (ca_verify_checksum prefix decoded) as ValueError ;;
            converted <- convertbits decoded 5 8 true ;;
            match converted with
            | None => Err TypeError
            | Some converted => Ok (slice_to converted (-6))
            end
        | _ => Err ValueError
        end
    end.
End Cashaddr.
