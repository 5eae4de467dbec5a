(* riemann/encoding/bech32.py *)
From Coq Require Import String.
From Verif Require Import Py MNet MUtils.
Open Scope list_scope.
Open Scope Z_scope.

(* bech32.py:28 *)
Definition CHARSET : str := lit "qpzry9x8gf2tvdw0s3jn54khce6mua7l".

(* The inner while loop of convertbits, bech32.py:144-146: bits goes down by
   tobits at each turn.  Returns the bits left and the values appended. *)
Fixpoint convertbits_emit (fuel : nat) (acc bits tobits : Z) : res (Z * list Z) :=
  if bits <? tobits then Ok (bits, [])
  else match fuel with
  | O => Err EFuel
  | S f =>
      let bits := bits - tobits in
      ' (b, r) <- convertbits_emit f acc bits tobits ;;
      Ok (b, Z.land (Z.shiftr acc bits) (Z.shiftl 1 tobits - 1) :: r)
  end.

(* bech32.py:139-146; None is "return None" *)
Fixpoint convertbits_loop (data : list Z) (frombits tobits acc bits : Z)
  : res (option (Z * Z * list Z)) :=
  match data with
  | [] => Ok (Some (acc, bits, []))
  | value :: t =>
      if (value <? 0) || negb (Z.shiftr value frombits =? 0) then Ok None
      else
        let max_acc := Z.shiftl 1 (frombits + tobits - 1) - 1 in
        let acc := Z.land (Z.lor (Z.shiftl acc frombits) value) max_acc in
        let bits := bits + frombits in
        ' (bits, out) <- convertbits_emit (S (Z.to_nat bits)) acc bits tobits ;;
        r <- convertbits_loop t frombits tobits acc bits ;;
        match r with
        | None => Ok None
        | Some (acc, bits, rest) => Ok (Some (acc, bits, out ++ rest))
        end
  end.

(* bech32.py:132-152, and cashaddr.py:113-132 which is the same text *)
Definition convertbits (data : list Z) (frombits tobits : Z) (pad : bool)
  : res (option (list Z)) :=
  let maxv := Z.shiftl 1 tobits - 1 in
  r <- convertbits_loop data frombits tobits 0 0 ;;
  match r with
  | None => Ok None
  | Some (acc, bits, ret) =>
      let last := Z.land (Z.shiftl acc (tobits - bits)) maxv in
      if pad
      then if negb (bits =? 0) then Ok (Some (ret ++ [last])) else Ok (Some ret)
      else if (frombits <=? bits) || negb (last =? 0) then Ok None
      else Ok (Some ret)
  end.

(* bech32.py:105 *)
Definition generator : list Z :=
  [0x3b6a57b2; 0x26508e6d; 0x1ea119fa; 0x3d4233dd; 0x2a1462b3].

(* bech32.py:110-111: chk ^= generator[i] if ((top >> i) & 1) else 0 *)
Fixpoint polymod_mix (gen : list Z) (i top chk : Z) : Z :=
  match gen with
  | [] => chk
  | g :: t =>
      polymod_mix t (i + 1) top
        (Z.lxor chk (if negb (Z.land (Z.shiftr top i) 1 =? 0) then g else 0))
  end.

(* bech32.py:107-111 *)
Definition polymod_step (chk value : Z) : Z :=
  let top := Z.shiftr chk 25 in
  let chk := Z.lxor (Z.shiftl (Z.land chk 0x1ffffff) 5) value in
  polymod_mix generator 0 top chk.

(* bech32.py:103-112 *)
Definition bech32_polymod (values : list Z) : Z := fold_left polymod_step values 1.

(* bech32.py:115-117 *)
Definition bech32_hrp_expand (hrp : str) : list Z :=
  map (fun x => Z.shiftr x 5) hrp ++ [0] ++ map (fun x => Z.land x 31) hrp.

(* bech32.py:120-122 *)
Definition bech32_verify_checksum (hrp : str) (data : list Z) : bool :=
  bech32_polymod (bech32_hrp_expand hrp ++ data) =? 1.

(* bech32.py:125-129 *)
Definition bech32_create_checksum (hrp : str) (data : list Z) : list Z :=
  let values := bech32_hrp_expand hrp ++ data in
  let polymod := Z.lxor (bech32_polymod (values ++ [0; 0; 0; 0; 0; 0])) 1 in
  map (fun i => Z.land (Z.shiftr polymod (5 * (5 - Z.of_nat i))) 31) (seq 0 6).

(* bech32.py:79-82 *)
Definition bech32_encode (hrp : str) (data : list Z) : res str :=
  let combined := data ++ bech32_create_checksum hrp data in
  chars <- mapM (fun d => index CHARSET d) combined ;;
  Ok (hrp ++ lit "1" ++ chars).

(* bech32.py:85-100; None is the return value (None, None) *)
Definition bech32_decode (bech : str) : option (str * list Z) :=
  if existsb (fun x => (x <? 33) || (126 <? x)) bech
     || (negb (leqb (lower bech) bech) && negb (leqb (upper bech) bech))
  then None
  else
    let bech := lower bech in
    let pos := rfind1 bech 49 in
    if (pos <? 1) || (zlen bech <? pos + 7) || (90 <? zlen bech) then None
    else if negb (forallb (fun x => zmem x CHARSET) (slice_from bech (pos + 1))) then None
    else
      let hrp := slice_to bech pos in
      let data := map (fun x => find CHARSET [x]) (slice_from bech (pos + 1)) in
      if negb (bech32_verify_checksum hrp data) then None
      else Some (hrp, slice_to data (-6)).

(* bech32.py:56-68; None is the return value (None, None) *)
Definition segwit_decode (hrp : str) (addr : str) : res (option (Z * list Z)) :=
  match bech32_decode addr with
  | None => Ok None
  | Some (hrpgot, data) =>
      if negb (leqb hrpgot hrp) then Ok None
      else
        decoded <- convertbits (slice_from data 1) 5 8 false ;;
        match decoded with
        | None => Ok None
        | Some decoded =>
            if (zlen decoded <? 2) || (40 <? zlen decoded) then Ok None
            else
              d0 <- index data 0 ;;
              if 16 <? d0 then Ok None
              else if (d0 =? 0) && negb (zlen decoded =? 20) && negb (zlen decoded =? 32)
              then Ok None
              else Ok (Some (d0, decoded))
        end
  end.

(* bech32.py:71-76; None is "return None".  [witver] + None is a TypeError. *)
Definition segwit_encode (hrp : str) (witver : Z) (witprog : list Z) : res (option str) :=
  c <- convertbits witprog 8 5 true ;;
  match c with
  | None => Err TypeError
  | Some c =>
      ret <- bech32_encode hrp (witver :: c) ;;
      d <- segwit_decode hrp ret ;;
      match d with
      | None => Ok None
      | Some _ => Ok (Some ret)
      end
  end.

Section Bech32.
  Context (net : network).

  (* bech32.py:31-37; the result may be None *)
  Definition bech32_net_encode (data : bytes) : res (option str) :=
    match BECH32_HRP net with
    | None => Err ValueError
    | Some hrp => v <- index data 0 ;; segwit_encode hrp v (slice_from data 2)
    end.

  (* bech32.py:40-53; extending a bytearray with None is a TypeError, with a
     value above 255 a ValueError *)
  Definition bech32_net_decode (bech : str) : res bytes :=
    match BECH32_HRP net with
    | None => Err ValueError
    | Some hrp =>
        d <- segwit_decode hrp bech ;;
        match d with
        | None => Err TypeError
        | Some (version_prefix, hash_int_array) =>
            let ret := version_prefix :: zlen hash_int_array :: hash_int_array in
            raise_if negb (forallb (fun b => (0 <=? b) && (b <=? 255)) ret)
              as ValueError ;;
            Ok ret
        end
    end.
End Bech32.
