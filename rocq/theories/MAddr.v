(* riemann/encoding/addresses.py *)
From Coq Require Import String.
From Verif Require Import Py MNet MUtils MScript MBase58 MBech32 MCashaddr.
Open Scope list_scope.
Open Scope Z_scope.

Section Addresses.
  Context (H : hashes) (net : network).

  (* LEGACY_ENCODER is base58, CASHADDR_ENCODER is cashaddr on every network;
     SEGWIT_ENCODER is bech32 or base58 (networks.py:20-22).  An encoder may
     return None (bech32.py:75), hence the option. *)
  Definition legacy_encode (b : bytes) : res (option str) :=
    s <- base58_encode H net b true ;; Ok (Some s).
  (* addresses.py:30, 152: riemann.network.SEGWIT_ENCODER.encode *)
  Definition segwit_encoder_encode (b : bytes) : res (option str) :=
    match SEGWIT_ENCODER net with
    | Enc_bech32 => bech32_net_encode net b
    | Enc_base58 => legacy_encode b
    end.
  (* addresses.py:232: riemann.network.SEGWIT_ENCODER.decode *)
  Definition segwit_encoder_decode (s : str) : res bytes :=
    match SEGWIT_ENCODER net with
    | Enc_bech32 => bech32_net_decode net s
    | Enc_base58 => base58_decode H net s true
    end.
  (* addresses.py:26, 148: riemann.network.CASHADDR_ENCODER.encode *)
  Definition cashaddr_encoder_encode (b : bytes) : res (option str) :=
    s <- cashaddr_encode net b ;; Ok (Some s).

  (* addresses.py:6-34 *)
  Definition hash_to_sh_address (script_hash : bytes) (witness cashaddr : bool)
    : res (option str) :=
    match CASHADDR_P2SH net, cashaddr with
    | Some p, true => cashaddr_encoder_encode (p ++ script_hash)
    | _, _ =>
        if witness then segwit_encoder_encode (P2WSH_PREFIX net ++ script_hash)
        else legacy_encode (P2SH_PREFIX net ++ script_hash)
    end.

  (* addresses.py:37-61 *)
  Definition ser_script_to_sh_address (script_bytes : bytes) (witness cashaddr : bool)
    : res (option str) :=
    let script_hash := if witness then sha256 H script_bytes
                       else hash160 H net script_bytes in
    hash_to_sh_address script_hash witness cashaddr.

  (* addresses.py:64-86 *)
  Definition make_sh_address (script_string : str) (witness cashaddr : bool)
    : res (option str) :=
    b <- serialize net script_string ;; ser_script_to_sh_address b witness cashaddr.

  (* addresses.py:89-99, 102-112, 115-126 *)
  Definition make_p2wsh_address (s : str) := make_sh_address s true true.
  (* addresses.py:102-112 *)
  Definition make_p2sh_address (s : str) := make_sh_address s false true.
  (* addresses.py:115-126 *)
  Definition make_legacy_p2sh_address (s : str) := make_sh_address s false false.

  (* addresses.py:129-156 *)
  Definition make_pkh_address_of_hash (pubkey_hash : bytes) (witness cashaddr : bool)
    : res (option str) :=
    match CASHADDR_P2PKH net, cashaddr with
    | Some p, true => cashaddr_encoder_encode (p ++ pubkey_hash)
    | _, _ =>
        if witness then segwit_encoder_encode (P2WPKH_PREFIX net ++ pubkey_hash)
        else legacy_encode (P2PKH_PREFIX net ++ pubkey_hash)
    end.

  (* addresses.py:159-178 *)
  Definition make_pkh_address (pubkey : bytes) (witness cashaddr : bool) : res (option str) :=
    make_pkh_address_of_hash (hash160 H net pubkey) witness cashaddr.

  (* addresses.py:181-190, 193-202, 205-214 *)
  Definition make_p2wpkh_address (pubkey : bytes) := make_pkh_address pubkey true true.
  (* addresses.py:193-202 *)
  Definition make_p2pkh_address (pubkey : bytes) := make_pkh_address pubkey false true.
  (* addresses.py:205-214 *)
  Definition make_legacy_p2pkh_address (pubkey : bytes) := make_pkh_address pubkey false false.

  (* addresses.py:217-242 *)
  Definition parse (address : str) : res bytes :=
    match base58_decode H net address true with
    | Ok b => Ok b
    | Err ValueError =>
        match segwit_encoder_decode address with
        | Ok b => Ok b
        | Err _ =>
            match cashaddr_decode net address with
            | Ok b => Ok b
            | Err _ => Err ValueError
            end
        end
    | Err e => Err e
    end.

  (* x.find(p) == 0; addresses.py:258-298 *)
  Definition starts (x p : bytes) : bool := find x p =? 0.

  (* addresses.py:245-306.  The state threaded through lines 272-300 is
     (prefix, parsed_hash, suffix); prefix and suffix are only read when
     parsed_hash is not empty, that is after an assignment. *)
  Definition to_output_script (address : str) : res bytes :=
    parsed <- parse address ;;
    if starts parsed (P2WPKH_PREFIX net) && (zlen parsed =? 22) then Ok parsed
    else if starts parsed (P2WSH_PREFIX net) && (zlen parsed =? 34) then Ok parsed
    else
      let st := ([], [], []) in
      let st :=
        match CASHADDR_P2SH net with
        | Some p =>
            if starts parsed p && (zlen parsed =? zlen p + 20)
            then ([0xa9; 0x14], slice_from parsed (zlen (P2SH_PREFIX net)), [0x87])
            else st
        | None => st
        end in
      let st :=
        match CASHADDR_P2PKH net with
        | Some p =>
            if starts parsed p && (zlen parsed =? zlen p + 20)
            then ([0x76; 0xa9; 0x14], slice_from parsed (zlen (P2PKH_PREFIX net)),
                  [0x88; 0xac])
            else st
        | None => st
        end in
      let st :=
        if starts parsed (P2PKH_PREFIX net)
           && (zlen parsed =? zlen (P2PKH_PREFIX net) + 20)
        then ([0x76; 0xa9; 0x14], slice_from parsed (zlen (P2PKH_PREFIX net)), [0x88; 0xac])
        else st in
      let st :=
        if starts parsed (P2SH_PREFIX net)
           && (zlen parsed =? zlen (P2SH_PREFIX net) + 20)
        then ([0xa9; 0x14], slice_from parsed (zlen (P2SH_PREFIX net)), [0x87])
        else st in
      let '(prefix, parsed_hash, suffix) := st in
      raise_if leqb parsed_hash [] as ValueError ;;
      Ok (prefix ++ parsed_hash ++ suffix).

  (* addresses.py:309-342.  The handlers on lines 323 and 331 also swallow a
     TypeError raised while encoding. *)
  Definition from_output_script (output_script : bytes) (cashaddr : bool)
    : res (option str) :=
    let rest2 :=
      if (zlen output_script =? 25) && starts output_script [0x76; 0xa9; 0x14]
      then make_pkh_address_of_hash (slice output_script 3 23) false cashaddr
      else if (zlen output_script =? 23) && starts output_script [0xa9; 0x14]
      then hash_to_sh_address (slice output_script 2 22) false cashaddr
      else Err ValueError in
    let rest1 :=
      if (zlen output_script =? zlen (P2WPKH_PREFIX net) + 20)
         && starts output_script (P2WPKH_PREFIX net)
      then match make_pkh_address_of_hash (slice_from output_script (-20)) true cashaddr with
           | Err TypeError => rest2
           | r => r
           end
      else rest2 in
    if (zlen output_script =? zlen (P2WSH_PREFIX net) + 32)
       && starts output_script (P2WSH_PREFIX net)
    then match hash_to_sh_address (slice_from output_script (-32)) true cashaddr with
         | Err TypeError => rest1
         | r => r
         end
    else rest1.

  (* addresses.py:345-382; None is a TypeError that skips the block *)
  Definition parse_hash (address : str) : res bytes :=
    raw <- parse address ;;
    let legacy :=
      if starts raw (P2SH_PREFIX net) then Ok (slice_from raw (zlen (P2SH_PREFIX net)))
      else if starts raw (P2PKH_PREFIX net)
      then Ok (slice_from raw (zlen (P2PKH_PREFIX net)))
      else Err ValueError in
    let segwit :=
      match BECH32_HRP net with
      | Some hrp =>
          if starts address hrp
          then if starts raw (P2WSH_PREFIX net)
               then Ok (slice_from raw (zlen (P2WSH_PREFIX net)))
               else if starts raw (P2WPKH_PREFIX net)
               then Ok (slice_from raw (zlen (P2WPKH_PREFIX net)))
               else legacy
          else legacy
      | None => legacy
      end in
    match CASHADDR_PREFIX net with
    | Some cp =>
        if starts address cp
        then match CASHADDR_P2SH net with
             | None => segwit
             | Some p =>
                 if starts raw p then Ok (slice_from raw (zlen p))
                 else match CASHADDR_P2PKH net with
                      | None => segwit
                      | Some q => if starts raw q then Ok (slice_from raw (zlen q))
                                  else segwit
                      end
             end
        else segwit
    | None => segwit
    end.
End Addresses.
