(* riemann/blake256.py: the class BLAKE and blake_hash.
   The object is a record; a method is a function from the record to the new
   record.  Once a method has raised, the object is not used again in the
   model. *)
From Verif Require Import Py.
Open Scope Z_scope.

(* blake256.py:96-101 *)
Definition IV64 : list Z := [
  0x6A09E667F3BCC908; 0xBB67AE8584CAA73B; 0x3C6EF372FE94F82B; 0xA54FF53A5F1D36F1;
  0x510E527FADE682D1; 0x9B05688C2B3E6C1F; 0x1F83D9ABFB41BD6B; 0x5BE0CD19137E2179].
(* blake256.py:103-108 *)
Definition IV48 : list Z := [
  0xCBBB9D5DC1059ED8; 0x629A292A367CD507; 0x9159015A3070DD17; 0x152FECD8F70E5939;
  0x67332667FFC00B31; 0x8EB44A8768581511; 0xDB0C2E0D64F98FA7; 0x47B5481DBEFA4FA4].
(* blake256.py:112-117 *)
Definition IV32 : list Z := [
  0x6A09E667; 0xBB67AE85; 0x3C6EF372; 0xA54FF53A;
  0x510E527F; 0x9B05688C; 0x1F83D9AB; 0x5BE0CD19].
(* blake256.py:121-126 *)
Definition IV28 : list Z := [
  0xC1059ED8; 0x367CD507; 0x3070DD17; 0xF70E5939;
  0xFFC00B31; 0x68581511; 0x64F98FA7; 0xBEFA4FA4].
(* blake256.py:129-138 *)
Definition C64 : list Z := [
  0x243F6A8885A308D3; 0x13198A2E03707344; 0xA4093822299F31D0; 0x082EFA98EC4E6C89;
  0x452821E638D01377; 0xBE5466CF34E90C6C; 0xC0AC29B7C97C50DD; 0x3F84D5B5B5470917;
  0x9216D5D98979FB1B; 0xD1310BA698DFB5AC; 0x2FFD72DBD01ADFB7; 0xB8E1AFED6A267E96;
  0xBA7C9045F12C7F99; 0x24A19947B3916CF7; 0x0801F2E2858EFC16; 0x636920D871574E69].
(* blake256.py:143-152 *)
Definition C32 : list Z := [
  0x243F6A88; 0x85A308D3; 0x13198A2E; 0x03707344;
  0xA4093822; 0x299F31D0; 0x082EFA98; 0xEC4E6C89;
  0x452821E6; 0x38D01377; 0xBE5466CF; 0x34E90C6C;
  0xC0AC29B7; 0xC97C50DD; 0x3F84D5B5; 0xB5470917].
(* blake256.py:155-176 *)
Definition SIGMA : list (list nat) := [
  [ 0; 1; 2; 3; 4; 5; 6; 7; 8; 9;10;11;12;13;14;15];
  [14;10; 4; 8; 9;15;13; 6; 1;12; 0; 2;11; 7; 5; 3];
  [11; 8;12; 0; 5; 2;15;13;10;14; 3; 6; 7; 1; 9; 4];
  [ 7; 9; 3; 1;13;12;11;14; 2; 6; 5;10; 4; 0;15; 8];
  [ 9; 0; 5; 7; 2; 4;10;15;14; 1;11;12; 6; 8; 3;13];
  [ 2;12; 6;10; 0;11; 8; 3; 4;13; 7; 5;15;14; 1; 9];
  [12; 5; 1;15;14;13; 4;10; 0; 7; 6; 3; 9; 2; 8;11];
  [13;11; 7;14;12; 1; 3; 9; 5; 0;15; 4; 8; 6; 2;10];
  [ 6;15;14; 9;11; 3; 0; 8;12; 2;13; 7; 1; 4;10; 5];
  [10; 2; 8; 4; 7; 6; 1; 5;15;11; 9;14; 3;12;13; 0];
  [ 0; 1; 2; 3; 4; 5; 6; 7; 8; 9;10;11;12;13;14;15];
  [14;10; 4; 8; 9;15;13; 6; 1;12; 0; 2;11; 7; 5; 3];
  [11; 8;12; 0; 5; 2;15;13;10;14; 3; 6; 7; 1; 9; 4];
  [ 7; 9; 3; 1;13;12;11;14; 2; 6; 5;10; 4; 0;15; 8];
  [ 9; 0; 5; 7; 2; 4;10;15;14; 1;11;12; 6; 8; 3;13];
  [ 2;12; 6;10; 0;11; 8; 3; 4;13; 7; 5;15;14; 1; 9];
  [12; 5; 1;15;14;13; 4;10; 0; 7; 6; 3; 9; 2; 8;11];
  [13;11; 7;14;12; 1; 3; 9; 5; 0;15; 4; 8; 6; 2;10];
  [ 6;15;14; 9;11; 3; 0; 8;12; 2;13; 7; 1; 4;10; 5];
  [10; 2; 8; 4; 7; 6; 1; 5;15;11; 9;14; 3;12;13; 0]]%nat.

(* Attributes that __init__ derives from hashbitlen and that never change
   (blake256.py:191, 203-218, 226-241) *)
Record bparams := {
  p_hashbitlen : Z;
  p_MASK : Z; p_WORDBYTES : Z; p_WORDBITS : Z; p_BLKBYTES : Z; p_BLKBITS : Z;
  p_ROUNDS : nat; p_cxx : list Z;
  p_rot1 : Z; p_rot2 : Z; p_rot3 : Z; p_rot4 : Z; p_mul : Z
}.

(* Attributes that change (blake256.py:192-197); b_hash is set by final only *)
Record blake := {
  b_p : bparams;
  b_h : list Z; b_t : Z; b_cache : bytes; b_salt : list Z;
  b_state : Z; b_nullt : Z; b_hash : bytes
}.

(* blake256.py:203-218 *)
Definition params32 (hashbitlen : Z) : bparams := {|
  p_hashbitlen := hashbitlen;
  p_MASK := 0xFFFFFFFF; p_WORDBYTES := 4; p_WORDBITS := 32;
  p_BLKBYTES := 64; p_BLKBITS := 512; p_ROUNDS := 14; p_cxx := C32;
  p_rot1 := 16; p_rot2 := 12; p_rot3 := 8; p_rot4 := 7; p_mul := 0 |}.
(* blake256.py:226-241 *)
Definition params64 (hashbitlen : Z) : bparams := {|
  p_hashbitlen := hashbitlen;
  p_MASK := 0xFFFFFFFFFFFFFFFF; p_WORDBYTES := 8; p_WORDBITS := 64;
  p_BLKBYTES := 128; p_BLKBITS := 1024; p_ROUNDS := 16; p_cxx := C64;
  p_rot1 := 32; p_rot2 := 25; p_rot3 := 16; p_rot4 := 11; p_mul := 1 |}.

(* blake256.py:183-247 *)
Definition blake_init (hashbitlen : Z) : res blake :=
  raise_if negb (zmem hashbitlen [224; 256; 384; 512]) as PyException ;;
  let mk p iv := {| b_p := p; b_h := iv; b_t := 0; b_cache := [];
                    b_salt := [0; 0; 0; 0]; b_state := 1; b_nullt := 0;
                    b_hash := [] |} in
  if (hashbitlen =? 224) || (hashbitlen =? 256)
  then Ok (mk (params32 hashbitlen) (if hashbitlen =? 224 then IV28 else IV32))
  else Ok (mk (params64 hashbitlen) (if hashbitlen =? 384 then IV48 else IV64)).

(* blake256.py:512-518: _fourByte2int and _eightByte2int *)
Definition byte2int (wordbytes : Z) (l : bytes) : res Z :=
  if zlen l =? wordbytes then Ok (from_bytes true false l) else Err StructError.
(* blake256.py:520-530: _int2fourByte and _int2eightByte *)
Definition int2byte (wordbytes : Z) (x : Z) : res bytes :=
  match to_bytes x wordbytes true false with
  | Ok b => Ok b
  | Err _ => Err StructError
  end.

(* v[i] on lists whose length is fixed and larger than every index used
   (v: 16, m: 16, h: 8, cxx: 16, salt: 4, SIGMA: 20 x 16); blake256.py:260-323 *)
Definition at_ (l : list Z) (i : nat) : Z := nth i l 0.

(* (x >> rot) | ((x << (WORDBITS-rot)) & MASK), blake256.py:291,294,298,301 *)
Definition brot (p : bparams) (x rot : Z) : Z :=
  Z.lor (Z.shiftr x rot) (Z.land (Z.shiftl x (p_WORDBITS p - rot)) (p_MASK p)).

(* blake256.py:280-306 *)
Definition blake_G (p : bparams) (m : list Z) (round : nat)
  (v : list Z) (abcdi : nat * nat * nat * nat * nat) : list Z :=
  let '(a, b, c, d, i) := abcdi in
  let va := at_ v a in let vb := at_ v b in
  let vc := at_ v c in let vd := at_ v d in
  let sri := nth i (nth round SIGMA []) 0%nat in
  let sri1 := nth (S i) (nth round SIGMA []) 0%nat in
  let va := Z.land (va + vb + Z.lxor (at_ m sri) (at_ (p_cxx p) sri1)) (p_MASK p) in
  let vd := brot p (Z.lxor vd va) (p_rot1 p) in
  let vc := Z.land (vc + vd) (p_MASK p) in
  let vb := brot p (Z.lxor vb vc) (p_rot2 p) in
  let va := Z.land (va + vb + Z.lxor (at_ m sri1) (at_ (p_cxx p) sri)) (p_MASK p) in
  let vd := brot p (Z.lxor vd va) (p_rot3 p) in
  let vc := Z.land (vc + vd) (p_MASK p) in
  let vb := brot p (Z.lxor vb vc) (p_rot4 p) in
  set_nth (set_nth (set_nth (set_nth v a va) b vb) c vc) d vd.

(* blake256.py:310-318 *)
Definition blake_round (p : bparams) (m : list Z) (v : list Z) (round : nat) : list Z :=
  fold_left (blake_G p m round)
    [(0, 4, 8, 12, 0); (1, 5, 9, 13, 2); (2, 6, 10, 14, 4); (3, 7, 11, 15, 6);
     (0, 5, 10, 15, 8); (1, 6, 11, 12, 10); (2, 7, 8, 13, 12); (3, 4, 9, 14, 14)]%nat v.

(* blake256.py:251-324 *)
Definition blake_compress (o : blake) (block : bytes) : res blake :=
  let p := b_p o in
  let mul := p_mul p in
  m <- mapM (fun i =>
               let s := Z.shiftl (Z.shiftl (Z.of_nat i) 2) mul in
               byte2int (p_WORDBYTES p) (slice block s (s + Z.shiftl 4 mul)))
            (seq 0 16) ;;
  let v := map (fun i => at_ (b_h o) i) (seq 0 8)
           ++ map (fun i => Z.lxor (at_ (p_cxx p) i) (at_ (b_salt o) i)) (seq 0 4)
           ++ map (fun i => at_ (p_cxx p) i) (seq 4 4) in
  let v := if b_nullt o =? 0
           then let v := set_nth v 12 (Z.lxor (at_ v 12) (Z.land (b_t o) (p_MASK p))) in
                let v := set_nth v 13 (Z.lxor (at_ v 13) (Z.land (b_t o) (p_MASK p))) in
                let v := set_nth v 14 (Z.lxor (at_ v 14) (Z.shiftr (b_t o) (p_WORDBITS p))) in
                set_nth v 15 (Z.lxor (at_ v 15) (Z.shiftr (b_t o) (p_WORDBITS p)))
           else v in
  let v := fold_left (blake_round p m) (seq 0 (p_ROUNDS p)) v in
  Ok {| b_p := p;
        b_h := map (fun i => Z.lxor (Z.lxor (Z.lxor (at_ (b_h o) i) (at_ v i))
                                            (at_ v (i + 8)))
                                    (at_ (b_salt o) (Nat.land i 3))) (seq 0 8);
        b_t := b_t o; b_cache := b_cache o; b_salt := b_salt o;
        b_state := b_state o; b_nullt := b_nullt o; b_hash := b_hash o |}.

(* Attribute assignments; blake256.py:354-357 *)
Definition set_salt (o : blake) (s : list Z) : blake :=
  {| b_p := b_p o; b_h := b_h o; b_t := b_t o; b_cache := b_cache o; b_salt := s;
     b_state := b_state o; b_nullt := b_nullt o; b_hash := b_hash o |}.
(* blake256.py:368, 498 *)
Definition set_state (o : blake) (s : Z) : blake :=
  {| b_p := b_p o; b_h := b_h o; b_t := b_t o; b_cache := b_cache o; b_salt := b_salt o;
     b_state := s; b_nullt := b_nullt o; b_hash := b_hash o |}.
(* blake256.py:399, 402, 415 *)
Definition set_cache (o : blake) (c : bytes) : blake :=
  {| b_p := b_p o; b_h := b_h o; b_t := b_t o; b_cache := c; b_salt := b_salt o;
     b_state := b_state o; b_nullt := b_nullt o; b_hash := b_hash o |}.
(* blake256.py:400, 408, 454-486 *)
Definition set_t (o : blake) (t : Z) : blake :=
  {| b_p := b_p o; b_h := b_h o; b_t := t; b_cache := b_cache o; b_salt := b_salt o;
     b_state := b_state o; b_nullt := b_nullt o; b_hash := b_hash o |}.
(* blake256.py:464, 476 *)
Definition set_nullt (o : blake) (n : Z) : blake :=
  {| b_p := b_p o; b_h := b_h o; b_t := b_t o; b_cache := b_cache o; b_salt := b_salt o;
     b_state := b_state o; b_nullt := n; b_hash := b_hash o |}.
(* blake256.py:497 *)
Definition set_hash (o : blake) (h : bytes) : blake :=
  {| b_p := b_p o; b_h := b_h o; b_t := b_t o; b_cache := b_cache o; b_salt := b_salt o;
     b_state := b_state o; b_nullt := b_nullt o; b_hash := h |}.

(* blake256.py:329-357, for a salt that is bytes.  chr(0)*n is a str, so the
   concatenation on line 350 raises TypeError. *)
Definition blake_addsalt (o : blake) (salt : bytes) : res blake :=
  raise_if negb (b_state o =? 1) as PyException ;;
  let p := b_p o in
  let saltsize := p_WORDBYTES p * 4 in
  raise_if zlen salt <? saltsize as TypeError ;;
  let salt := slice_from salt (- saltsize) in
  let mul := p_mul p in
  s0 <- byte2int (p_WORDBYTES p) (slice_to salt (Z.shiftl 4 mul)) ;;
  s1 <- byte2int (p_WORDBYTES p) (slice salt (Z.shiftl 4 mul) (Z.shiftl 8 mul)) ;;
  s2 <- byte2int (p_WORDBYTES p) (slice salt (Z.shiftl 8 mul) (Z.shiftl 12 mul)) ;;
  s3 <- byte2int (p_WORDBYTES p) (slice_from salt (Z.shiftl 12 mul)) ;;
  Ok (set_salt o [s0; s1; s2; s3]).

(* An argument of update/final: bytes or str; blake256.py:361-415, 419-500 *)
Inductive pydata := DBytes (b : bytes) | DStr (s : str).

(* blake256.py:407-411 *)
Fixpoint blake_update_loop (fuel : nat) (o : blake) (data : bytes) (datalen : Z)
  : res (blake * bytes * Z) :=
  let BLKBYTES := p_BLKBYTES (b_p o) in
  if datalen <? BLKBYTES then Ok (o, data, datalen)
  else match fuel with
       | O => Err EFuel
       | S f =>
           let o := set_t o (b_t o + p_BLKBITS (b_p o)) in
           o <- blake_compress o (slice_to data BLKBYTES) ;;
           blake_update_loop f o (slice_from data BLKBYTES) (datalen - BLKBYTES)
       end.

(* blake256.py:361-415.  datalen is taken before a str is encoded (373, 380). *)
Definition blake_update (o : blake) (d : pydata) : res blake :=
  let o := set_state o 2 in
  let BLKBYTES := p_BLKBYTES (b_p o) in
  let datalen := match d with DBytes b => zlen b | DStr s => zlen s end in
  if datalen =? 0 then Ok o
  else
    data <- match d with DBytes b => Ok b | DStr s => utf8 s end ;;
    let left := zlen (b_cache o) in
    let fill := BLKBYTES - left in
    ' (o, data, datalen) <-
      (if negb (left =? 0) && (fill <=? datalen)
       then let o := set_cache o (b_cache o ++ slice_to data fill) in
            let o := set_t o (b_t o + p_BLKBITS (b_p o)) in
            o <- blake_compress o (b_cache o) ;;
            Ok (set_cache o [], slice_from data fill, datalen - fill)
       else Ok (o, data, datalen)) ;;
    ' (o, data, datalen) <- blake_update_loop (S (length data)) o data datalen ;;
    if 0 <? datalen
    then Ok (set_cache o (b_cache o ++ slice_to data datalen))
    else Ok o.

(* blake256.py:435 *)
Definition PADDING : bytes := 0x80 :: repeat 0 128.

(* blake256.py:419-500; returns the new object and the digest *)
Definition blake_final (o : blake) (d : pydata) : res (blake * bytes) :=
  if b_state o =? 3 then Ok (o, b_hash o)
  else
    let truthy := match d with DBytes b => negb (zlen b =? 0)
                             | DStr s => negb (zlen s =? 0) end in
    o <- (if truthy then blake_update o d else Ok o) ;;
    let p := b_p o in
    let BLKBYTES := p_BLKBYTES p in
    let tt := b_t o + Z.shiftl (zlen (b_cache o)) 3 in
    msglen <- (if BLKBYTES =? 64
               then int2byte 8 tt
               else let low := Z.land tt (p_MASK p) in
                    let high := Z.shiftr tt (p_WORDBITS p) in
                    a <- int2byte 8 high ;;
                    b <- int2byte 8 low ;;
                    Ok (a ++ b)) ;;
    let sizewithout := BLKBYTES - (Z.shiftr (p_WORDBITS p) 2 + 1) in
    o <- (if zlen (b_cache o) =? sizewithout
          then
            let o := set_t o (b_t o - 8) in
            if zmem (p_hashbitlen p) [224; 384]
            then blake_update o (DBytes [0x80])
            else blake_update o (DBytes [0x81])
          else
            o <- (if zlen (b_cache o) <? sizewithout
                  then
                    let o := if zlen (b_cache o) =? 0 then set_nullt o 1 else o in
                    let o := set_t o (b_t o
                               - Z.shiftl (sizewithout - zlen (b_cache o)) 3) in
                    blake_update o
                      (DBytes (slice_to PADDING (sizewithout - zlen (b_cache o))))
                  else
                    let o := set_t o (b_t o
                               - Z.shiftl (BLKBYTES - zlen (b_cache o)) 3) in
                    o <- blake_update o
                           (DBytes (slice_to PADDING (BLKBYTES - zlen (b_cache o)))) ;;
                    let o := set_t o (b_t o - Z.shiftl (sizewithout + 1) 3) in
                    o <- blake_update o (DBytes (slice PADDING 1 (sizewithout + 1))) ;;
                    Ok (set_nullt o 1)) ;;
            o <- (if zmem (p_hashbitlen p) [224; 384]
                  then blake_update o (DBytes [0])
                  else blake_update o (DBytes [1])) ;;
            Ok (set_t o (b_t o - 8))) ;;
    let o := set_t o (b_t o - BLKBYTES) in
    o <- blake_update o (DBytes msglen) ;;
    hashval <- (if BLKBYTES =? 64 then mapM (int2byte 4) (b_h o)
                else mapM (int2byte 8) (b_h o)) ;;
    let h := slice_to (concat hashval) (Z.shiftr (p_hashbitlen p) 3) in
    let o := set_state (set_hash o h) 3 in
    Ok (o, h).

(* blake256.py:506-507 *)
Definition blake_hexdigest (o : blake) (d : pydata) : res (blake * str) :=
  ' (o, h) <- blake_final o d ;;
  Ok (o, hex h).

(* blake256.py:538-539 *)
Definition blake_hash (data : bytes) : res bytes :=
  o <- blake_init 256 ;;
  ' (_, h) <- blake_final o (DBytes data) ;;
  Ok h.
