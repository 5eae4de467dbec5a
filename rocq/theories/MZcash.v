(* riemann/tx/zcash_shared.py, sprout.py, overwinter.py, sapling.py *)
From Coq Require Import String.
From Verif Require Import Py MNet MUtils MShared MTx.
Open Scope list_scope.
Open Scope Z_scope.

(* As in MTx.v: records hold the attributes and the bytes of an object; the
   isinstance checks hold by typing; arguments that may be None are options. *)

(* The eight parts of a Sprout proof (zcash_shared.py:17-24) *)
Record sprout_zkproof := {
  zk_pi_sub_a : bytes; zk_pi_prime_sub_a : bytes; zk_pi_sub_b : bytes;
  zk_pi_prime_sub_b : bytes; zk_pi_sub_c : bytes; zk_pi_prime_sub_c : bytes;
  zk_pi_sub_k : bytes; zk_pi_sub_h : bytes; zk_bytes : bytes }.

(* sapling.py:12-14 *)
Record sapling_zkproof := {
  szk_pi_sub_a : bytes; szk_pi_sub_b : bytes; szk_pi_sub_c : bytes; szk_bytes : bytes }.

(* SproutJoinsplit (zcash_shared.py:81-90) and SaplingJoinsplit (sapling.py:158-167)
   have the same attributes but for the type of the proof, P here *)
Record joinsplit (P : Type) := {
  js_vpub_old : bytes; js_vpub_new : bytes; js_anchor : bytes; js_nullifiers : bytes;
  js_commitments : bytes; js_ephemeral_key : bytes; js_random_seed : bytes;
  js_vmacs : bytes; js_zkproof : P; js_encoded_notes : bytes; js_bytes : bytes }.
Arguments js_vpub_old {P}. Arguments js_vpub_new {P}. Arguments js_anchor {P}.
Arguments js_nullifiers {P}. Arguments js_commitments {P}.
Arguments js_ephemeral_key {P}. Arguments js_random_seed {P}. Arguments js_vmacs {P}.
Arguments js_zkproof {P}. Arguments js_encoded_notes {P}. Arguments js_bytes {P}.

(* zcash_shared.py:79-145 *)
Definition sprout_joinsplit := joinsplit sprout_zkproof.
(* sapling.py:156-223 *)
Definition sapling_joinsplit := joinsplit sapling_zkproof.

(* sapling.py:43-48 *)
Record shielded_spend := {
  ss_cv : bytes; ss_anchor : bytes; ss_nullifier : bytes; ss_rk : bytes;
  ss_zkproof : sapling_zkproof; ss_spend_auth_sig : bytes; ss_bytes : bytes }.

(* sapling.py:100-105 *)
Record shielded_output := {
  so_cv : bytes; so_cmu : bytes; so_ephemeral_key : bytes; so_enc_ciphertext : bytes;
  so_out_ciphertext : bytes; so_zkproof : sapling_zkproof; so_bytes : bytes }.

(* sprout.py:12-22.  tx_joinsplits is a tuple, never None; it is an option here
   because the code tests it against None *)
Record sprout_tx := {
  sp_version : bytes; sp_tx_ins : list txin; sp_tx_outs : list txout;
  sp_lock_time : bytes; sp_tx_joinsplits : option (list sprout_joinsplit);
  sp_joinsplit_pubkey : option bytes; sp_joinsplit_sig : option bytes;
  sp_hsigs : list bytes; sp_primary_inputs : list bytes;
  sp_tx_id_le : bytes; sp_tx_id : bytes; sp_bytes : bytes }.

(* overwinter.py:12-24 *)
Record overwinter_tx := {
  ow_header : bytes; ow_group_id : bytes; ow_version : bytes;
  ow_tx_ins : list txin; ow_tx_outs : list txout;
  ow_lock_time : bytes; ow_expiry_height : bytes;
  ow_tx_joinsplits : list sprout_joinsplit;
  ow_joinsplit_pubkey : option bytes; ow_joinsplit_sig : option bytes;
  ow_hsigs : list bytes; ow_primary_inputs : list bytes;
  ow_tx_id_le : bytes; ow_tx_id : bytes; ow_bytes : bytes }.

(* sapling.py:242-256 *)
Record sapling_tx := {
  sa_header : bytes; sa_group_id : bytes;
  sa_tx_ins : list txin; sa_tx_outs : list txout;
  sa_lock_time : bytes; sa_expiry_height : bytes; sa_value_balance : bytes;
  sa_tx_shielded_spends : list shielded_spend;
  sa_tx_shielded_outputs : list shielded_output;
  sa_tx_joinsplits : list sapling_joinsplit;
  sa_joinsplit_pubkey : option bytes; sa_joinsplit_sig : option bytes;
  sa_binding_sig : option bytes;
  sa_hsigs : list bytes; sa_primary_inputs : list bytes;
  sa_tx_id_le : bytes; sa_tx_id : bytes; sa_bytes : bytes }.

Section Zcash.
  Context (H : hashes) (net : network).

  (* zcash_shared.py:8, sprout.py:35, overwinter.py:36, sapling.py:272 *)
  Definition net_has (s : str) : bool := contains (get_current_network_name net) s.

  (* zcash_shared.py:6-12: ZcashByteData.__init__ *)
  Definition zcash_only : res unit := guard (negb (net_has (lit "zcash"))) ValueError.

  (* self.validate_bytes(b, n) on a byte string; shared.py:128-149 *)
  Definition vb (b : bytes) (n : Z) : res unit := validate_bytes (Some b) (Some n).

  (** * Parts *)

  (* zcash_shared.py:26-64 *)
  Definition SproutZkproof (pi_sub_a pi_prime_sub_a pi_sub_b pi_prime_sub_b pi_sub_c
    pi_prime_sub_c pi_sub_k pi_sub_h : bytes) : res sprout_zkproof :=
    _ <- zcash_only ;;
    _ <- vb pi_sub_a 33 ;;
    _ <- vb pi_prime_sub_a 33 ;;
    _ <- vb pi_sub_b 65 ;;
    _ <- vb pi_prime_sub_b 33 ;;
    _ <- vb pi_sub_c 33 ;;
    _ <- vb pi_prime_sub_c 33 ;;
    _ <- vb pi_sub_k 33 ;;
    _ <- vb pi_sub_h 33 ;;
    Ok {| zk_pi_sub_a := pi_sub_a; zk_pi_prime_sub_a := pi_prime_sub_a;
          zk_pi_sub_b := pi_sub_b; zk_pi_prime_sub_b := pi_prime_sub_b;
          zk_pi_sub_c := pi_sub_c; zk_pi_prime_sub_c := pi_prime_sub_c;
          zk_pi_sub_k := pi_sub_k; zk_pi_sub_h := pi_sub_h;
          zk_bytes := pi_sub_a ++ pi_prime_sub_a ++ pi_sub_b ++ pi_prime_sub_b
                      ++ pi_sub_c ++ pi_prime_sub_c ++ pi_sub_k ++ pi_sub_h |}.

  (* zcash_shared.py:66-76 *)
  Definition SproutZkproof_from_bytes (s : bytes) : res sprout_zkproof :=
    SproutZkproof (slice s 0 33) (slice s 33 66) (slice s 66 131) (slice s 131 164)
      (slice s 164 197) (slice s 197 230) (slice s 230 263) (slice s 263 296).

  (* sapling.py:16-30 *)
  Definition SaplingZkproof (pi_sub_a pi_sub_b pi_sub_c : bytes) : res sapling_zkproof :=
    _ <- zcash_only ;;
    _ <- vb pi_sub_a 48 ;;
    _ <- vb pi_sub_b 96 ;;
    _ <- vb pi_sub_c 48 ;;
    Ok {| szk_pi_sub_a := pi_sub_a; szk_pi_sub_b := pi_sub_b; szk_pi_sub_c := pi_sub_c;
          szk_bytes := pi_sub_a ++ pi_sub_b ++ pi_sub_c |}.

  (* sapling.py:32-38 *)
  Definition SaplingZkproof_from_bytes (s : bytes) : res sapling_zkproof :=
    SaplingZkproof (slice s 0 48) (slice s 48 144) (slice s 144 192).

  (* zcash_shared.py:92-145 and sapling.py:169-223, the same but for the type of
     zkproof; proof_bytes is the byte string of the proof object *)
  Definition Joinsplit {P} (proof_bytes : P -> bytes)
    (vpub_old vpub_new anchor nullifiers commitments ephemeral_key random_seed
     vmacs : bytes) (zkproof : P) (encoded_notes : bytes) : res (joinsplit P) :=
    _ <- zcash_only ;;
    raise_if negb (le2i vpub_old false =? 0) && negb (le2i vpub_new false =? 0)
      as ValueError ;;
    _ <- vb vpub_old 8 ;;
    _ <- vb vpub_new 8 ;;
    _ <- vb anchor 32 ;;
    _ <- vb nullifiers 64 ;;
    _ <- vb commitments 64 ;;
    _ <- vb ephemeral_key 32 ;;
    _ <- vb random_seed 32 ;;
    _ <- vb vmacs 64 ;;
    _ <- vb encoded_notes 1202 ;;
    Ok {| js_vpub_old := vpub_old; js_vpub_new := vpub_new; js_anchor := anchor;
          js_nullifiers := nullifiers; js_commitments := commitments;
          js_ephemeral_key := ephemeral_key; js_random_seed := random_seed;
          js_vmacs := vmacs; js_zkproof := zkproof; js_encoded_notes := encoded_notes;
          js_bytes := vpub_old ++ vpub_new ++ anchor ++ nullifiers ++ commitments
                      ++ ephemeral_key ++ random_seed ++ vmacs ++ proof_bytes zkproof
                      ++ encoded_notes |}.

  (* zcash_shared.py:92-145 *)
  Definition SproutJoinsplit := Joinsplit zk_bytes.
  (* sapling.py:169-223 *)
  Definition SaplingJoinsplit := Joinsplit szk_bytes.

  (* zcash_shared.py:147-159; keyword arguments are evaluated in order, so the
     proof is parsed before the constructor runs *)
  Definition SproutJoinsplit_from_bytes (s : bytes) : res sprout_joinsplit :=
    zk <- SproutZkproof_from_bytes (slice s 304 600) ;;
    SproutJoinsplit (slice s 0 8) (slice s 8 16) (slice s 16 48) (slice s 48 112)
      (slice s 112 176) (slice s 176 208) (slice s 208 240) (slice s 240 304) zk
      (slice s 600 1802).

  (* sapling.py:225-237 *)
  Definition SaplingJoinsplit_from_bytes (s : bytes) : res sapling_joinsplit :=
    zk <- SaplingZkproof_from_bytes (slice s 304 496) ;;
    SaplingJoinsplit (slice s 0 8) (slice s 8 16) (slice s 16 48) (slice s 48 112)
      (slice s 112 176) (slice s 176 208) (slice s 208 240) (slice s 240 304) zk
      (slice s 496 1698).

  (* sapling.py:50-84 *)
  Definition SaplingShieldedSpend (cv anchor nullifier rk : bytes)
    (zkproof : sapling_zkproof) (spend_auth_sig : bytes) : res shielded_spend :=
    _ <- zcash_only ;;
    _ <- vb cv 32 ;;
    _ <- vb anchor 32 ;;
    _ <- vb nullifier 32 ;;
    _ <- vb rk 32 ;;
    _ <- vb spend_auth_sig 64 ;;
    Ok {| ss_cv := cv; ss_anchor := anchor; ss_nullifier := nullifier; ss_rk := rk;
          ss_zkproof := zkproof; ss_spend_auth_sig := spend_auth_sig;
          ss_bytes := cv ++ anchor ++ nullifier ++ rk ++ szk_bytes zkproof
                      ++ spend_auth_sig |}.

  (* sapling.py:86-95 *)
  Definition SaplingShieldedSpend_from_bytes (s : bytes) : res shielded_spend :=
    zk <- SaplingZkproof_from_bytes (slice s 128 320) ;;
    SaplingShieldedSpend (slice s 0 32) (slice s 32 64) (slice s 64 96) (slice s 96 128)
      zk (slice s 320 384).

  (* sapling.py:107-141 *)
  Definition SaplingShieldedOutput (cv cmu ephemeral_key enc_ciphertext
    out_ciphertext : bytes) (zkproof : sapling_zkproof) : res shielded_output :=
    _ <- zcash_only ;;
    _ <- vb cv 32 ;;
    _ <- vb cmu 32 ;;
    _ <- vb ephemeral_key 32 ;;
    _ <- vb enc_ciphertext 580 ;;
    _ <- vb out_ciphertext 80 ;;
    Ok {| so_cv := cv; so_cmu := cmu; so_ephemeral_key := ephemeral_key;
          so_enc_ciphertext := enc_ciphertext; so_out_ciphertext := out_ciphertext;
          so_zkproof := zkproof;
          so_bytes := cv ++ cmu ++ ephemeral_key ++ enc_ciphertext ++ out_ciphertext
                      ++ szk_bytes zkproof |}.

  (* sapling.py:143-153 *)
  Definition SaplingShieldedOutput_from_bytes (s : bytes) : res shielded_output :=
    zk <- SaplingZkproof_from_bytes (slice s 756 948) ;;
    SaplingShieldedOutput (slice s 0 32) (slice s 32 64) (slice s 64 96) (slice s 96 676)
      (slice s 676 756) zk.

  (** * hSig and primary input, the same in the three transaction classes *)

  (* sprout.py:132-140, overwinter.py:175-183, sapling.py:479-487 *)
  Definition hsig_input {P} (pubkey : bytes) (js : joinsplit P) : bytes :=
    js_random_seed js ++ js_nullifiers js ++ pubkey.

  (* sprout.py:126-130, overwinter.py:169-173, sapling.py:473-477 *)
  Definition hsig {P} (pubkey : bytes) (js : joinsplit P) : bytes :=
    blake2b H (hsig_input pubkey js) 32 (lit "ZcashComputehSig").

  (* sprout.py:142-154, overwinter.py:185-197, sapling.py:489-501 *)
  Definition primary_input {P} (pubkey : bytes) (js : joinsplit P) : bytes :=
    js_anchor js ++ js_nullifiers js ++ js_commitments js ++ js_vpub_old js
    ++ js_vpub_new js ++ hsig pubkey js ++ js_vmacs js.

  (** * SproutTx *)

  (* len(x), TypeError on None; sprout.py:64-75 *)
  Definition len_opt {A} (l : option (list A)) : res (list A) :=
    match l with Some a => Ok a | None => Err TypeError end.

  (* sprout.py:24-124.  version is None when the caller passes something that is
     not a byte string (tx_builder.make_tx passes an int) *)
  Definition SproutTx (version : option bytes) (tx_ins : list txin) (tx_outs : list txout)
    (lock_time : bytes) (tx_joinsplits : option (list sprout_joinsplit))
    (joinsplit_pubkey joinsplit_sig : option bytes) : res sprout_tx :=
    _ <- zcash_only ;;
    raise_if negb (net_has (lit "sprout")) as ValueError ;;
    _ <- validate_bytes version (Some 4) ;;
    version <- add_opt version ;;
    _ <- vb lock_time 4 ;;
    _ <- (if le2i version false =? 1
          then raise_if (match tx_joinsplits with
                         | Some l => negb (zlen l =? 0) | None => false end)
                 as ValueError ;;
               guard (zlen tx_ins =? 0) ValueError
          else Ok tt) ;;
    _ <- (if le2i version false =? 2
          then l <- len_opt tx_joinsplits ;;
               raise_if 5 <? zlen l as ValueError ;;
               _ <- validate_bytes joinsplit_pubkey (Some 32) ;;
               match joinsplit_sig with
               | None => Ok tt
               | Some s => if leqb s [] then Ok tt else vb s 64
               end
          else Ok tt) ;;
    raise_if negb (zmem (le2i version false) [1; 2]) as ValueError ;;
    n <- VarInt (zlen tx_ins) None ;;
    m <- VarInt (zlen tx_outs) None ;;
    two <- i2le_padded 2 4 ;;
    let v2 := leqb version two in
    tail <- (if v2
             then l <- len_opt tx_joinsplits ;;
                  k <- VarInt (zlen l) None ;;
                  pk <- add_opt joinsplit_pubkey ;;
                  sg <- add_opt joinsplit_sig ;;
                  Ok (vi_bytes k ++ concat (map js_bytes l) ++ pk ++ sg)
             else Ok []) ;;
    let b := version ++ vi_bytes n ++ concat (map ti_bytes tx_ins)
             ++ vi_bytes m ++ concat (map to_bytes_ tx_outs) ++ lock_time ++ tail in
    l <- len_opt tx_joinsplits ;;
    pk <- (if v2 then add_opt joinsplit_pubkey else Ok []) ;;
    let tx_id_le := hash256 H net b in
    raise_if 100000 <? zlen b as ValueError ;;
    Ok {| sp_version := version; sp_tx_ins := tx_ins; sp_tx_outs := tx_outs;
          sp_lock_time := lock_time; sp_tx_joinsplits := Some l;
          sp_joinsplit_pubkey := if v2 then joinsplit_pubkey else None;
          sp_joinsplit_sig := if v2 then joinsplit_sig else None;
          sp_hsigs := if v2 then map (hsig pk) l else [];
          sp_primary_inputs := if v2 then map (primary_input pk) l else [];
          sp_tx_id_le := tx_id_le; sp_tx_id := rev tx_id_le; sp_bytes := b |}.

  (* sprout.py:156-206; fuel for the loops is len(byte_string) + 1 *)
  Definition SproutTx_from_bytes (byte_string : bytes) : res sprout_tx :=
    let version := slice byte_string 0 4 in
    let fuel := S (length byte_string) in
    tx_ins_num <- VarInt_from_bytes net (slice_from byte_string 4) ;;
    let current := 4 + zlen (vi_bytes tx_ins_num) in
    ' (tx_ins, current) <- read_many (TxIn_from_bytes net) (fun i => zlen (ti_bytes i)) fuel
                             byte_string (vi_number tx_ins_num) current ;;
    tx_outs_num <- VarInt_from_bytes net (slice_from byte_string current) ;;
    let current := current + zlen (vi_bytes tx_outs_num) in
    ' (tx_outs, current) <- read_many (TxOut_from_bytes net) (fun o => zlen (to_bytes_ o)) fuel
                              byte_string (vi_number tx_outs_num) current ;;
    let lock_time := slice byte_string current (current + 4) in
    let current := current + 4 in
    ' (tx_joinsplits, joinsplit_pubkey, joinsplit_sig) <-
      (if le2i version false =? 2
       then num <- VarInt_from_bytes net (slice_from byte_string current) ;;
            let current := current + zlen (vi_bytes num) in
            ' (js, current) <- read_many SproutJoinsplit_from_bytes
                                 (fun j => zlen (js_bytes j)) fuel
                                 byte_string (vi_number num) current ;;
            let pk := slice byte_string current (current + 32) in
            let current := current + 32 in
            let sg := slice byte_string current (current + 64) in
            Ok (Some js, Some pk, Some sg)
       else Ok (None, None, None)) ;;
    SproutTx (Some version) tx_ins tx_outs lock_time tx_joinsplits joinsplit_pubkey
             joinsplit_sig.

  (* for js in self.tx_joinsplits: total_in += vpub_new; total_out += vpub_old;
     sprout.py:208-217, overwinter.py:131-140, sapling.py:418-428 *)
  Definition js_net {P} (l : list (joinsplit P)) : Z :=
    sumZ (map (fun j => le2i (js_vpub_new j) false) l)
    - sumZ (map (fun j => le2i (js_vpub_old j) false) l).
  (* sprout.py:208-217, overwinter.py:131-140, sapling.py:418-428 *)
  Definition outs_total (l : list txout) : Z :=
    sumZ (map (fun o => le2i (to_value o) false) l).

  (* sprout.py:208-217 *)
  Definition sprout_calculate_fee (self : sprout_tx) (input_values : list Z) : res Z :=
    l <- len_opt (sp_tx_joinsplits self) ;;
    Ok (sumZ input_values - outs_total (sp_tx_outs self) + js_net l).

  (* sprout.py:219-243 *)
  Definition SproutTx_copy (self : sprout_tx) (version : option bytes)
    (tx_ins : option (list txin)) (tx_outs : option (list txout))
    (lock_time : option bytes) (tx_joinsplits : option (list sprout_joinsplit))
    (joinsplit_pubkey joinsplit_sig : option bytes) : res sprout_tx :=
    SproutTx (Some (or_self version (sp_version self))) (or_self tx_ins (sp_tx_ins self))
      (or_self tx_outs (sp_tx_outs self)) (or_self lock_time (sp_lock_time self))
      (or_self_opt tx_joinsplits (sp_tx_joinsplits self))
      (or_self_opt joinsplit_pubkey (sp_joinsplit_pubkey self))
      (or_self_opt joinsplit_sig (sp_joinsplit_sig self)).

  (* sprout.py:245-267 *)
  Definition sprout_sighash_prep (self : sprout_tx) (idx : Z) (script : bytes)
    : res sprout_tx :=
    if zlen (sp_tx_ins self) =? 0
    then SproutTx_copy self None None None None None None (Some [])
    else
      copy_tx_ins <- mapM (fun i => TxIn_copy i None (Some []) (Some []) None)
                          (sp_tx_ins self) ;;
      to_strip <- VarInt_from_bytes net script ;;
      cur <- index copy_tx_ins idx ;;
      cur <- TxIn_copy cur None None
               (Some (slice_from script (zlen (vi_bytes to_strip)))) None ;;
      copy_tx_ins <- set_index copy_tx_ins idx cur ;;
      SproutTx_copy self None (Some copy_tx_ins) None None None None (Some []).

  (* sprout.py:355-367 *)
  Definition sprout_sighash_final_hashing (copy_tx : sprout_tx) (sighash_type : Z)
    : res bytes :=
    _ <- zcash_only ;;
    t <- i2le_padded sighash_type 4 ;;
    Ok (hash256 H net (sp_bytes copy_tx ++ t)).

  (* sprout.py:331-353; self is the transaction the caller holds *)
  Definition sprout_sighash_anyone_can_pay (self : sprout_tx) (idx : Z)
    (copy_tx : sprout_tx) (sighash_type : Z) : res bytes :=
    raise_if (match sp_tx_joinsplits self with Some _ => true | None => false end)
      as ValueError ;;
    cur <- index (sp_tx_ins copy_tx) idx ;;
    copy_tx <- SproutTx_copy copy_tx None (Some [cur]) None None None None None ;;
    sprout_sighash_final_hashing copy_tx (Z.lor sighash_type SIGHASH_ANYONECANPAY).

  (* sprout.py:269-285 *)
  Definition sprout_sighash_all (self : sprout_tx) (idx : Z) (script : bytes)
    (anyone_can_pay : bool) : res bytes :=
    copy_tx <- sprout_sighash_prep self idx script ;;
    if anyone_can_pay
    then sprout_sighash_anyone_can_pay self idx copy_tx SIGHASH_ALL
    else sprout_sighash_final_hashing copy_tx SIGHASH_ALL.

  (* sprout.py:287-329; line 310 is overwritten by line 311 *)
  Definition sprout_sighash_single (self : sprout_tx) (idx : Z) (script : bytes)
    (anyone_can_pay : bool) : res bytes :=
    raise_if (match sp_tx_joinsplits self with Some _ => true | None => false end)
      as ValueError ;;
    raise_if zlen (sp_tx_outs self) <=? idx as NotImplementedError ;;
    copy_tx <- sprout_sighash_prep self idx script ;;
    copy_tx_outs <- mapM (fun _ => TxOut (zrepeat 0xff 8) []) (sp_tx_ins copy_tx) ;;
    cur_out <- index (sp_tx_outs copy_tx) idx ;;
    copy_tx_outs <- set_index copy_tx_outs idx cur_out ;;
    copy_tx_ins <- mapM (fun i => TxIn_copy i None None None (Some (zrepeat 0 4)))
                        (sp_tx_ins copy_tx) ;;
    cur_in <- index (sp_tx_ins copy_tx) idx ;;
    copy_tx_ins <- set_index copy_tx_ins idx cur_in ;;
    copy_tx <- SproutTx_copy copy_tx None (Some copy_tx_ins) (Some copy_tx_outs)
                 None None None None ;;
    if anyone_can_pay
    then sprout_sighash_anyone_can_pay self idx copy_tx SIGHASH_SINGLE
    else sprout_sighash_final_hashing copy_tx SIGHASH_SINGLE.

  (** * OverwinterTx *)

  (* overwinter.py:26-129 *)
  Definition OverwinterTx (tx_ins : list txin) (tx_outs : list txout)
    (lock_time expiry_height : bytes) (tx_joinsplits : list sprout_joinsplit)
    (joinsplit_pubkey joinsplit_sig : option bytes) : res overwinter_tx :=
    _ <- zcash_only ;;
    raise_if negb (net_has (lit "overwinter")) as ValueError ;;
    _ <- vb lock_time 4 ;;
    _ <- vb expiry_height 4 ;;
    raise_if 499999999 <? le2i expiry_height false as ValueError ;;
    raise_if 5 <? zlen tx_joinsplits as ValueError ;;
    _ <- (if negb (zlen tx_joinsplits =? 0)
          then _ <- validate_bytes joinsplit_pubkey (Some 32) ;;
               validate_bytes joinsplit_sig (Some 64)
          else Ok tt) ;;
    raise_if (zlen tx_joinsplits =? 0) && (zlen tx_ins =? 0) as ValueError ;;
    n <- VarInt (zlen tx_ins) None ;;
    m <- VarInt (zlen tx_outs) None ;;
    k <- VarInt (zlen tx_joinsplits) None ;;
    ' (pk, tail) <- (if negb (zlen tx_joinsplits =? 0)
             then pk <- add_opt joinsplit_pubkey ;;
                  sg <- add_opt joinsplit_sig ;;
                  Ok (pk, concat (map js_bytes tx_joinsplits) ++ pk ++ sg)
             else Ok ([], [])) ;;
    let b := [3; 0; 0; 0x80] ++ [0x70; 0x82; 0xc4; 0x03]
             ++ vi_bytes n ++ concat (map ti_bytes tx_ins)
             ++ vi_bytes m ++ concat (map to_bytes_ tx_outs)
             ++ lock_time ++ expiry_height ++ vi_bytes k ++ tail in
    let some_js := negb (zlen tx_joinsplits =? 0) in
    let tx_id_le := hash256 H net b in
    raise_if 100000 <? zlen b as ValueError ;;
    Ok {| ow_header := [3; 0; 0; 0x80]; ow_group_id := [0x70; 0x82; 0xc4; 0x03];
          ow_version := [3; 0];
          ow_tx_ins := tx_ins; ow_tx_outs := tx_outs; ow_lock_time := lock_time;
          ow_expiry_height := expiry_height;
          ow_tx_joinsplits := if some_js then tx_joinsplits else [];
          ow_joinsplit_pubkey := if some_js then joinsplit_pubkey else None;
          ow_joinsplit_sig := if some_js then joinsplit_sig else None;
          ow_hsigs := if some_js then map (hsig pk) tx_joinsplits else [];
          ow_primary_inputs := if some_js then map (primary_input pk) tx_joinsplits else [];
          ow_tx_id_le := tx_id_le; ow_tx_id := rev tx_id_le; ow_bytes := b |}.

  (* overwinter.py:131-140 *)
  Definition overwinter_calculate_fee (self : overwinter_tx) (input_values : list Z) : Z :=
    sumZ input_values - outs_total (ow_tx_outs self) + js_net (ow_tx_joinsplits self).

  (* overwinter.py:142-167 *)
  Definition OverwinterTx_copy (self : overwinter_tx) (tx_ins : option (list txin))
    (tx_outs : option (list txout)) (lock_time expiry_height : option bytes)
    (tx_joinsplits : option (list sprout_joinsplit))
    (joinsplit_pubkey joinsplit_sig : option bytes) : res overwinter_tx :=
    OverwinterTx (or_self tx_ins (ow_tx_ins self)) (or_self tx_outs (ow_tx_outs self))
      (or_self lock_time (ow_lock_time self)) (or_self expiry_height (ow_expiry_height self))
      (or_self tx_joinsplits (ow_tx_joinsplits self))
      (or_self_opt joinsplit_pubkey (ow_joinsplit_pubkey self))
      (or_self_opt joinsplit_sig (ow_joinsplit_sig self)).

  (* overwinter.py:199-265; line 247 advances by the length of tx_outs_num *)
  Definition OverwinterTx_from_bytes (byte_string : bytes) : res overwinter_tx :=
    let header := slice byte_string 0 4 in
    let group_id := slice byte_string 4 8 in
    raise_if negb (leqb header [3; 0; 0; 0x80])
             || negb (leqb group_id [0x70; 0x82; 0xc4; 0x03]) as ValueError ;;
    let fuel := S (length byte_string) in
    tx_ins_num <- VarInt_from_bytes net (slice_from byte_string 8) ;;
    let current := 8 + zlen (vi_bytes tx_ins_num) in
    ' (tx_ins, current) <- read_many (TxIn_from_bytes net) (fun i => zlen (ti_bytes i)) fuel
                             byte_string (vi_number tx_ins_num) current ;;
    tx_outs_num <- VarInt_from_bytes net (slice_from byte_string current) ;;
    let current := current + zlen (vi_bytes tx_outs_num) in
    ' (tx_outs, current) <- read_many (TxOut_from_bytes net) (fun o => zlen (to_bytes_ o)) fuel
                              byte_string (vi_number tx_outs_num) current ;;
    let lock_time := slice byte_string current (current + 4) in
    let current := current + 4 in
    let expiry_height := slice byte_string current (current + 4) in
    let current := current + 4 in
    ' (tx_joinsplits, joinsplit_pubkey, joinsplit_sig) <-
      (if current =? zlen byte_string
       then Ok ([], None, None)
       else num <- VarInt_from_bytes net (slice_from byte_string current) ;;
            let current := current + zlen (vi_bytes tx_outs_num) in
            ' (js, current) <- read_many SproutJoinsplit_from_bytes
                                 (fun j => zlen (js_bytes j)) fuel
                                 byte_string (vi_number num) current ;;
            let pk := slice byte_string current (current + 32) in
            let current := current + 32 in
            let sg := slice byte_string current (current + 64) in
            Ok (js, Some pk, Some sg)) ;;
    OverwinterTx tx_ins tx_outs lock_time expiry_height tx_joinsplits joinsplit_pubkey
                 joinsplit_sig.

  (** * Digest parts shared by overwinter.py and sapling.py *)

  (* overwinter.py:318-329, sapling.py:657-667 *)
  Definition z_hash_prevouts (tx_ins : list txin) (anyone_can_pay : bool) : bytes :=
    if anyone_can_pay then zrepeat 0 32
    else blake2b H (concat (map (fun i => op_bytes (ti_outpoint i)) tx_ins)) 32
                 (lit "ZcashPrevoutHash").

  (* overwinter.py:331-342, sapling.py:669-680 *)
  Definition z_hash_sequence (tx_ins : list txin) (sighash_type : Z) (anyone_can_pay : bool)
    : bytes :=
    if anyone_can_pay || (sighash_type =? SIGHASH_SINGLE) then zrepeat 0 32
    else blake2b H (concat (map ti_sequence tx_ins)) 32 (lit "ZcashSequencHash").

  (* overwinter.py:344-363, sapling.py:682-701 *)
  Definition z_hash_outputs (tx_outs : list txout) (sighash_type idx : Z) : res bytes :=
    if negb (zmem sighash_type [SIGHASH_ALL; SIGHASH_SINGLE]) then Ok (zrepeat 0 32)
    else
      let d1 := if sighash_type =? SIGHASH_ALL then concat (map to_bytes_ tx_outs) else [] in
      d2 <- (if sighash_type =? SIGHASH_SINGLE
             then raise_if zlen tx_outs <? idx as NotImplementedError ;;
                  o <- index tx_outs idx ;; Ok (to_bytes_ o)
             else Ok []) ;;
      Ok (blake2b H (d1 ++ d2) 32 (lit "ZcashOutputsHash")).

  (* overwinter.py:365-379, sapling.py:703-717 *)
  Definition z_hash_joinsplits {P} (l : list (joinsplit P)) (pubkey : option bytes)
    : res bytes :=
    if zlen l =? 0 then Ok (zrepeat 0 32)
    else pk <- add_opt pubkey ;;
         Ok (blake2b H (concat (map js_bytes l) ++ pk) 32 (lit "ZcashJSplitsHash")).

  (* the tail that depends on the input, overwinter.py:306-310, sapling.py:646-650 *)
  Definition z_input_part (tx_ins : list txin) (joinsplit : bool) (idx : Z)
    (script_code : option bytes) (prevout_value : option bytes) : res bytes :=
    if joinsplit then Ok []
    else i <- index tx_ins idx ;;
         sc <- add_opt script_code ;;
         pv <- add_opt prevout_value ;;
         Ok (op_bytes (ti_outpoint i) ++ sc ++ pv ++ ti_sequence i).

  (* overwinter.py:276-316 *)
  Definition overwinter_sighash (self : overwinter_tx) (sighash_type : Z)
    (prevout_value : option bytes) (script_code : option bytes) (idx : Z)
    (joinsplit anyone_can_pay : bool) : res bytes :=
    raise_if joinsplit && anyone_can_pay as ValueError ;;
    _ <- zcash_only ;;
    let hp := z_hash_prevouts (ow_tx_ins self) anyone_can_pay in
    let hs := z_hash_sequence (ow_tx_ins self) sighash_type anyone_can_pay in
    ho <- z_hash_outputs (ow_tx_outs self) sighash_type idx ;;
    hj <- z_hash_joinsplits (ow_tx_joinsplits self) (ow_joinsplit_pubkey self) ;;
    let sighash_type := if anyone_can_pay then Z.lor sighash_type SIGHASH_ANYONECANPAY
                        else sighash_type in
    t <- i2le_padded sighash_type 4 ;;
    ip <- z_input_part (ow_tx_ins self) joinsplit idx script_code prevout_value ;;
    Ok (blake2b H (ow_header self ++ ow_group_id self ++ hp ++ hs ++ ho ++ hj
                   ++ ow_lock_time self ++ ow_expiry_height self ++ t ++ ip) 32
                (lit "ZcashSigHash" ++ [0x19; 0x1b; 0xa8; 0x5b])).

  (* overwinter.py:270-271: anyone_can_pay is not passed on *)
  Definition overwinter_sighash_all (self : overwinter_tx) (anyone_can_pay : bool)
    (prevout_value script_code : option bytes) (idx : Z) (joinsplit : bool) : res bytes :=
    overwinter_sighash self SIGHASH_ALL prevout_value script_code idx joinsplit false.

  (* overwinter.py:273-274 *)
  Definition overwinter_sighash_single (self : overwinter_tx) (anyone_can_pay : bool)
    (prevout_value script_code : option bytes) (idx : Z) (joinsplit : bool) : res bytes :=
    overwinter_sighash self SIGHASH_SINGLE prevout_value script_code idx joinsplit false.

  (** * SaplingTx *)

  (* sapling.py:258-416; the lists are None when tx_builder.make_tx passes its
     defaults on *)
  Definition SaplingTx (tx_ins : list txin) (tx_outs : list txout)
    (lock_time expiry_height value_balance : bytes)
    (tx_shielded_spends : option (list shielded_spend))
    (tx_shielded_outputs : option (list shielded_output))
    (tx_joinsplits : option (list sapling_joinsplit))
    (joinsplit_pubkey joinsplit_sig binding_sig : option bytes) : res sapling_tx :=
    _ <- zcash_only ;;
    raise_if negb (net_has (lit "sapling")) as ValueError ;;
    _ <- vb lock_time 4 ;;
    _ <- vb expiry_height 4 ;;
    _ <- vb value_balance 8 ;;
    raise_if 499999999 <? le2i expiry_height false as ValueError ;;
    spends <- len_opt tx_shielded_spends ;;
    outputs <- len_opt tx_shielded_outputs ;;
    _ <- (if (zlen spends + zlen outputs =? 0) && negb (leqb value_balance (zrepeat 0 8))
          then Err ValueError
          else match binding_sig with
               | Some s => vb s 64
               | None => Ok tt
               end) ;;
    joinsplits <- len_opt tx_joinsplits ;;
    raise_if 5 <? zlen joinsplits as ValueError ;;
    let some_js := negb (zlen joinsplits =? 0) in
    _ <- (if some_js
          then _ <- validate_bytes joinsplit_pubkey (Some 32) ;;
               validate_bytes joinsplit_sig (Some 64)
          else Ok tt) ;;
    raise_if zlen joinsplits + zlen tx_ins + zlen spends =? 0 as ValueError ;;
    n <- VarInt (zlen tx_ins) None ;;
    m <- VarInt (zlen tx_outs) None ;;
    p <- VarInt (zlen spends) None ;;
    q <- VarInt (zlen outputs) None ;;
    k <- VarInt (zlen joinsplits) None ;;
    ' (pk, tail) <- (if some_js
             then pk <- add_opt joinsplit_pubkey ;;
                  sg <- add_opt joinsplit_sig ;;
                  Ok (pk, concat (map js_bytes joinsplits) ++ pk ++ sg)
             else Ok ([], [])) ;;
    let shielded := negb (zlen outputs + zlen spends =? 0) in
    bs <- (if shielded then add_opt binding_sig else Ok []) ;;
    let b := [4; 0; 0; 0x80] ++ [0x85; 0x20; 0x2f; 0x89]
             ++ vi_bytes n ++ concat (map ti_bytes tx_ins)
             ++ vi_bytes m ++ concat (map to_bytes_ tx_outs)
             ++ lock_time ++ expiry_height ++ value_balance
             ++ vi_bytes p ++ concat (map ss_bytes spends)
             ++ vi_bytes q ++ concat (map so_bytes outputs)
             ++ vi_bytes k ++ tail ++ bs in
    let tx_id_le := hash256 H net b in
    raise_if 100000 <? zlen b as ValueError ;;
    Ok {| sa_header := [4; 0; 0; 0x80]; sa_group_id := [0x85; 0x20; 0x2f; 0x89];
          sa_tx_ins := tx_ins; sa_tx_outs := tx_outs; sa_lock_time := lock_time;
          sa_expiry_height := expiry_height; sa_value_balance := value_balance;
          sa_tx_shielded_spends := spends; sa_tx_shielded_outputs := outputs;
          sa_tx_joinsplits := joinsplits;
          sa_joinsplit_pubkey := if some_js then joinsplit_pubkey else None;
          sa_joinsplit_sig := if some_js then joinsplit_sig else None;
          sa_binding_sig := if shielded then binding_sig else None;
          sa_hsigs := if some_js then map (hsig pk) joinsplits else [];
          sa_primary_inputs := if some_js then map (primary_input pk) joinsplits else [];
          sa_tx_id_le := tx_id_le; sa_tx_id := rev tx_id_le; sa_bytes := b |}.

  (* sapling.py:418-428 *)
  Definition sapling_calculate_fee (self : sapling_tx) (input_values : list Z) : Z :=
    sumZ input_values - outs_total (sa_tx_outs self) + js_net (sa_tx_joinsplits self)
    + le2i (sa_value_balance self) true.

  (* sapling.py:430-471 *)
  Definition SaplingTx_copy (self : sapling_tx) (tx_ins : option (list txin))
    (tx_outs : option (list txout)) (lock_time expiry_height value_balance : option bytes)
    (tx_shielded_spends : option (list shielded_spend))
    (tx_shielded_outputs : option (list shielded_output))
    (tx_joinsplits : option (list sapling_joinsplit))
    (joinsplit_pubkey joinsplit_sig binding_sig : option bytes) : res sapling_tx :=
    SaplingTx (or_self tx_ins (sa_tx_ins self)) (or_self tx_outs (sa_tx_outs self))
      (or_self lock_time (sa_lock_time self)) (or_self expiry_height (sa_expiry_height self))
      (or_self value_balance (sa_value_balance self))
      (Some (or_self tx_shielded_spends (sa_tx_shielded_spends self)))
      (Some (or_self tx_shielded_outputs (sa_tx_shielded_outputs self)))
      (Some (or_self tx_joinsplits (sa_tx_joinsplits self)))
      (or_self_opt joinsplit_pubkey (sa_joinsplit_pubkey self))
      (or_self_opt joinsplit_sig (sa_joinsplit_sig self))
      (or_self_opt binding_sig (sa_binding_sig self)).

  (* sapling.py:503-600; line 564 advances by the length of tx_outs_num *)
  Definition SaplingTx_from_bytes (byte_string : bytes) : res sapling_tx :=
    let header := slice byte_string 0 4 in
    let group_id := slice byte_string 4 8 in
    raise_if negb (leqb header [4; 0; 0; 0x80])
             || negb (leqb group_id [0x85; 0x20; 0x2f; 0x89]) as ValueError ;;
    let fuel := S (length byte_string) in
    tx_ins_num <- VarInt_from_bytes net (slice_from byte_string 8) ;;
    let current := 8 + zlen (vi_bytes tx_ins_num) in
    ' (tx_ins, current) <- read_many (TxIn_from_bytes net) (fun i => zlen (ti_bytes i)) fuel
                             byte_string (vi_number tx_ins_num) current ;;
    tx_outs_num <- VarInt_from_bytes net (slice_from byte_string current) ;;
    let current := current + zlen (vi_bytes tx_outs_num) in
    ' (tx_outs, current) <- read_many (TxOut_from_bytes net) (fun o => zlen (to_bytes_ o)) fuel
                              byte_string (vi_number tx_outs_num) current ;;
    let lock_time := slice byte_string current (current + 4) in
    let current := current + 4 in
    let expiry_height := slice byte_string current (current + 4) in
    let current := current + 4 in
    let value_balance := slice byte_string current (current + 8) in
    let current := current + 8 in
    spends_num <- VarInt_from_bytes net (slice_from byte_string current) ;;
    let current := current + zlen (vi_bytes spends_num) in
    ' (spends, current) <- read_many SaplingShieldedSpend_from_bytes
                             (fun s => zlen (ss_bytes s)) fuel
                             byte_string (vi_number spends_num) current ;;
    outputs_num <- VarInt_from_bytes net (slice_from byte_string current) ;;
    let current := current + zlen (vi_bytes outputs_num) in
    ' (outputs, current) <- read_many SaplingShieldedOutput_from_bytes
                              (fun s => zlen (so_bytes s)) fuel
                              byte_string (vi_number outputs_num) current ;;
    js_num <- VarInt_from_bytes net (slice_from byte_string current) ;;
    let current := current + zlen (vi_bytes tx_outs_num) in
    ' (js, current) <- read_many SaplingJoinsplit_from_bytes
                         (fun j => zlen (js_bytes j)) fuel
                         byte_string (vi_number js_num) current ;;
    let '(pk, sg, current) :=
      if 0 <? zlen js
      then (Some (slice byte_string current (current + 32)),
            Some (slice byte_string (current + 32) (current + 32 + 64)),
            current + 32 + 64)
      else (None, None, current) in
    let binding_sig := if 0 <? zlen spends + zlen outputs
                       then Some (slice byte_string current (current + 64)) else None in
    SaplingTx tx_ins tx_outs lock_time expiry_height value_balance (Some spends)
      (Some outputs) (Some js) pk sg binding_sig.

  (* sapling.py:719-731: the first 320 bytes of a spend, without spend_auth_sig *)
  Definition z_hash_shielded_spends (l : list shielded_spend) : bytes :=
    if zlen l =? 0 then zrepeat 0 32
    else blake2b H (concat (map (fun s => slice_to (ss_bytes s) 320) l)) 32
                 (lit "ZcashSSpendsHash").

  (* sapling.py:733-745 *)
  Definition z_hash_shielded_outputs (l : list shielded_output) : bytes :=
    if zlen l =? 0 then zrepeat 0 32
    else blake2b H (concat (map so_bytes l)) 32 (lit "ZcashSOutputHash").

  (* sapling.py:611-655 *)
  Definition sapling_sighash (self : sapling_tx) (sighash_type : Z)
    (prevout_value : option bytes) (idx : Z) (joinsplit : bool)
    (script_code : option bytes) (anyone_can_pay : bool) : res bytes :=
    raise_if joinsplit && anyone_can_pay as ValueError ;;
    _ <- zcash_only ;;
    let hp := z_hash_prevouts (sa_tx_ins self) anyone_can_pay in
    let hs := z_hash_sequence (sa_tx_ins self) sighash_type anyone_can_pay in
    ho <- z_hash_outputs (sa_tx_outs self) sighash_type idx ;;
    hj <- z_hash_joinsplits (sa_tx_joinsplits self) (sa_joinsplit_pubkey self) ;;
    let hss := z_hash_shielded_spends (sa_tx_shielded_spends self) in
    let hso := z_hash_shielded_outputs (sa_tx_shielded_outputs self) in
    let sighash_type := if anyone_can_pay then Z.lor sighash_type SIGHASH_ANYONECANPAY
                        else sighash_type in
    t <- i2le_padded sighash_type 4 ;;
    ip <- z_input_part (sa_tx_ins self) joinsplit idx script_code prevout_value ;;
    Ok (blake2b H (sa_header self ++ sa_group_id self ++ hp ++ hs ++ ho ++ hj ++ hss ++ hso
                   ++ sa_lock_time self ++ sa_expiry_height self ++ sa_value_balance self
                   ++ t ++ ip) 32
                (lit "ZcashSigHash" ++ [0xbb; 0x09; 0xb8; 0x76])).

  (* sapling.py:605-606: anyone_can_pay is not passed on *)
  Definition sapling_sighash_all (self : sapling_tx) (anyone_can_pay : bool)
    (prevout_value : option bytes) (idx : Z) (joinsplit : bool)
    (script_code : option bytes) : res bytes :=
    sapling_sighash self SIGHASH_ALL prevout_value idx joinsplit script_code false.

  (* sapling.py:608-609 *)
  Definition sapling_sighash_single (self : sapling_tx) (anyone_can_pay : bool)
    (prevout_value : option bytes) (idx : Z) (joinsplit : bool)
    (script_code : option bytes) : res bytes :=
    sapling_sighash self SIGHASH_SINGLE prevout_value idx joinsplit script_code false.
End Zcash.
