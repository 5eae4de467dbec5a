(* The Zcash classes in the heap of MHeap.v (riemann/tx/zcash_shared.py,
   sprout.py, overwinter.py, sapling.py).  The checks that use isinstance are in
   MClass.v.  The VarInt objects that a constructor adds to itself are temporary: only
   their bytes appear; so are the ByteData objects of _hsig_input and
   _primary_input. *)
From Coq Require Import String.
From Verif Require Import Py SHash MNet MUtils MShared MTx MZcash MHeap MHeapTx MHeapDecred.
Open Scope list_scope.
Open Scope Z_scope.

(* utils.le2i(v); utils.py:56-66 *)
Definition le_number (h : heap) (v : val) : res Z := b <- get_content h v ;; Ok (le2i b false).

(* v == b for a bytes object b; shared.py:51-70, sprout.py:73 *)
Definition equals (h : heap) (v : val) (b : bytes) : bool :=
  match content h v with Some a => leqb a b | None => false end.

(* x is not None; sprout.py:60-75 *)
Definition is_none (v : val) : bool := match v with VNone => true | _ => false end.

Section Zcash.
  Context (H : hashes) (net : network).

  (* zcash_shared.py:26-64 *)
  Definition new_sprout_zkproof (h : heap) (pi_sub_a pi_prime_sub_a pi_sub_b pi_prime_sub_b pi_sub_c
    pi_prime_sub_c pi_sub_k pi_sub_h : val) : res (heap * nat) :=
    _ <- zcash_only net ;;
    _ <- check_len h pi_sub_a 33 ;;
    _ <- check_len h pi_prime_sub_a 33 ;;
    _ <- check_len h pi_sub_b 65 ;;
    _ <- check_len h pi_prime_sub_b 33 ;;
    _ <- check_len h pi_sub_c 33 ;;
    _ <- check_len h pi_prime_sub_c 33 ;;
    _ <- check_len h pi_sub_k 33 ;;
    _ <- check_len h pi_sub_h 33 ;;
    construct h [pi_sub_a; pi_prime_sub_a; pi_sub_b; pi_prime_sub_b; pi_sub_c; pi_prime_sub_c; pi_sub_k; pi_sub_h]
      [(lit "pi_sub_a", pi_sub_a); (lit "pi_prime_sub_a", pi_prime_sub_a); (lit "pi_sub_b", pi_sub_b);
       (lit "pi_prime_sub_b", pi_prime_sub_b); (lit "pi_sub_c", pi_sub_c); (lit "pi_prime_sub_c", pi_prime_sub_c);
       (lit "pi_sub_k", pi_sub_k); (lit "pi_sub_h", pi_sub_h)].

  (* sapling.py:16-30 *)
  Definition new_sapling_zkproof (h : heap) (pi_sub_a pi_sub_b pi_sub_c : val) : res (heap * nat) :=
    _ <- zcash_only net ;;
    _ <- check_len h pi_sub_a 48 ;;
    _ <- check_len h pi_sub_b 96 ;;
    _ <- check_len h pi_sub_c 48 ;;
    construct h [pi_sub_a; pi_sub_b; pi_sub_c]
      [(lit "pi_sub_a", pi_sub_a); (lit "pi_sub_b", pi_sub_b); (lit "pi_sub_c", pi_sub_c)].

  (* zcash_shared.py:92-145 and sapling.py:169-223, the same but for the class of
     zkproof *)
  Definition new_joinsplit (h : heap) (vpub_old vpub_new anchor nullifiers commitments ephemeral_key
    random_seed vmacs zkproof encoded_notes : val) : res (heap * nat) :=
    _ <- zcash_only net ;;
    o <- le_number h vpub_old ;;
    _ <- (if o =? 0 then Ok tt
          else n <- le_number h vpub_new ;; guard (negb (n =? 0)) ValueError) ;;
    _ <- check_len h vpub_old 8 ;;
    _ <- check_len h vpub_new 8 ;;
    _ <- check_len h anchor 32 ;;
    _ <- check_len h nullifiers 64 ;;
    _ <- check_len h commitments 64 ;;
    _ <- check_len h ephemeral_key 32 ;;
    _ <- check_len h random_seed 32 ;;
    _ <- check_len h vmacs 64 ;;
    _ <- check_len h encoded_notes 1202 ;;
    construct h [vpub_old; vpub_new; anchor; nullifiers; commitments; ephemeral_key; random_seed; vmacs;
                 zkproof; encoded_notes]
      [(lit "vpub_old", vpub_old); (lit "vpub_new", vpub_new); (lit "anchor", anchor);
       (lit "nullifiers", nullifiers); (lit "commitments", commitments);
       (lit "ephemeral_key", ephemeral_key); (lit "random_seed", random_seed); (lit "vmacs", vmacs);
       (lit "zkproof", zkproof); (lit "encoded_notes", encoded_notes)].

  (* sapling.py:50-84 *)
  Definition new_shielded_spend (h : heap) (cv anchor nullifier rk zkproof spend_auth_sig : val)
    : res (heap * nat) :=
    _ <- zcash_only net ;;
    _ <- check_len h cv 32 ;;
    _ <- check_len h anchor 32 ;;
    _ <- check_len h nullifier 32 ;;
    _ <- check_len h rk 32 ;;
    _ <- check_len h spend_auth_sig 64 ;;
    construct h [cv; anchor; nullifier; rk; zkproof; spend_auth_sig]
      [(lit "cv", cv); (lit "anchor", anchor); (lit "nullifier", nullifier); (lit "rk", rk);
       (lit "zkproof", zkproof); (lit "spend_auth_sig", spend_auth_sig)].

  (* sapling.py:107-141 *)
  Definition new_shielded_output (h : heap) (cv cmu ephemeral_key enc_ciphertext out_ciphertext zkproof : val)
    : res (heap * nat) :=
    _ <- zcash_only net ;;
    _ <- check_len h cv 32 ;;
    _ <- check_len h cmu 32 ;;
    _ <- check_len h ephemeral_key 32 ;;
    _ <- check_len h enc_ciphertext 580 ;;
    _ <- check_len h out_ciphertext 80 ;;
    construct h [cv; cmu; ephemeral_key; enc_ciphertext; out_ciphertext; zkproof]
      [(lit "cv", cv); (lit "cmu", cmu); (lit "ephemeral_key", ephemeral_key);
       (lit "enc_ciphertext", enc_ciphertext); (lit "out_ciphertext", out_ciphertext);
       (lit "zkproof", zkproof)].

  (* js.k for each k, in order; sprout.py:132-154 *)
  Definition attrs_of (h : heap) (js : val) (ks : list str) : res (list val) := mapM (attr h js) ks.

  (* sprout.py:126-140, overwinter.py:169-183, sapling.py:473-487 for the
     joinsplit js *)
  Definition hsig_of (h : heap) (pubkey js : val) : res bytes :=
    l <- attrs_of h js [lit "random_seed"; lit "nullifiers"] ;;
    b <- joined h (l ++ [pubkey]) ;;
    Ok (blake2b H b 32 (lit "ZcashComputehSig")).

  (* sprout.py:142-154, overwinter.py:185-197, sapling.py:489-501 for the
     joinsplit js and its hsig *)
  Definition primary_input_of (h : heap) (js : val) (hsig : bytes) : res bytes :=
    l <- attrs_of h js [lit "anchor"; lit "nullifiers"; lit "commitments"; lit "vpub_old"; lit "vpub_new"] ;;
    vmacs <- attr h js (lit "vmacs") ;;
    joined h (l ++ [VB hsig; vmacs]).

  (* sprout.py:105-109, overwinter.py:109-113, sapling.py:396-400 *)
  Definition hsigs_of (h : heap) (pubkey : val) (js : list val) : res (list bytes) := mapM (hsig_of h pubkey) js.
  (* sprout.py:105-109, overwinter.py:109-113, sapling.py:396-400 *)
  Definition primary_inputs_of (h : heap) (js : list val) (hsigs : list bytes) : res (list bytes) :=
    mapM (fun p => primary_input_of h (fst p) (snd p)) (combine js hsigs).

  (* sprout.py:24-124 *)
  Definition new_sprout_tx (h : heap) (version tx_ins tx_outs lock_time tx_joinsplits
    joinsplit_pubkey joinsplit_sig : val) : res (heap * nat) :=
    _ <- zcash_only net ;;
    raise_if negb (net_has net (lit "sprout")) as ValueError ;;
    _ <- check_len h version 4 ;;
    _ <- check_len h lock_time 4 ;;
    ins <- get_items h tx_ins ;;
    outs <- get_items h tx_outs ;;
    v <- le_number h version ;;
    _ <- (if v =? 1
          then _ <- (if is_none tx_joinsplits then Ok tt
                     else l <- get_items h tx_joinsplits ;; guard (negb (zlen l =? 0)) ValueError) ;;
               guard (zlen ins =? 0) ValueError
          else Ok tt) ;;
    _ <- (if v =? 2
          then l <- get_items h tx_joinsplits ;;
               raise_if 5 <? zlen l as ValueError ;;
               _ <- check_len h joinsplit_pubkey 32 ;;
               if is_none joinsplit_sig || equals h joinsplit_sig [] then Ok tt
               else check_len h joinsplit_sig 64
          else Ok tt) ;;
    raise_if negb (zmem v [1; 2]) as ValueError ;;
    n <- VarInt (zlen ins) None ;;
    m <- VarInt (zlen outs) None ;;
    two <- i2le_padded 2 4 ;;
    let v2 := equals h version two in
    tail <- (if v2
             then l <- get_items h tx_joinsplits ;;
                  k <- VarInt (zlen l) None ;;
                  _ <- get_content h joinsplit_pubkey ;;
                  _ <- get_content h joinsplit_sig ;;
                  Ok ([VB (vi_bytes k)] ++ l ++ [joinsplit_pubkey; joinsplit_sig])
             else Ok []) ;;
    let parts := [version; VB (vi_bytes n)] ++ ins ++ [VB (vi_bytes m)] ++ outs ++ [lock_time] ++ tail in
    l <- get_items h tx_joinsplits ;;
    hsigs <- (if v2 then hsigs_of h joinsplit_pubkey l else Ok []) ;;
    primary_inputs <- (if v2 then primary_inputs_of h l hsigs else Ok []) ;;
    b <- joined h parts ;;
    ' (h, self) <- construct h parts
      [(lit "version", version); (lit "tx_ins", VTuple ins); (lit "tx_outs", VTuple outs);
       (lit "tx_joinsplits", VTuple l); (lit "lock_time", lock_time);
       (lit "joinsplit_pubkey", if v2 then joinsplit_pubkey else VNone);
       (lit "joinsplit_sig", if v2 then joinsplit_sig else VNone);
       (lit "hsigs", VTuple (map VB hsigs)); (lit "primary_inputs", VTuple (map VB primary_inputs));
       (lit "tx_id_le", VB (hash256 H net b)); (lit "tx_id", VB (rev (hash256 H net b)))] ;;
    raise_if 100000 <? zlen b as ValueError ;;
    Ok (h, self).

  (* overwinter.py:26-129 *)
  Definition new_overwinter_tx (h : heap) (tx_ins tx_outs lock_time expiry_height tx_joinsplits
    joinsplit_pubkey joinsplit_sig : val) : res (heap * nat) :=
    _ <- zcash_only net ;;
    raise_if negb (net_has net (lit "overwinter")) as ValueError ;;
    _ <- check_len h lock_time 4 ;;
    _ <- check_len h expiry_height 4 ;;
    e <- le_number h expiry_height ;;
    raise_if 499999999 <? e as ValueError ;;
    ins <- get_items h tx_ins ;;
    outs <- get_items h tx_outs ;;
    l <- get_items h tx_joinsplits ;;
    raise_if 5 <? zlen l as ValueError ;;
    let some_js := negb (zlen l =? 0) in
    _ <- (if some_js
          then _ <- check_len h joinsplit_pubkey 32 ;; check_len h joinsplit_sig 64
          else Ok tt) ;;
    raise_if (zlen l =? 0) && (zlen ins =? 0) as ValueError ;;
    n <- VarInt (zlen ins) None ;;
    m <- VarInt (zlen outs) None ;;
    k <- VarInt (zlen l) None ;;
    tail <- (if some_js
             then _ <- get_content h joinsplit_pubkey ;;
                  _ <- get_content h joinsplit_sig ;;
                  Ok (l ++ [joinsplit_pubkey; joinsplit_sig])
             else Ok []) ;;
    let parts := [VB [3; 0; 0; 0x80]; VB [0x70; 0x82; 0xc4; 0x03]; VB (vi_bytes n)] ++ ins
                 ++ [VB (vi_bytes m)] ++ outs ++ [lock_time; expiry_height; VB (vi_bytes k)] ++ tail in
    hsigs <- (if some_js then hsigs_of h joinsplit_pubkey l else Ok []) ;;
    primary_inputs <- (if some_js then primary_inputs_of h l hsigs else Ok []) ;;
    b <- joined h parts ;;
    ' (h, self) <- construct h parts
      [(lit "header", VB [3; 0; 0; 0x80]); (lit "group_id", VB [0x70; 0x82; 0xc4; 0x03]);
       (lit "version", VB [3; 0]); (lit "tx_ins", VTuple ins); (lit "tx_outs", VTuple outs);
       (lit "lock_time", lock_time); (lit "expiry_height", expiry_height);
       (lit "tx_joinsplits", VTuple (if some_js then l else []));
       (lit "joinsplit_pubkey", if some_js then joinsplit_pubkey else VNone);
       (lit "joinsplit_sig", if some_js then joinsplit_sig else VNone);
       (lit "hsigs", VTuple (map VB hsigs)); (lit "primary_inputs", VTuple (map VB primary_inputs));
       (lit "tx_id_le", VB (hash256 H net b)); (lit "tx_id", VB (rev (hash256 H net b)))] ;;
    raise_if 100000 <? zlen b as ValueError ;;
    Ok (h, self).

  (* sapling.py:258-416 *)
  Definition new_sapling_tx (h : heap) (tx_ins tx_outs lock_time expiry_height value_balance
    tx_shielded_spends tx_shielded_outputs tx_joinsplits joinsplit_pubkey joinsplit_sig binding_sig : val)
    : res (heap * nat) :=
    _ <- zcash_only net ;;
    raise_if negb (net_has net (lit "sapling")) as ValueError ;;
    _ <- check_len h lock_time 4 ;;
    _ <- check_len h expiry_height 4 ;;
    _ <- check_len h value_balance 8 ;;
    e <- le_number h expiry_height ;;
    raise_if 499999999 <? e as ValueError ;;
    spends <- get_items h tx_shielded_spends ;;
    outputs <- get_items h tx_shielded_outputs ;;
    _ <- (if (zlen spends + zlen outputs =? 0) && negb (equals h value_balance (zrepeat 0 8))
          then Err ValueError
          else if is_none binding_sig then Ok tt else check_len h binding_sig 64) ;;
    ins <- get_items h tx_ins ;;
    outs <- get_items h tx_outs ;;
    l <- get_items h tx_joinsplits ;;
    raise_if 5 <? zlen l as ValueError ;;
    let some_js := negb (zlen l =? 0) in
    _ <- (if some_js
          then _ <- check_len h joinsplit_pubkey 32 ;; check_len h joinsplit_sig 64
          else Ok tt) ;;
    raise_if zlen l + zlen ins + zlen spends =? 0 as ValueError ;;
    n <- VarInt (zlen ins) None ;;
    m <- VarInt (zlen outs) None ;;
    p <- VarInt (zlen spends) None ;;
    q <- VarInt (zlen outputs) None ;;
    k <- VarInt (zlen l) None ;;
    tail <- (if some_js
             then _ <- get_content h joinsplit_pubkey ;;
                  _ <- get_content h joinsplit_sig ;;
                  Ok (l ++ [joinsplit_pubkey; joinsplit_sig])
             else Ok []) ;;
    let shielded := negb (zlen outputs + zlen spends =? 0) in
    bs <- (if shielded then _ <- get_content h binding_sig ;; Ok [binding_sig] else Ok []) ;;
    let parts := [VB [4; 0; 0; 0x80]; VB [0x85; 0x20; 0x2f; 0x89]; VB (vi_bytes n)] ++ ins
                 ++ [VB (vi_bytes m)] ++ outs ++ [lock_time; expiry_height; value_balance; VB (vi_bytes p)] ++ spends
                 ++ [VB (vi_bytes q)] ++ outputs ++ [VB (vi_bytes k)] ++ tail ++ bs in
    hsigs <- (if some_js then hsigs_of h joinsplit_pubkey l else Ok []) ;;
    primary_inputs <- (if some_js then primary_inputs_of h l hsigs else Ok []) ;;
    b <- joined h parts ;;
    ' (h, self) <- construct h parts
      [(lit "binding_sig", if shielded then binding_sig else VNone);
       (lit "header", VB [4; 0; 0; 0x80]); (lit "group_id", VB [0x85; 0x20; 0x2f; 0x89]);
       (lit "tx_ins", VTuple ins); (lit "tx_outs", VTuple outs);
       (lit "lock_time", lock_time); (lit "expiry_height", expiry_height); (lit "value_balance", value_balance);
       (lit "tx_shielded_spends", VTuple spends); (lit "tx_shielded_outputs", VTuple outputs);
       (lit "tx_joinsplits", VTuple (if some_js then l else []));
       (lit "joinsplit_pubkey", if some_js then joinsplit_pubkey else VNone);
       (lit "joinsplit_sig", if some_js then joinsplit_sig else VNone);
       (lit "hsigs", VTuple (map VB hsigs)); (lit "primary_inputs", VTuple (map VB primary_inputs));
       (lit "tx_id_le", VB (hash256 H net b)); (lit "tx_id", VB (rev (hash256 H net b)))] ;;
    raise_if 100000 <? zlen b as ValueError ;;
    Ok (h, self).

  (* sprout.py:219-243; VNone is an argument that is left out *)
  Definition sprout_copy (h : heap) (self : nat) (version tx_ins tx_outs lock_time tx_joinsplits
    joinsplit_pubkey joinsplit_sig : val) : res (heap * nat) :=
    version <- or_attr h self version (lit "version") ;;
    tx_ins <- or_attr h self tx_ins (lit "tx_ins") ;;
    tx_outs <- or_attr h self tx_outs (lit "tx_outs") ;;
    lock_time <- or_attr h self lock_time (lit "lock_time") ;;
    tx_joinsplits <- or_attr h self tx_joinsplits (lit "tx_joinsplits") ;;
    joinsplit_pubkey <- or_attr h self joinsplit_pubkey (lit "joinsplit_pubkey") ;;
    joinsplit_sig <- or_attr h self joinsplit_sig (lit "joinsplit_sig") ;;
    new_sprout_tx h version tx_ins tx_outs lock_time tx_joinsplits joinsplit_pubkey joinsplit_sig.

  (* overwinter.py:142-167 *)
  Definition overwinter_copy (h : heap) (self : nat) (tx_ins tx_outs lock_time expiry_height tx_joinsplits
    joinsplit_pubkey joinsplit_sig : val) : res (heap * nat) :=
    tx_ins <- or_attr h self tx_ins (lit "tx_ins") ;;
    tx_outs <- or_attr h self tx_outs (lit "tx_outs") ;;
    lock_time <- or_attr h self lock_time (lit "lock_time") ;;
    expiry_height <- or_attr h self expiry_height (lit "expiry_height") ;;
    tx_joinsplits <- or_attr h self tx_joinsplits (lit "tx_joinsplits") ;;
    joinsplit_pubkey <- or_attr h self joinsplit_pubkey (lit "joinsplit_pubkey") ;;
    joinsplit_sig <- or_attr h self joinsplit_sig (lit "joinsplit_sig") ;;
    new_overwinter_tx h tx_ins tx_outs lock_time expiry_height tx_joinsplits joinsplit_pubkey joinsplit_sig.

  (* sapling.py:430-471 *)
  Definition sapling_copy (h : heap) (self : nat) (tx_ins tx_outs lock_time expiry_height value_balance
    tx_shielded_spends tx_shielded_outputs tx_joinsplits joinsplit_pubkey joinsplit_sig binding_sig : val)
    : res (heap * nat) :=
    tx_ins <- or_attr h self tx_ins (lit "tx_ins") ;;
    tx_outs <- or_attr h self tx_outs (lit "tx_outs") ;;
    lock_time <- or_attr h self lock_time (lit "lock_time") ;;
    expiry_height <- or_attr h self expiry_height (lit "expiry_height") ;;
    value_balance <- or_attr h self value_balance (lit "value_balance") ;;
    tx_shielded_spends <- or_attr h self tx_shielded_spends (lit "tx_shielded_spends") ;;
    tx_shielded_outputs <- or_attr h self tx_shielded_outputs (lit "tx_shielded_outputs") ;;
    tx_joinsplits <- or_attr h self tx_joinsplits (lit "tx_joinsplits") ;;
    joinsplit_pubkey <- or_attr h self joinsplit_pubkey (lit "joinsplit_pubkey") ;;
    joinsplit_sig <- or_attr h self joinsplit_sig (lit "joinsplit_sig") ;;
    binding_sig <- or_attr h self binding_sig (lit "binding_sig") ;;
    new_sapling_tx h tx_ins tx_outs lock_time expiry_height value_balance tx_shielded_spends
      tx_shielded_outputs tx_joinsplits joinsplit_pubkey joinsplit_sig binding_sig.

  (* utils.le2i of an attribute of each object;
     sprout.py:208-217, overwinter.py:131-140, sapling.py:418-428 *)
  Definition numbers_of (h : heap) (k : str) (vs : list val) : res (list Z) :=
    mapM (fun v => x <- attr h v k ;; le_number h x) vs.

  (* sprout.py:208-217, overwinter.py:131-140 *)
  Definition zcash_calculate_fee (h : heap) (self : nat) (input_values : list Z) : res Z :=
    tx_outs <- getattr h self (lit "tx_outs") ;;
    outs <- get_items h tx_outs ;;
    values <- numbers_of h (lit "value") outs ;;
    tx_joinsplits <- getattr h self (lit "tx_joinsplits") ;;
    l <- get_items h tx_joinsplits ;;
    new <- numbers_of h (lit "vpub_new") l ;;
    old <- numbers_of h (lit "vpub_old") l ;;
    Ok (sumZ input_values + sumZ new - (sumZ values + sumZ old)).

  (* sapling.py:418-428 *)
  Definition sapling_fee (h : heap) (self : nat) (input_values : list Z) : res Z :=
    f <- zcash_calculate_fee h self input_values ;;
    value_balance <- getattr h self (lit "value_balance") ;;
    b <- get_content h value_balance ;;
    Ok (f + le2i b true).
End Zcash.
