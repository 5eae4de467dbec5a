(* The model run on the data of /repo/riemann/tests (test_tx.py, test_tx_builder.py,
   test_simple.py, test_addresses.py, test_base58.py, test_bech32.py,
   test_serialization.py, test_shared.py), with the digests of SSha.v.  These are
   tests of the model, not proofs: they show that it computes what the library's own
   tests expect of the code. Each test is a
   boolean that Check makes the kernel evaluate to true: the file fails to compile if
   one is false. *)
From Coq Require Import String.
From Verif Require Import Py MNet MUtils MShared MScript MTx MBase58 MBech32 MCashaddr MAddr MBlake MBuilder MDecred SSha.
Open Scope string_scope.
Open Scope list_scope.
Open Scope Z_scope.

Definition unh (s : string) : bytes := match fromhex (lit s) with Ok b => b | Err _ => [] end.
Definition is_ok {A} (r : res A) (f : A -> bytes) (b : bytes) : bool := match r with Ok x => leqb (f x) b | Err _ => false end.
Definition is_some (r : res (option str)) (b : str) : bool := match r with Ok (Some x) => leqb x b | _ => false end.
Definition exn_eqb (a b : exn) : bool :=
  match a, b with
  | ValueError, ValueError | TypeError, TypeError | IndexError, IndexError | KeyError, KeyError
  | OverflowError, OverflowError | NotImplementedError, NotImplementedError | AttributeError, AttributeError => true
  | _, _ => false
  end.
Definition fails {A} (r : res A) (e : exn) : bool := match r with Err e' => exn_eqb e e' | Ok _ => false end.
Definition id_ (b : bytes) : bytes := b.
Fixpoint all (l : list bool) : bool := match l with [] => true | b :: t => b && all t end.

(* test_tx.py *)
Definition p1_outpoint := Outpoint (Some (unh "813f79011acb80925dfe69b3def355fe914bd1d96a3f5f71bf8303c6a989c7d1")) (Some (unh "00000000")).
Definition t_1 : bool := is_ok p1_outpoint op_bytes (unh "813f79011acb80925dfe69b3def355fe914bd1d96a3f5f71bf8303c6a989c7d100000000").
Check (eq_refl true <: (t_1 = true)).
Definition p1_in := o <- p1_outpoint ;; TxIn o (unh "483045022100ed81ff192e75a3fd2304004dcadb746fa5e24c5031ccfcf21320b0277457c98f02207a986d955c6e0cb35d446a89d3f56100f4d7f67801c31967743a9c8e10615bed01210349fc4e631e3624a545de3f89f5d8684c7b8138bd94bdd531d2e213bf016b278a") [] (unh "feffffff").
Definition t_2 : bool := is_ok p1_in ti_bytes (unh "813f79011acb80925dfe69b3def355fe914bd1d96a3f5f71bf8303c6a989c7d1000000006b483045022100ed81ff192e75a3fd2304004dcadb746fa5e24c5031ccfcf21320b0277457c98f02207a986d955c6e0cb35d446a89d3f56100f4d7f67801c31967743a9c8e10615bed01210349fc4e631e3624a545de3f89f5d8684c7b8138bd94bdd531d2e213bf016b278afeffffff").
Check (eq_refl true <: (t_2 = true)).
Definition t_3 : bool := is_ok (TxIn_from_bytes BitcoinMain (unh "813f79011acb80925dfe69b3def355fe914bd1d96a3f5f71bf8303c6a989c7d1000000006b483045022100ed81ff192e75a3fd2304004dcadb746fa5e24c5031ccfcf21320b0277457c98f02207a986d955c6e0cb35d446a89d3f56100f4d7f67801c31967743a9c8e10615bed01210349fc4e631e3624a545de3f89f5d8684c7b8138bd94bdd531d2e213bf016b278afeffffff")) ti_stack_script (unh "483045022100ed81ff192e75a3fd2304004dcadb746fa5e24c5031ccfcf21320b0277457c98f02207a986d955c6e0cb35d446a89d3f56100f4d7f67801c31967743a9c8e10615bed01210349fc4e631e3624a545de3f89f5d8684c7b8138bd94bdd531d2e213bf016b278a").
Check (eq_refl true <: (t_3 = true)).
Definition t_4 : bool := is_ok (TxIn_from_bytes BitcoinMain (unh "0784f25f35885f55dd639b9e6bbb35b6dbb3c5731e0601d6e0cae9a2a901bdad01000000d900473044022006ef6bf5880315420936e7c1bdeb7d68e67706d183b69ea3437966fb817da9bc02203446effcdf377e913ed145423088b9acf86b09ad0d608dfffd0bfaca5a396f2f01473044022022b990a3765a4418dc7e600a33a9b4019eeb6d5ed1ba8ab056533c6a50aadedb02202577803366dd13f2003bf90bf4ec463b6201ea70ea7b8ed414e8c385debacff501475221024c122c7dc3c539eaf657e254bb30a25ccc6efc17c1f58e4e448b3b9305b27dab21031d46936f30c89bb975a96c531ddebb256c6965235dc5383f36317953f10ea48952aeffffffff")) ti_bytes (unh "0784f25f35885f55dd639b9e6bbb35b6dbb3c5731e0601d6e0cae9a2a901bdad01000000d900473044022006ef6bf5880315420936e7c1bdeb7d68e67706d183b69ea3437966fb817da9bc02203446effcdf377e913ed145423088b9acf86b09ad0d608dfffd0bfaca5a396f2f01473044022022b990a3765a4418dc7e600a33a9b4019eeb6d5ed1ba8ab056533c6a50aadedb02202577803366dd13f2003bf90bf4ec463b6201ea70ea7b8ed414e8c385debacff501475221024c122c7dc3c539eaf657e254bb30a25ccc6efc17c1f58e4e448b3b9305b27dab21031d46936f30c89bb975a96c531ddebb256c6965235dc5383f36317953f10ea48952aeffffffff").
Check (eq_refl true <: (t_4 = true)).
Definition t_5 : bool := is_ok (TxIn_from_bytes BitcoinMain (unh "0784f25f35885f55dd639b9e6bbb35b6dbb3c5731e0601d6e0cae9a2a901bdad01000000d900473044022006ef6bf5880315420936e7c1bdeb7d68e67706d183b69ea3437966fb817da9bc02203446effcdf377e913ed145423088b9acf86b09ad0d608dfffd0bfaca5a396f2f01473044022022b990a3765a4418dc7e600a33a9b4019eeb6d5ed1ba8ab056533c6a50aadedb02202577803366dd13f2003bf90bf4ec463b6201ea70ea7b8ed414e8c385debacff501475221024c122c7dc3c539eaf657e254bb30a25ccc6efc17c1f58e4e448b3b9305b27dab21031d46936f30c89bb975a96c531ddebb256c6965235dc5383f36317953f10ea48952aeffffffff")) ti_stack_script (unh "00473044022006ef6bf5880315420936e7c1bdeb7d68e67706d183b69ea3437966fb817da9bc02203446effcdf377e913ed145423088b9acf86b09ad0d608dfffd0bfaca5a396f2f01473044022022b990a3765a4418dc7e600a33a9b4019eeb6d5ed1ba8ab056533c6a50aadedb02202577803366dd13f2003bf90bf4ec463b6201ea70ea7b8ed414e8c385debacff501").
Check (eq_refl true <: (t_5 = true)).
Definition t_6 : bool := is_ok (TxIn_from_bytes BitcoinMain (unh "0784f25f35885f55dd639b9e6bbb35b6dbb3c5731e0601d6e0cae9a2a901bdad01000000d900473044022006ef6bf5880315420936e7c1bdeb7d68e67706d183b69ea3437966fb817da9bc02203446effcdf377e913ed145423088b9acf86b09ad0d608dfffd0bfaca5a396f2f01473044022022b990a3765a4418dc7e600a33a9b4019eeb6d5ed1ba8ab056533c6a50aadedb02202577803366dd13f2003bf90bf4ec463b6201ea70ea7b8ed414e8c385debacff501475221024c122c7dc3c539eaf657e254bb30a25ccc6efc17c1f58e4e448b3b9305b27dab21031d46936f30c89bb975a96c531ddebb256c6965235dc5383f36317953f10ea48952aeffffffff")) ti_redeem_script (unh "475221024c122c7dc3c539eaf657e254bb30a25ccc6efc17c1f58e4e448b3b9305b27dab21031d46936f30c89bb975a96c531ddebb256c6965235dc5383f36317953f10ea48952ae").
Check (eq_refl true <: (t_6 = true)).
Definition t_7 : bool := is_ok (TxIn_from_bytes BitcoinMain (unh "1fceaec1c93a98af3e035b3ba0ef01c32be39a79dede5d03c2347097fac6283e0100000000ffffffff")) ti_bytes (unh "1fceaec1c93a98af3e035b3ba0ef01c32be39a79dede5d03c2347097fac6283e0100000000ffffffff").
Check (eq_refl true <: (t_7 = true)).
Definition t_8 : bool := all (map (fun i => is_ok (TxIn_from_bytes BitcoinMain i) ti_bytes i) [(unh "0000000000000000000000000000000000000000000000000000000000000000ffffffff2403f8bd07174d696e656420627920416e74506f6f6c6147205a75553e4c1d0000b0700000ffffffff"); (unh "0000000000000000000000000000000000000000000000000000000000000000ffffffff4b0392c6070487e9875a642f4254432e434f4d2ffabe6d6d59713fa29326c81f029f74b21ddcc07763ab50ee5c5f5a9b0e1ac7e24dc1e61a0100000000000000030b752f4c24010000000000ffffffff"); (unh "0000000000000000000000000000000000000000000000000000000000000000ffffffff6403bdc907541a31c7094b3a9225d4f147f9e2f3fb5f139b89c1cf1e3dcfeacd35874ca813c1ec4cad8c010000000000000000c793492400b64d6a88043b582f425443432f200000000000000000000000000000000000000000000000000000000000000000000000"); (unh "0000000000000000000000000000000000000000000000000000000000000000ffffffff4b0341ce070496a2985a612f4254432e434f4d2ffabe6d6d783f53021e372ebde80f62fe6e3337b03cc5873f4446cc91f9e4f5d584e1b0d201000000000000006e4d64645575020000000000ffffffff"); (unh "0000000000000000000000000000000000000000000000000000000000000000ffffffff49037ace07041a22995a2f4254504f4f4c2ffabe6d6d12cda296a27b3e560afb50d029c7a777d8af986168c3ce773f847adb64cc5d9b01000000000000000277064dacad030000000000ffffffff"); (unh "0000000000000000000000000000000000000000000000000000000000000000ffffffff4b0317d407049f68a55a642f4254432e434f4d2ffabe6d6d0f14f2a2c572f0755da25d1d97600aed82b8729b6fb7a1ab2854e26fb4d71783010000000000000001094d04dd5d000000000000ffffffff")]).
Check (eq_refl true <: (t_8 = true)).
Definition p1_out0 := TxOut (unh "a135ef0100000000") (unh "76a914bc3b654dca7e56b04dca18f2566cdaf02e8d9ada88ac").
Definition p1_out1 := TxOut (unh "99c3980000000000") (unh "76a9141c4bc762dd5423e332166702cb75f40df79fea1288ac").
Definition t_9 : bool := is_ok p1_out0 to_bytes_ (unh "a135ef01000000001976a914bc3b654dca7e56b04dca18f2566cdaf02e8d9ada88ac").
Check (eq_refl true <: (t_9 = true)).
Definition t_10 : bool := fails (TxOut_from_bytes BitcoinMain (repeat 255 10)) NotImplementedError.
Check (eq_refl true <: (t_10 = true)).
Definition t_11 : bool := is_ok (WitnessStackItem_from_bytes BitcoinMain [0]) wi_bytes [0].
Check (eq_refl true <: (t_11 = true)).
Definition t_12 : bool := is_ok (InputWitness_from_bytes BitcoinMain (unh "040047304402201b1c2fc7d58870004c379575a47db60c3833174033f891ad5030cbf0c37c50c302206087d3ddc6f38da40e7eaf8c2af3f934a577de10e6ca75e00b4cdfbb34f5d40601483045022100a7ecde342ccacd1159e385bcd41c947723a7ae3fcea66c76b5b09d02fee310f7022058ca21324fcd0c90e69630f13975d993e11f62ec8d7aa1a9a49036b9607e58fe016952210375e00eb72e29da82b89367947f29ef34afb75e8654f6ea368e0acdfd92976b7c2103a1b26313f430c4b15bb1fdce663207659d8cac749a0e53d70eff01874496feff2103c96d495bfdd5ba4145e3e046fee45e84a8a48ad05bd8dbb395c011a32cf9f88053ae"))
  (fun w => List.concat (map wi_item (wit_stack w))) (List.concat [(unh ""); (unh "304402201b1c2fc7d58870004c379575a47db60c3833174033f891ad5030cbf0c37c50c302206087d3ddc6f38da40e7eaf8c2af3f934a577de10e6ca75e00b4cdfbb34f5d40601"); (unh "3045022100a7ecde342ccacd1159e385bcd41c947723a7ae3fcea66c76b5b09d02fee310f7022058ca21324fcd0c90e69630f13975d993e11f62ec8d7aa1a9a49036b9607e58fe01"); (unh "52210375e00eb72e29da82b89367947f29ef34afb75e8654f6ea368e0acdfd92976b7c2103a1b26313f430c4b15bb1fdce663207659d8cac749a0e53d70eff01874496feff2103c96d495bfdd5ba4145e3e046fee45e84a8a48ad05bd8dbb395c011a32cf9f88053ae")]).
Check (eq_refl true <: (t_12 = true)).
Definition p1_tx (net : network) :=
  i <- p1_in ;; o0 <- p1_out0 ;; o1 <- p1_out1 ;;
  Tx real net (unh "01000000") None [i] [o0; o1] None (unh "19430600").
Definition t_13 : bool := is_ok (p1_tx BitcoinMain) tx_bytes (unh "0100000001813f79011acb80925dfe69b3def355fe914bd1d96a3f5f71bf8303c6a989c7d1000000006b483045022100ed81ff192e75a3fd2304004dcadb746fa5e24c5031ccfcf21320b0277457c98f02207a986d955c6e0cb35d446a89d3f56100f4d7f67801c31967743a9c8e10615bed01210349fc4e631e3624a545de3f89f5d8684c7b8138bd94bdd531d2e213bf016b278afeffffff02a135ef01000000001976a914bc3b654dca7e56b04dca18f2566cdaf02e8d9ada88ac99c39800000000001976a9141c4bc762dd5423e332166702cb75f40df79fea1288ac19430600").
Check (eq_refl true <: (t_13 = true)).
Definition t_14 : bool := is_ok (p1_tx BitcoinMain) tx_tx_id (unh "452c629d67e41baec3ac6f04fe744b4b9617f8f859c63b3002f8684e7a4fee03").
Check (eq_refl true <: (t_14 = true)).
Definition t_15 : bool := is_ok (p1_tx BitcoinMain) tx_tx_id_le (unh "03ee4f7a4e68f802303bc659f8f817964b4b74fe046facc3ae1be4679d622c45").
Check (eq_refl true <: (t_15 = true)).
Definition t_16 : bool := is_ok (Tx_from_hex real BitcoinMain (lit "0100000001813f79011acb80925dfe69b3def355fe914bd1d96a3f5f71bf8303c6a989c7d1000000006b483045022100ed81ff192e75a3fd2304004dcadb746fa5e24c5031ccfcf21320b0277457c98f02207a986d955c6e0cb35d446a89d3f56100f4d7f67801c31967743a9c8e10615bed01210349fc4e631e3624a545de3f89f5d8684c7b8138bd94bdd531d2e213bf016b278afeffffff02a135ef01000000001976a914bc3b654dca7e56b04dca18f2566cdaf02e8d9ada88ac99c39800000000001976a9141c4bc762dd5423e332166702cb75f40df79fea1288ac19430600")) tx_bytes (unh "0100000001813f79011acb80925dfe69b3def355fe914bd1d96a3f5f71bf8303c6a989c7d1000000006b483045022100ed81ff192e75a3fd2304004dcadb746fa5e24c5031ccfcf21320b0277457c98f02207a986d955c6e0cb35d446a89d3f56100f4d7f67801c31967743a9c8e10615bed01210349fc4e631e3624a545de3f89f5d8684c7b8138bd94bdd531d2e213bf016b278afeffffff02a135ef01000000001976a914bc3b654dca7e56b04dca18f2566cdaf02e8d9ada88ac99c39800000000001976a9141c4bc762dd5423e332166702cb75f40df79fea1288ac19430600").
Check (eq_refl true <: (t_16 = true)).
Definition t_17 : bool := is_ok (Tx_from_bytes real BitcoinMain (unh "01000000010784f25f35885f55dd639b9e6bbb35b6dbb3c5731e0601d6e0cae9a2a901bdad01000000d900473044022006ef6bf5880315420936e7c1bdeb7d68e67706d183b69ea3437966fb817da9bc02203446effcdf377e913ed145423088b9acf86b09ad0d608dfffd0bfaca5a396f2f01473044022022b990a3765a4418dc7e600a33a9b4019eeb6d5ed1ba8ab056533c6a50aadedb02202577803366dd13f2003bf90bf4ec463b6201ea70ea7b8ed414e8c385debacff501475221024c122c7dc3c539eaf657e254bb30a25ccc6efc17c1f58e4e448b3b9305b27dab21031d46936f30c89bb975a96c531ddebb256c6965235dc5383f36317953f10ea48952aeffffffff0270c579000000000017a914ec8c50e0db21e67a1c07eca87d1018a4e825275e870c93be000000000017a914aea8d2f5708ff4257169233664bd776806170b4d8700000000")) tx_bytes (unh "01000000010784f25f35885f55dd639b9e6bbb35b6dbb3c5731e0601d6e0cae9a2a901bdad01000000d900473044022006ef6bf5880315420936e7c1bdeb7d68e67706d183b69ea3437966fb817da9bc02203446effcdf377e913ed145423088b9acf86b09ad0d608dfffd0bfaca5a396f2f01473044022022b990a3765a4418dc7e600a33a9b4019eeb6d5ed1ba8ab056533c6a50aadedb02202577803366dd13f2003bf90bf4ec463b6201ea70ea7b8ed414e8c385debacff501475221024c122c7dc3c539eaf657e254bb30a25ccc6efc17c1f58e4e448b3b9305b27dab21031d46936f30c89bb975a96c531ddebb256c6965235dc5383f36317953f10ea48952aeffffffff0270c579000000000017a914ec8c50e0db21e67a1c07eca87d1018a4e825275e870c93be000000000017a914aea8d2f5708ff4257169233664bd776806170b4d8700000000").
Check (eq_refl true <: (t_17 = true)).
Definition t_18 : bool := is_ok (Tx_from_bytes real BitcoinMain (unh "010000000001011fceaec1c93a98af3e035b3ba0ef01c32be39a79dede5d03c2347097fac6283e0100000000ffffffff0440548900000000001976a9146199463742d1359a505881821d82f5d4148e3fc588ac60361e000000000017a9140df9a2a3c14a223733908e3e9127e2f6a9e2878e87502b7000000000001976a914f447146b86373c781a946d7ebd88cbbb79ec810288ac0370040000000000220020701a8d401c84fb13e6baf169d59684e17abd9fa216c8cc5b9fc63d622ff8c58d040047304402201b1c2fc7d58870004c379575a47db60c3833174033f891ad5030cbf0c37c50c302206087d3ddc6f38da40e7eaf8c2af3f934a577de10e6ca75e00b4cdfbb34f5d40601483045022100a7ecde342ccacd1159e385bcd41c947723a7ae3fcea66c76b5b09d02fee310f7022058ca21324fcd0c90e69630f13975d993e11f62ec8d7aa1a9a49036b9607e58fe016952210375e00eb72e29da82b89367947f29ef34afb75e8654f6ea368e0acdfd92976b7c2103a1b26313f430c4b15bb1fdce663207659d8cac749a0e53d70eff01874496feff2103c96d495bfdd5ba4145e3e046fee45e84a8a48ad05bd8dbb395c011a32cf9f88053ae00000000")) tx_bytes (unh "010000000001011fceaec1c93a98af3e035b3ba0ef01c32be39a79dede5d03c2347097fac6283e0100000000ffffffff0440548900000000001976a9146199463742d1359a505881821d82f5d4148e3fc588ac60361e000000000017a9140df9a2a3c14a223733908e3e9127e2f6a9e2878e87502b7000000000001976a914f447146b86373c781a946d7ebd88cbbb79ec810288ac0370040000000000220020701a8d401c84fb13e6baf169d59684e17abd9fa216c8cc5b9fc63d622ff8c58d040047304402201b1c2fc7d58870004c379575a47db60c3833174033f891ad5030cbf0c37c50c302206087d3ddc6f38da40e7eaf8c2af3f934a577de10e6ca75e00b4cdfbb34f5d40601483045022100a7ecde342ccacd1159e385bcd41c947723a7ae3fcea66c76b5b09d02fee310f7022058ca21324fcd0c90e69630f13975d993e11f62ec8d7aa1a9a49036b9607e58fe016952210375e00eb72e29da82b89367947f29ef34afb75e8654f6ea368e0acdfd92976b7c2103a1b26313f430c4b15bb1fdce663207659d8cac749a0e53d70eff01874496feff2103c96d495bfdd5ba4145e3e046fee45e84a8a48ad05bd8dbb395c011a32cf9f88053ae00000000").
Check (eq_refl true <: (t_18 = true)).
Definition t_19 : bool := match p1_tx BitcoinMain with Ok t => calculate_fee t [10 ^ 8] =? 57534406 | Err _ => false end.
Check (eq_refl true <: (t_19 = true)).
Definition wpkh := Tx_from_bytes real BitcoinMain (unh "02000000000101ee9242c89e79ab2aa537408839329895392b97505b3496d5543d6d2f531b94d20000000000fdffffff0173d301000000000017a914bba5acbec4e6e3374a0345bf3609fa7cfea825f18702483045022100f746173f184f43e2855fd1b739879a137317ef905cc3b56fd1bcd34158a4721a022031163e6831efe77aa256ecfd65b9b1a9e46cafce8c2611be222194ee985dfd660121027450ee71e5a86f7466720a10811316f79a64e85d5671ee46332f8f7dae4f5d67cafd0700").
Definition wpkh_digest (f : hashes -> network -> tx -> Z -> bytes -> option bytes -> bool -> res bytes) (anyone : bool) (d : bytes) :=
  is_ok (t <- wpkh ;; f real BitcoinMain t 0 (unh "160014758ce550380d964051086798d6546bebdca27a73") (Some (unh "c0d4010000000000")) anyone) id_ d.
Definition t_20 : bool := wpkh_digest sighash_all false (unh "135754ab872e4943f7a9c30d6143c4c7187e33d0f63c75ec82a7f9a15e2f2d00").
Check (eq_refl true <: (t_20 = true)).
Definition t_21 : bool := wpkh_digest sighash_all true (unh "cc7438d5b15e93ba612dcd227cf1937c35273675b3aa7d1b771573667376ddf6").
Check (eq_refl true <: (t_21 = true)).
Definition t_22 : bool := wpkh_digest sighash_single false (unh "d04631d2742e6fd8e80e2e4309dece65becca41d37fd6bc0bcba041c52d824d5").
Check (eq_refl true <: (t_22 = true)).
Definition t_23 : bool := wpkh_digest sighash_single true (unh "ffea9cdda07170af9bc9967cedf485e9fe15b78a622e0c196c0b6fc64f40c615").
Check (eq_refl true <: (t_23 = true)).
Definition p1_digest (net : network) (f : hashes -> network -> tx -> Z -> bytes -> option bytes -> bool -> res bytes) (value : option bytes) (anyone : bool) (d : bytes) :=
  is_ok (t <- p1_tx net ;; f real net t 0 (unh "17a91424d6008f143af0cca57344069c46661aa4fcea2387") value anyone) id_ d.
Definition t_24 : bool := p1_digest BitcoinMain sighash_all None false (unh "b85c4f8d1377cc138225dd9b319d0a4ca547f7884270640f44c5fcdf269e0fe8").
Check (eq_refl true <: (t_24 = true)).
Definition t_25 : bool := p1_digest BitcoinMain sighash_all None true (unh "3b67a5114cc9fc837ddd6f6ec11bde38db5f68c34ab6ece2a043d7b25f2cf8bb").
Check (eq_refl true <: (t_25 = true)).
Definition t_26 : bool := p1_digest BitcoinMain sighash_single None false (unh "1dab67d768be0380fc800098005d1f61744ffe585b0852f8d7adc12121a86938").
Check (eq_refl true <: (t_26 = true)).
Definition t_27 : bool := p1_digest BitcoinMain sighash_single None true (unh "d4687b93c0a9090dc0a3384cd3a594ce613834bb37abc56f6032e96c597547e3").
Check (eq_refl true <: (t_27 = true)).
Definition p1_value := (unh "3af9870200000000").
Definition t_28 : bool := p1_digest BitcoinCashMain sighash_all (Some p1_value) false (unh "450a16c7b1d6f913acb2460665a6fdc7dc7d351af5a3358c537278ffa4d125ea").
Check (eq_refl true <: (t_28 = true)).
Definition t_29 : bool := p1_digest BitcoinCashMain sighash_all (Some p1_value) true (unh "f1a7a88eb953c86381f50ed223b8dd06e45b86437747ad83886f0529da9f3323").
Check (eq_refl true <: (t_29 = true)).
Definition t_30 : bool := p1_digest BitcoinCashMain sighash_single (Some p1_value) false (unh "1a8ad1cebbd419fe5a53092fa6c272d8456829e871bf46be93906e859e42890e").
Check (eq_refl true <: (t_30 = true)).
Definition t_31 : bool := p1_digest BitcoinCashMain sighash_single (Some p1_value) true (unh "4ad1e69f172960c7ce26b993a0696fb618cf41104898b93b9fd66be465d1d38d").
Check (eq_refl true <: (t_31 = true)).
Definition t_32 : bool := fails (i <- p1_in ;; o0 <- p1_out0 ;; o1 <- p1_out1 ;;
  t <- Tx real BitcoinMain (unh "01000000") None [i; i; i] [o0; o1] None (unh "19430600") ;;
  sighash_single real BitcoinMain t 2 (unh "17a91424d6008f143af0cca57344069c46661aa4fcea2387") None false) NotImplementedError.
Check (eq_refl true <: (t_32 = true)).
Definition t_33 : bool := fails (i <- p1_in ;; o0 <- p1_out0 ;; Tx real BitcoinMain (unh "01000000") (Some [0; 0]) [i] [o0] None [0; 0; 0; 0]) ValueError.
Check (eq_refl true <: (t_33 = true)).
Definition t_34 : bool := fails (o0 <- p1_out0 ;; Tx real BitcoinMain (unh "01000000") None [] [o0] None [0; 0; 0; 0]) ValueError.
Check (eq_refl true <: (t_34 = true)).

(* test_addresses.py *)
Definition msig := (lit "OP_2 0000000000000000000000000000000000000000000000000000000000000000000000000000000000000000000000000000000000000000000000000000000000 1111111111111111111111111111111111111111111111111111111111111111111111111111111111111111111111111111111111111111111111111111111111 OP_2 OP_CHECKMULTISIG").
Definition t_35 : bool := is_some (make_p2sh_address real BitcoinMain (lit "OP_IF")) (lit "3MpTk145zbm5odhRALfT9BnUs8DB5w4ydw").
Check (eq_refl true <: (t_35 = true)).
Definition t_36 : bool := is_some (make_p2sh_address real BitcoinMain msig) (lit "3R23EEkAzy7HPWKN8rcL4ZzSjEWNsipxWV").
Check (eq_refl true <: (t_36 = true)).
Definition t_37 : bool := is_some (make_p2wsh_address real BitcoinMain (lit "OP_2 0375e00eb72e29da82b89367947f29ef34afb75e8654f6ea368e0acdfd92976b7c 03a1b26313f430c4b15bb1fdce663207659d8cac749a0e53d70eff01874496feff 03c96d495bfdd5ba4145e3e046fee45e84a8a48ad05bd8dbb395c011a32cf9f880 OP_3 OP_CHECKMULTISIG")) (lit "bc1qwqdg6squsna38e46795at95yu9atm8azzmyvckulcc7kytlcckxswvvzej").
Check (eq_refl true <: (t_37 = true)).
Definition t_38 : bool := is_some (make_p2pkh_address real BitcoinMain (repeat 0 65)) (lit "13VmALKHkCdSN1JULkP6RqW3LcbpWvgryV").
Check (eq_refl true <: (t_38 = true)).
Definition t_39 : bool := is_some (make_p2pkh_address real BitcoinMain (repeat 17 65)) (lit "1N59mqr5yg38K11PTY2HdZTN7KmAHeCyHE").
Check (eq_refl true <: (t_39 = true)).
Definition t_40 : bool := is_some (make_p2wpkh_address real BitcoinMain (unh "03dc3dbabbf8c5e15d1eb3606a6a42c6d3a8c546f2a196a80a08b9a9021e2be33d")) (lit "bc1q8cqttds2dej9zht7vupd3467ndhur92fudlyql").
Check (eq_refl true <: (t_40 = true)).
Definition t_41 : bool := is_ok (parse real BitcoinMain (lit "3MpTk145zbm5odhRALfT9BnUs8DB5w4ydw")) id_ (5 :: (unh "dccafab9536343713ef4b9a1d443a1b6ca8c8dd1")).
Check (eq_refl true <: (t_41 = true)).
Definition t_42 : bool := is_ok (parse real BitcoinMain (lit "bc1qwqdg6squsna38e46795at95yu9atm8azzmyvckulcc7kytlcckxswvvzej")) id_ (unh "0020701a8d401c84fb13e6baf169d59684e17abd9fa216c8cc5b9fc63d622ff8c58d").
Check (eq_refl true <: (t_42 = true)).
Definition t_43 : bool := is_ok (parse real BitcoinMain (lit "bc1q8cqttds2dej9zht7vupd3467ndhur92fudlyql")) id_ (0 :: 20 :: (unh "3e00b5b60a6e64515d7e6702d8d75e9b6fc19549")).
Check (eq_refl true <: (t_43 = true)).
Definition t_44 : bool := fails (parse real BitcoinMain (lit "This is not a valid address.")) ValueError.
Check (eq_refl true <: (t_44 = true)).
Definition t_45 : bool := fails (parse real BitcoinMain (lit "bc1blahblahblah")) ValueError.
Check (eq_refl true <: (t_45 = true)).
Definition t_46 : bool := is_ok (parse_hash real BitcoinMain (lit "bc1qwqdg6squsna38e46795at95yu9atm8azzmyvckulcc7kytlcckxswvvzej")) id_ (unh "701a8d401c84fb13e6baf169d59684e17abd9fa216c8cc5b9fc63d622ff8c58d").
Check (eq_refl true <: (t_46 = true)).
Definition t_47 : bool := is_ok (parse_hash real BitcoinMain (lit "bc1q8cqttds2dej9zht7vupd3467ndhur92fudlyql")) id_ (unh "3e00b5b60a6e64515d7e6702d8d75e9b6fc19549").
Check (eq_refl true <: (t_47 = true)).
Definition t_48 : bool := is_ok (parse_hash real BitcoinMain (lit "13VmALKHkCdSN1JULkP6RqW3LcbpWvgryV")) id_ (unh "1b60c31dba9403c74d81af255f0c300bfed5faa3").
Check (eq_refl true <: (t_48 = true)).
Definition t_49 : bool := is_ok (parse_hash real BitcoinCashMain (lit "3MpTk145zbm5odhRALfT9BnUs8DB5w4ydw")) id_ (unh "dccafab9536343713ef4b9a1d443a1b6ca8c8dd1").
Check (eq_refl true <: (t_49 = true)).
Definition t_50 : bool := is_ok (parse_hash real BitcoinCashMain (lit "bitcoincash:prwv474e2d35xuf77ju6r4zr5xmv4ryd6ynr4c5mld")) id_ (unh "dccafab9536343713ef4b9a1d443a1b6ca8c8dd1").
Check (eq_refl true <: (t_50 = true)).
Definition t_51 : bool := is_ok (parse_hash real BitcoinCashMain (lit "bitcoincash:qr4l2ykm7qw4rwg0yqtxwrt4mp0m4wsn4qv4sm4l62")) id_ (hash160 real BitcoinCashMain (unh "02f0899f0bbd104a12efa06d10eece1584887a6cfaf31cd168c78d0c15d8357aa7")).
Check (eq_refl true <: (t_51 = true)).
Definition t_52 : bool := is_some (make_legacy_p2sh_address real BitcoinCashMain (lit "OP_IF")) (lit "3MpTk145zbm5odhRALfT9BnUs8DB5w4ydw").
Check (eq_refl true <: (t_52 = true)).
Definition t_53 : bool := is_some (make_sh_address real BitcoinCashMain (lit "OP_IF") false true) (lit "bitcoincash:prwv474e2d35xuf77ju6r4zr5xmv4ryd6ynr4c5mld").
Check (eq_refl true <: (t_53 = true)).
Definition t_54 : bool := is_some (make_legacy_p2pkh_address real BitcoinCashMain (unh "02f0899f0bbd104a12efa06d10eece1584887a6cfaf31cd168c78d0c15d8357aa7")) (lit "1NWdP6dqMUjK5VCDELo6vFhaGkJFLEY5Gw").
Check (eq_refl true <: (t_54 = true)).
Definition t_55 : bool := is_some (make_pkh_address real BitcoinCashMain (unh "02f0899f0bbd104a12efa06d10eece1584887a6cfaf31cd168c78d0c15d8357aa7") false true) (lit "bitcoincash:qr4l2ykm7qw4rwg0yqtxwrt4mp0m4wsn4qv4sm4l62").
Check (eq_refl true <: (t_55 = true)).
Definition t_56 : bool := is_some (from_output_script real BitcoinMain (unh "a914dccafab9536343713ef4b9a1d443a1b6ca8c8dd187") true) (lit "3MpTk145zbm5odhRALfT9BnUs8DB5w4ydw").
Check (eq_refl true <: (t_56 = true)).
Definition t_57 : bool := is_some (from_output_script real BitcoinMain (unh "0020701a8d401c84fb13e6baf169d59684e17abd9fa216c8cc5b9fc63d622ff8c58d") true) (lit "bc1qwqdg6squsna38e46795at95yu9atm8azzmyvckulcc7kytlcckxswvvzej").
Check (eq_refl true <: (t_57 = true)).
Definition t_58 : bool := is_some (from_output_script real BitcoinMain (unh "76a9141b60c31dba9403c74d81af255f0c300bfed5faa388ac") true) (lit "13VmALKHkCdSN1JULkP6RqW3LcbpWvgryV").
Check (eq_refl true <: (t_58 = true)).
Definition t_59 : bool := is_some (from_output_script real BitcoinMain (unh "00143e00b5b60a6e64515d7e6702d8d75e9b6fc19549") true) (lit "bc1q8cqttds2dej9zht7vupd3467ndhur92fudlyql").
Check (eq_refl true <: (t_59 = true)).
Definition t_60 : bool := fails (from_output_script real BitcoinMain (repeat 142 34) true) ValueError.
Check (eq_refl true <: (t_60 = true)).
Definition t_61 : bool := is_some (from_output_script real BitcoinCashMain (unh "76a9141b60c31dba9403c74d81af255f0c300bfed5faa388ac") true) (lit "bitcoincash:qqdkpscah22q836dsxhj2hcvxq9la4065v92pm9f84").
Check (eq_refl true <: (t_61 = true)).
Definition t_62 : bool := is_some (from_output_script real BitcoinCashMain (unh "a914dccafab9536343713ef4b9a1d443a1b6ca8c8dd187") true) (lit "bitcoincash:prwv474e2d35xuf77ju6r4zr5xmv4ryd6ynr4c5mld").
Check (eq_refl true <: (t_62 = true)).
Definition t_63 : bool := is_ok (MAddr.to_output_script real BitcoinMain (lit "3MpTk145zbm5odhRALfT9BnUs8DB5w4ydw")) id_ (unh "a914dccafab9536343713ef4b9a1d443a1b6ca8c8dd187").
Check (eq_refl true <: (t_63 = true)).
Definition t_64 : bool := is_ok (MAddr.to_output_script real BitcoinMain (lit "bc1qwqdg6squsna38e46795at95yu9atm8azzmyvckulcc7kytlcckxswvvzej")) id_ (unh "0020701a8d401c84fb13e6baf169d59684e17abd9fa216c8cc5b9fc63d622ff8c58d").
Check (eq_refl true <: (t_64 = true)).
Definition t_65 : bool := is_ok (MAddr.to_output_script real BitcoinMain (lit "13VmALKHkCdSN1JULkP6RqW3LcbpWvgryV")) id_ (unh "76a9141b60c31dba9403c74d81af255f0c300bfed5faa388ac").
Check (eq_refl true <: (t_65 = true)).
Definition t_66 : bool := fails (MAddr.to_output_script real BitcoinMain (lit "1111111111111111111111111111111111177fdsQ")) ValueError.
Check (eq_refl true <: (t_66 = true)).
Definition t_67 : bool := is_ok (MAddr.to_output_script real BitcoinCashMain (lit "bitcoincash:prwv474e2d35xuf77ju6r4zr5xmv4ryd6ynr4c5mld")) id_ (unh "a914dccafab9536343713ef4b9a1d443a1b6ca8c8dd187").
Check (eq_refl true <: (t_67 = true)).
Definition t_68 : bool := is_ok (MAddr.to_output_script real BitcoinCashMain (lit "bitcoincash:qqdkpscah22q836dsxhj2hcvxq9la4065v92pm9f84")) id_ (unh "76a9141b60c31dba9403c74d81af255f0c300bfed5faa388ac").
Check (eq_refl true <: (t_68 = true)).

(* test_base58.py *)
Definition t_69 : bool := fails (base58_decode real BitcoinMain (lit "13VmALKHkCdSN1JULkP6RqW3LcbpWvgryW") true) ValueError.
Check (eq_refl true <: (t_69 = true)).
Definition t_70 : bool := is_ok (base58_decode real BitcoinMain (lit "1P86rvoC4bTympTEdXnw9HhWVxb4") false) id_ (0 :: (unh "1b60c31dba9403c74d81af255f0c300bfed5faa3")).
Check (eq_refl true <: (t_70 = true)).
Definition t_71 : bool := is_ok (encode_with_checksum real BitcoinMain (0 :: (unh "1b60c31dba9403c74d81af255f0c300bfed5faa3"))) id_ (lit "13VmALKHkCdSN1JULkP6RqW3LcbpWvgryV").
Check (eq_refl true <: (t_71 = true)).
Definition t_72 : bool := match has_checksum real BitcoinMain (lit "13VmALKHkCdSN1JULkP6RqW3LcbpWvgryV"), has_checksum real BitcoinMain (lit "1P86rvoC4bTympTEdXnw9HhWVxb4") with Ok true, Ok false => true | _, _ => false end.
Check (eq_refl true <: (t_72 = true)).
Definition t_73 : bool := all (map (fun '(a, b) => is_ok (base58_encode real DecredMain b true) id_ a)
  [((lit "DsU7xcg53nxaKLLcAUSKyRndjG78Z2VZnX9"), (unh "073f229ebac30efd6a69eec9c1a48e048b7c975c25f2")); ((lit "DsUZxxoHJSty8DCfwfartwTYbuhmVct7tJu"), (unh "073f2789d58cfa0957d206f025c2af056fc8a77cebb0")); ((lit "DcuQKx8BES9wU7C6Q5VmLBjw436r27hayjS"), (unh "071af0b4e85100aee1a996f22915eb3c3f764d53779a"))]).
Check (eq_refl true <: (t_73 = true)).

(* test_bech32.py *)
Definition flip (t : str) : str :=
  let p := Z.to_nat (rfind_from 49 t 0 (-1) + 1) in firstn p t ++ Z.lxor (nth p t 0) 1 :: skipn (S p) t.
Definition decodes (t : str) : bool := match bech32_decode t with Some _ => true | None => false end.
Definition t_74 : bool := all (map (fun t => decodes t && negb (decodes (flip t))) [(lit "A12UEL5L"); (lit "an83characterlonghumanreadablepartthatcontainsthenumber1andtheexcludedcharactersbio1tt5tgs"); (lit "abcdef1qpzry9x8gf2tvdw0s3jn54khce6mua7lmqqqxw"); (lit "11qqqqqqqqqqqqqqqqqqqqqqqqqqqqqqqqqqqqqqqqqqqqqqqqqqqqqqqqqqqqqqqqqqqqqqqqqqqqqqqqqqc8247j"); (lit "split1checkupstagehandshakeupstreamerranterredcaperred2y9e3w")]).
Check (eq_refl true <: (t_74 = true)).
Definition t_75 : bool := all (map (fun t => negb (decodes t)) [(lit " 1nwldj5"); [127; 49; 97; 120; 107; 119; 114; 120]; (lit "an84characterslonghumanreadablepartthatcontainsthenumber1andtheexcludedcharactersbio1569pvx"); (lit "pzry9x0s0muk"); (lit "1pzry9x0s0muk"); (lit "x1b4n0q5v"); (lit "li1dgmt3"); [100; 101; 49; 108; 103; 55; 119; 116; 255]]).
Check (eq_refl true <: (t_75 = true)).
Definition scriptpubkey (r : res (option (Z * list Z))) : option bytes :=
  match r with Ok (Some (v, p)) => Some ((if v =? 0 then 0 else v + 0x50) :: zlen p :: p) | _ => None end.
Definition valid (a : str * str) : bool :=
  let try h := match segwit_decode h (fst a) with
    | Ok (Some (v, p)) => match scriptpubkey (segwit_decode h (fst a)) with Some s => leqb (hex s) (snd a) | None => false end
        && is_some (segwit_encode h v p) (lower (fst a))
    | _ => false end in
  try (lit "bc") || try (lit "tb").
Definition t_76 : bool := all (map valid (combine [(lit "BC1QW508D6QEJXTDG4Y5R3ZARVARY0C5XW7KV8F3T4"); (lit "tb1qrp33g0q5c5txsp9arysrx4k6zdkfs4nce4xj0gdcccefvpysxf3q0sl5k7"); (lit "bc1pw508d6qejxtdg4y5r3zarvary0c5xw7kw508d6qejxtdg4y5r3zarvary0c5xw7k7grplx"); (lit "BC1SW50QA3JX3S"); (lit "bc1zw508d6qejxtdg4y5r3zarvaryvg6kdaj"); (lit "tb1qqqqqp399et2xygdj5xreqhjjvcmzhxw4aywxecjdzew6hylgvsesrxh6hy")] [(lit "0014751e76e8199196d454941c45d1b3a323f1433bd6"); (lit "00201863143c14c5166804bd19203356da136c985678cd4d27a1b8c6329604903262"); (lit "5128751e76e8199196d454941c45d1b3a323f1433bd6751e76e8199196d454941c45d1b3a323f1433bd6"); (lit "6002751e"); (lit "5210751e76e8199196d454941c45d1b3a323"); (lit "0020000000c4a5cad46221b2a187905e5266362b99d5e91c6ce24d165dab93e86433")])).
Check (eq_refl true <: (t_76 = true)).
Definition undecoded (h a : str) : bool := match segwit_decode h a with Ok None => true | _ => false end.
Definition t_77 : bool := all (map (fun a => undecoded (lit "bc") a && undecoded (lit "tb") a) [(lit "tc1qw508d6qejxtdg4y5r3zarvary0c5xw7kg3g4ty"); (lit "bc1qw508d6qejxtdg4y5r3zarvary0c5xw7kv8f3t5"); (lit "BC13W508D6QEJXTDG4Y5R3ZARVARY0C5XW7KN40WF2"); (lit "bc1rw5uspcuh"); (lit "bc10w508d6qejxtdg4y5r3zarvary0c5xw7kw508d6qejxtdg4y5r3zarvary0c5xw7kw5rljs90"); (lit "BC1QR508D6QEJXTDG4Y5R3ZARVARYV98GJ9P"); (lit "tb1qrp33g0q5c5txsp9arysrx4k6zdkfs4nce4xj0gdcccefvpysxf3q0sL5k7"); (lit "bc1zw508d6qejxtdg4y5r3zarvaryvqyzf3du"); (lit "tb1qrp33g0q5c5txsp9arysrx4k6zdkfs4nce4xj0gdcccefvpysxf3pjxtptv"); (lit "bc1gmk9yu")]).
Check (eq_refl true <: (t_77 = true)).
Definition unencoded (h : str) (v : Z) (n : nat) : bool := match segwit_encode h v (repeat 0 n) with Ok None => true | _ => false end.
Definition t_78 : bool := all [unencoded (lit "BC") 0 20; unencoded (lit "bc") 0 21; unencoded (lit "bc") 17 32; unencoded (lit "bc") 1 1; unencoded (lit "bc") 16 41].
Check (eq_refl true <: (t_78 = true)).
Definition t_79 : bool := fails (bech32_net_encode ZcashSproutMain (repeat 0 32)) ValueError.
Check (eq_refl true <: (t_79 = true)).
Definition t_80 : bool := match convertbits [33] 5 8 true with Ok None => true | _ => false end.
Check (eq_refl true <: (t_80 = true)).

(* test_serialization.py *)
Definition t_81 : bool := is_ok (serialize BitcoinMain msig) id_ (unh "5241000000000000000000000000000000000000000000000000000000000000000000000000000000000000000000000000000000000000000000000000000000000041111111111111111111111111111111111111111111111111111111111111111111111111111111111111111111111111111111111111111111111111111111111152ae").
Check (eq_refl true <: (t_81 = true)).
Definition t_82 : bool := is_ok (deserialize BitcoinMain (unh "5241000000000000000000000000000000000000000000000000000000000000000000000000000000000000000000000000000000000000000000000000000000000041111111111111111111111111111111111111111111111111111111111111111111111111111111111111111111111111111111111111111111111111111111111152ae")) id_ msig.
Check (eq_refl true <: (t_82 = true)).
Definition t_83 : bool := fails (serialize BitcoinMain (lit "OP_PUSHDATA4")) NotImplementedError.
Check (eq_refl true <: (t_83 = true)).
Definition t_84 : bool := fails (serialize BitcoinMain (lit "OP_CODESEPARATOR")) NotImplementedError.
Check (eq_refl true <: (t_84 = true)).
Definition t_85 : bool := fails (serialize BitcoinMain (lit "OP_NOTAREALOPCODE")) ValueError.
Check (eq_refl true <: (t_85 = true)).
Definition t_86 : bool := is_ok (hex_serialize BitcoinMain (lit "OP_0 3044022024bb241b26586a4c614ba38fec83a50904d5daeed0975e25eae095e5e911989e022073d99364454fc572a189a2dcf11c6b182a45c5177e746b731448abe3d9e4fe5001 30440220319dbd5a69bcaa73e569c5e068edb03f6c52344cd9068d248925256463608c8f02201b4f35ee176d85395aa1eb49aa80adc22cad820d26d62cf462889b791b98aaf801 522102975ddf75126ef880d1b56ea194141ea0ceb2d9e12298b74d54432cbd835358542103c96d495bfdd5ba4145e3e046fee45e84a8a48ad05bd8dbb395c011a32cf9f8802103e5dc75b59e4c67bfea266314d0b1da1e317f5b7d1e4cf1975442b79e542de74853ae")) id_ (lit "00473044022024bb241b26586a4c614ba38fec83a50904d5daeed0975e25eae095e5e911989e022073d99364454fc572a189a2dcf11c6b182a45c5177e746b731448abe3d9e4fe50014730440220319dbd5a69bcaa73e569c5e068edb03f6c52344cd9068d248925256463608c8f02201b4f35ee176d85395aa1eb49aa80adc22cad820d26d62cf462889b791b98aaf8014c69522102975ddf75126ef880d1b56ea194141ea0ceb2d9e12298b74d54432cbd835358542103c96d495bfdd5ba4145e3e046fee45e84a8a48ad05bd8dbb395c011a32cf9f8802103e5dc75b59e4c67bfea266314d0b1da1e317f5b7d1e4cf1975442b79e542de74853ae").
Check (eq_refl true <: (t_86 = true)).
Definition t_87 : bool := is_ok (hex_deserialize BitcoinMain (lit "00473044022024bb241b26586a4c614ba38fec83a50904d5daeed0975e25eae095e5e911989e022073d99364454fc572a189a2dcf11c6b182a45c5177e746b731448abe3d9e4fe50014730440220319dbd5a69bcaa73e569c5e068edb03f6c52344cd9068d248925256463608c8f02201b4f35ee176d85395aa1eb49aa80adc22cad820d26d62cf462889b791b98aaf8014c69522102975ddf75126ef880d1b56ea194141ea0ceb2d9e12298b74d54432cbd835358542103c96d495bfdd5ba4145e3e046fee45e84a8a48ad05bd8dbb395c011a32cf9f8802103e5dc75b59e4c67bfea266314d0b1da1e317f5b7d1e4cf1975442b79e542de74853ae")) id_ (lit "OP_0 3044022024bb241b26586a4c614ba38fec83a50904d5daeed0975e25eae095e5e911989e022073d99364454fc572a189a2dcf11c6b182a45c5177e746b731448abe3d9e4fe5001 30440220319dbd5a69bcaa73e569c5e068edb03f6c52344cd9068d248925256463608c8f02201b4f35ee176d85395aa1eb49aa80adc22cad820d26d62cf462889b791b98aaf801 522102975ddf75126ef880d1b56ea194141ea0ceb2d9e12298b74d54432cbd835358542103c96d495bfdd5ba4145e3e046fee45e84a8a48ad05bd8dbb395c011a32cf9f8802103e5dc75b59e4c67bfea266314d0b1da1e317f5b7d1e4cf1975442b79e542de74853ae").
Check (eq_refl true <: (t_87 = true)).
Definition t_88 : bool := is_ok (hex_serialize BitcoinMain (lit "OP_0 3044022024bb241b26586a4c614ba38fec83a50904d5daeed0975e25eae095e5e911989e022073d99364454fc572a189a2dcf11c6b182a45c5177e746b731448abe3d9e4fe5001 30440220319dbd5a69bcaa73e569c5e068edb03f6c52344cd9068d248925256463608c8f02201b4f35ee176d85395aa1eb49aa80adc22cad820d26d62cf462889b791b98aaf801 522102975ddf75126ef880d1b56ea194141ea0ceb2d9e12298b74d54432cbd835358542103c96d495bfdd5ba4145e3e046fee45e84a8a48ad05bd8dbb395c011a32cf9f8802103e5dc75b59e4c67bfea266314d0b1da1e317f5b7d1e4cf1975442b79e542de74853ae2102975ddf75126ef880d1b56ea194141ea0ceb2d9e12298b74d54432cbd835358542103c96d495bfdd5ba4145e3e046fee45e84a8a48ad05bd8dbb395c011a32cf9f8802103e5dc75b59e4c67bfea266314d0b1da1e317f5b7d1e4cf1975442b79e542de74853ae2102975ddf75126ef880d1b56ea194141ea0ceb2d9e12298b74d54432cbd835358542103c96d495bfdd5ba4145e3e046fee45e84a8a48ad05bd8dbb395c011a32cf9f8802103e5dc75b59e4c67bfea266314d0b1da1e317f5b7d1e4cf1975442b79e542de74853ae")) id_ (lit "00473044022024bb241b26586a4c614ba38fec83a50904d5daeed0975e25eae095e5e911989e022073d99364454fc572a189a2dcf11c6b182a45c5177e746b731448abe3d9e4fe50014730440220319dbd5a69bcaa73e569c5e068edb03f6c52344cd9068d248925256463608c8f02201b4f35ee176d85395aa1eb49aa80adc22cad820d26d62cf462889b791b98aaf8014d3901522102975ddf75126ef880d1b56ea194141ea0ceb2d9e12298b74d54432cbd835358542103c96d495bfdd5ba4145e3e046fee45e84a8a48ad05bd8dbb395c011a32cf9f8802103e5dc75b59e4c67bfea266314d0b1da1e317f5b7d1e4cf1975442b79e542de74853ae2102975ddf75126ef880d1b56ea194141ea0ceb2d9e12298b74d54432cbd835358542103c96d495bfdd5ba4145e3e046fee45e84a8a48ad05bd8dbb395c011a32cf9f8802103e5dc75b59e4c67bfea266314d0b1da1e317f5b7d1e4cf1975442b79e542de74853ae2102975ddf75126ef880d1b56ea194141ea0ceb2d9e12298b74d54432cbd835358542103c96d495bfdd5ba4145e3e046fee45e84a8a48ad05bd8dbb395c011a32cf9f8802103e5dc75b59e4c67bfea266314d0b1da1e317f5b7d1e4cf1975442b79e542de74853ae").
Check (eq_refl true <: (t_88 = true)).
Definition t_89 : bool := is_ok (hex_deserialize BitcoinMain (lit "00473044022024bb241b26586a4c614ba38fec83a50904d5daeed0975e25eae095e5e911989e022073d99364454fc572a189a2dcf11c6b182a45c5177e746b731448abe3d9e4fe50014730440220319dbd5a69bcaa73e569c5e068edb03f6c52344cd9068d248925256463608c8f02201b4f35ee176d85395aa1eb49aa80adc22cad820d26d62cf462889b791b98aaf8014d3901522102975ddf75126ef880d1b56ea194141ea0ceb2d9e12298b74d54432cbd835358542103c96d495bfdd5ba4145e3e046fee45e84a8a48ad05bd8dbb395c011a32cf9f8802103e5dc75b59e4c67bfea266314d0b1da1e317f5b7d1e4cf1975442b79e542de74853ae2102975ddf75126ef880d1b56ea194141ea0ceb2d9e12298b74d54432cbd835358542103c96d495bfdd5ba4145e3e046fee45e84a8a48ad05bd8dbb395c011a32cf9f8802103e5dc75b59e4c67bfea266314d0b1da1e317f5b7d1e4cf1975442b79e542de74853ae2102975ddf75126ef880d1b56ea194141ea0ceb2d9e12298b74d54432cbd835358542103c96d495bfdd5ba4145e3e046fee45e84a8a48ad05bd8dbb395c011a32cf9f8802103e5dc75b59e4c67bfea266314d0b1da1e317f5b7d1e4cf1975442b79e542de74853ae")) id_ (lit "OP_0 3044022024bb241b26586a4c614ba38fec83a50904d5daeed0975e25eae095e5e911989e022073d99364454fc572a189a2dcf11c6b182a45c5177e746b731448abe3d9e4fe5001 30440220319dbd5a69bcaa73e569c5e068edb03f6c52344cd9068d248925256463608c8f02201b4f35ee176d85395aa1eb49aa80adc22cad820d26d62cf462889b791b98aaf801 522102975ddf75126ef880d1b56ea194141ea0ceb2d9e12298b74d54432cbd835358542103c96d495bfdd5ba4145e3e046fee45e84a8a48ad05bd8dbb395c011a32cf9f8802103e5dc75b59e4c67bfea266314d0b1da1e317f5b7d1e4cf1975442b79e542de74853ae2102975ddf75126ef880d1b56ea194141ea0ceb2d9e12298b74d54432cbd835358542103c96d495bfdd5ba4145e3e046fee45e84a8a48ad05bd8dbb395c011a32cf9f8802103e5dc75b59e4c67bfea266314d0b1da1e317f5b7d1e4cf1975442b79e542de74853ae2102975ddf75126ef880d1b56ea194141ea0ceb2d9e12298b74d54432cbd835358542103c96d495bfdd5ba4145e3e046fee45e84a8a48ad05bd8dbb395c011a32cf9f8802103e5dc75b59e4c67bfea266314d0b1da1e317f5b7d1e4cf1975442b79e542de74853ae").
Check (eq_refl true <: (t_89 = true)).
Definition t_90 : bool := fails (deserialize BitcoinMain [5; 0; 0]) IndexError.
Check (eq_refl true <: (t_90 = true)).
Definition t_91 : bool := fails (deserialize BitcoinMain [0xab]) NotImplementedError.
Check (eq_refl true <: (t_91 = true)).
Definition t_92 : bool := fails (deserialize BitcoinMain [0xfe]) ValueError.
Check (eq_refl true <: (t_92 = true)).
Definition t_93 : bool := fails (deserialize BitcoinMain [78]) NotImplementedError.
Check (eq_refl true <: (t_93 = true)).
Definition t_94 : bool := is_ok (hex_deserialize DecredMain (lit "a8")) id_ (lit "OP_BLAKE256").
Check (eq_refl true <: (t_94 = true)).
Definition t_95 : bool := is_ok (hex_serialize DecredMain (lit "OP_BLAKE256")) id_ (lit "a8").
Check (eq_refl true <: (t_95 = true)).
Definition t_96 : bool := is_ok (hex_deserialize DecredMain (lit "c0")) id_ (lit "OP_SHA256").
Check (eq_refl true <: (t_96 = true)).
Definition t_97 : bool := is_ok (hex_serialize DecredMain (lit "OP_SHA256")) id_ (lit "c0").
Check (eq_refl true <: (t_97 = true)).

(* test_shared.py *)
Definition t_98 : bool := all (map (fun p => is_ok (VarInt (fst p) None) vi_bytes (snd p))
  [(0xfb, [0xfb]); (0xff, [0xfd; 0xff; 0]); (0xffff, [0xfd; 0xff; 0xff]); (0xffffffff, 0xfe :: repeat 255 4); (0xffffffffffffffff, repeat 255 9);
   (0x0123456789abcdef, unh "ffefcdab8967452301"); (0x234000000000, unh "ff0000000040230000")]).
Check (eq_refl true <: (t_98 = true)).
Definition t_99 : bool := fails (VarInt (-5) None) ValueError && fails (VarInt (2 ^ 64 + 1) None) ValueError.
Check (eq_refl true <: (t_99 = true)).
Definition t_100 : bool := all (map (fun b => is_ok (VarInt_from_bytes BitcoinMain b) vi_bytes b) [[0xfd; 0x91; 0x23]; [0]; repeat 255 9]).
Check (eq_refl true <: (t_100 = true)).
Definition t_101 : bool := fails (VarInt_from_bytes BitcoinMain [0xfe]) ValueError && fails (VarInt_from_bytes BitcoinMain [0xfe; 0; 0; 0]) ValueError.
Check (eq_refl true <: (t_101 = true)).
Definition t_102 : bool := fails (VarInt_from_bytes ZcashOverwinterMain [0xfd; 0; 0]) ValueError && fails (VarInt_from_bytes ZcashOverwinterMain [0xfe; 0; 0; 0; 0]) ValueError.
Check (eq_refl true <: (t_102 = true)).

(* test_tx_builder.py, test_simple.py *)
Definition out_bytes (o : any_out) : bytes := match o with AnyOut o => to_bytes_ o | AnyDecredOut o => dto_bytes o end.
Definition in_bytes (i : any_in) : bytes := match i with AnyIn i => ti_bytes i | AnyDecredIn i => dti_bytes i end.
Definition t_103 : bool := is_ok (make_sh_output_script real BitcoinMain (lit "OP_IF") false) id_ (unh "a914dccafab9536343713ef4b9a1d443a1b6ca8c8dd187").
Check (eq_refl true <: (t_103 = true)).
Definition t_104 : bool := is_ok (make_sh_output_script real BitcoinMain (lit "OP_2 0375e00eb72e29da82b89367947f29ef34afb75e8654f6ea368e0acdfd92976b7c 03a1b26313f430c4b15bb1fdce663207659d8cac749a0e53d70eff01874496feff 03c96d495bfdd5ba4145e3e046fee45e84a8a48ad05bd8dbb395c011a32cf9f880 OP_3 OP_CHECKMULTISIG") true) id_ (unh "0020701a8d401c84fb13e6baf169d59684e17abd9fa216c8cc5b9fc63d622ff8c58d").
Check (eq_refl true <: (t_104 = true)).
Definition t_105 : bool := fails (make_sh_output_script real BitcoinCashMain (lit "OP_IF") true) ValueError.
Check (eq_refl true <: (t_105 = true)).
Definition t_106 : bool := is_ok (make_pkh_output_script real BitcoinMain (unh "0000000000000000000000000000000000000000000000000000000000000000000000000000000000000000000000000000000000000000000000000000000000") false) id_ (unh "76a9141b60c31dba9403c74d81af255f0c300bfed5faa388ac").
Check (eq_refl true <: (t_106 = true)).
Definition t_107 : bool := is_ok (make_pkh_output_script real BitcoinMain (unh "0000000000000000000000000000000000000000000000000000000000000000000000000000000000000000000000000000000000000000000000000000000000") true) id_ (unh "00141b60c31dba9403c74d81af255f0c300bfed5faa3").
Check (eq_refl true <: (t_107 = true)).
Definition t_108 : bool := is_ok (make_p2sh_output real BitcoinMain 32454049 (lit "OP_IF")) out_bytes (unh "a135ef010000000017a914dccafab9536343713ef4b9a1d443a1b6ca8c8dd187").
Check (eq_refl true <: (t_108 = true)).
Definition t_109 : bool := is_ok (make_p2wsh_output real BitcoinMain 290819 (lit "OP_2 0375e00eb72e29da82b89367947f29ef34afb75e8654f6ea368e0acdfd92976b7c 03a1b26313f430c4b15bb1fdce663207659d8cac749a0e53d70eff01874496feff 03c96d495bfdd5ba4145e3e046fee45e84a8a48ad05bd8dbb395c011a32cf9f880 OP_3 OP_CHECKMULTISIG")) out_bytes (unh "0370040000000000220020701a8d401c84fb13e6baf169d59684e17abd9fa216c8cc5b9fc63d622ff8c58d").
Check (eq_refl true <: (t_109 = true)).
Definition t_110 : bool := is_ok (make_p2pkh_output real BitcoinMain 32454049 (unh "0000000000000000000000000000000000000000000000000000000000000000000000000000000000000000000000000000000000000000000000000000000000")) out_bytes (unh "a135ef01000000001976a9141b60c31dba9403c74d81af255f0c300bfed5faa388ac").
Check (eq_refl true <: (t_110 = true)).
Definition t_111 : bool := is_ok (make_p2wpkh_output real BitcoinMain 32454049 (unh "0000000000000000000000000000000000000000000000000000000000000000000000000000000000000000000000000000000000000000000000000000000000")) out_bytes (unh "a135ef01000000001600141b60c31dba9403c74d81af255f0c300bfed5faa3").
Check (eq_refl true <: (t_111 = true)).
Definition t_112 : bool := fails (make_op_return_output BitcoinMain (repeat 0 78)) ValueError.
Check (eq_refl true <: (t_112 = true)).
Definition t_113 : bool := is_ok (make_script_sig BitcoinMain (lit "OP_0 3044022024bb241b26586a4c614ba38fec83a50904d5daeed0975e25eae095e5e911989e022073d99364454fc572a189a2dcf11c6b182a45c5177e746b731448abe3d9e4fe5001 30440220319dbd5a69bcaa73e569c5e068edb03f6c52344cd9068d248925256463608c8f02201b4f35ee176d85395aa1eb49aa80adc22cad820d26d62cf462889b791b98aaf801") (lit "OP_2 02975ddf75126ef880d1b56ea194141ea0ceb2d9e12298b74d54432cbd83535854 03c96d495bfdd5ba4145e3e046fee45e84a8a48ad05bd8dbb395c011a32cf9f880 03e5dc75b59e4c67bfea266314d0b1da1e317f5b7d1e4cf1975442b79e542de748 OP_3 OP_CHECKMULTISIG")) id_ (unh "00473044022024bb241b26586a4c614ba38fec83a50904d5daeed0975e25eae095e5e911989e022073d99364454fc572a189a2dcf11c6b182a45c5177e746b731448abe3d9e4fe50014730440220319dbd5a69bcaa73e569c5e068edb03f6c52344cd9068d248925256463608c8f02201b4f35ee176d85395aa1eb49aa80adc22cad820d26d62cf462889b791b98aaf8014c69522102975ddf75126ef880d1b56ea194141ea0ceb2d9e12298b74d54432cbd835358542103c96d495bfdd5ba4145e3e046fee45e84a8a48ad05bd8dbb395c011a32cf9f8802103e5dc75b59e4c67bfea266314d0b1da1e317f5b7d1e4cf1975442b79e542de74853ae").
Check (eq_refl true <: (t_113 = true)).
Definition t_114 : bool := is_ok (o <- make_outpoint BitcoinMain (unh "813f79011acb80925dfe69b3def355fe914bd1d96a3f5f71bf8303c6a989c7d1") 0 None ;;
  make_legacy_input BitcoinMain o (unh "483045022100ed81ff192e75a3fd2304004dcadb746fa5e24c5031ccfcf21320b0277457c98f02207a986d955c6e0cb35d446a89d3f56100f4d7f67801c31967743a9c8e10615bed01210349fc4e631e3624a545de3f89f5d8684c7b8138bd94bdd531d2e213bf016b278a") [] 4294967294) in_bytes (unh "813f79011acb80925dfe69b3def355fe914bd1d96a3f5f71bf8303c6a989c7d1000000006b483045022100ed81ff192e75a3fd2304004dcadb746fa5e24c5031ccfcf21320b0277457c98f02207a986d955c6e0cb35d446a89d3f56100f4d7f67801c31967743a9c8e10615bed01210349fc4e631e3624a545de3f89f5d8684c7b8138bd94bdd531d2e213bf016b278afeffffff").
Check (eq_refl true <: (t_114 = true)).
Definition t_115 : bool := is_ok (length_prepend (repeat 0 256)) id_ ([0xfd; 0; 1] ++ repeat 0 256).
Check (eq_refl true <: (t_115 = true)).
Definition t_116 : bool := all (map (fun '(v, a, o) => is_ok (simple_output real BitcoinMain v a) out_bytes o)
  [(9000000, (lit "19u4AHtrWf4YfABuo1vCKcpizdngMxNJcF"), (unh "40548900000000001976a9146199463742d1359a505881821d82f5d4148e3fc588ac"));
   (1980000, (lit "32xum18WdAepEed6DNEBbNKBDU1gPUusqr"), (unh "60361e000000000017a9140df9a2a3c14a223733908e3e9127e2f6a9e2878e87"));
   (7351120, (lit "1PGd2WtYtEXNb6mFjesZr5WV7NXyAeb5Nj"), (unh "502b7000000000001976a914f447146b86373c781a946d7ebd88cbbb79ec810288ac"));
   (290819, (lit "bc1qwqdg6squsna38e46795at95yu9atm8azzmyvckulcc7kytlcckxswvvzej"), (unh "0370040000000000220020701a8d401c84fb13e6baf169d59684e17abd9fa216c8cc5b9fc63d622ff8c58d"))]).
Check (eq_refl true <: (t_116 = true)).
Definition t_117 : bool := is_ok (o <- simple_outpoint BitcoinMain (lit "ff7ff97060bfa1763dd9d4101b322157e841a4de865ddc28b1f71500f45c8135") 0 None ;; simple_unsigned_input BitcoinMain o (Some 0x1234abcd)) in_bytes
  ((unh "35815cf40015f7b128dc5d86dea441e85721321b10d4d93d76a1bf6070f97fff00000000") ++ [0; 0xcd; 0xab; 0x34; 0x12]).
Check (eq_refl true <: (t_117 = true)).
Definition tx_bytes_of (t : any_tx) : bytes := match t with AnyTx t => tx_bytes t | _ => [] end.
Definition t_118 : bool := is_ok (o <- simple_outpoint BitcoinMain (lit "ff7ff97060bfa1763dd9d4101b322157e841a4de865ddc28b1f71500f45c8135") 0 None ;;
  i <- simple_unsigned_input BitcoinMain o (Some 4294967294) ;;
  o0 <- simple_output real BitcoinMain 990 (lit "bc1qp037f2sk26acz8dn9knp6s8fzuwg390zqxh966") ;;
  o1 <- make_op_return_output BitcoinMain (unh "6d616465207769746820e29da4206279207269656d616e6e") ;;
  simple_unsigned_legacy_tx real BitcoinMain [i] [o0; o1] None None None None None None) tx_bytes_of (unh "020000000135815cf40015f7b128dc5d86dea441e85721321b10d4d93d76a1bf6070f97fff0000000000feffffff02de030000000000001600140be3e4aa1656bb811db32da61d40e9171c8895e200000000000000001a6a186d616465207769746820e29da4206279207269656d616e6e00000000").
Check (eq_refl true <: (t_118 = true)).
