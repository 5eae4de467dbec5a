(* Property C97: what the digest methods return on every argument *)
From Coq Require Import String Lia.
From Verif Require Import Py SNum SNet SHash SScript STx SSig SDecred SZcash SDigest SZDigest SDDigest MNet MUtils MTx MDecred MZcash
  LBase LNet LTx LDecred LZcashTx LSapling LSprout LDigest LZDigest LDDigest PTx PSig PDecred PZcash PZSign PDSign PIndex.
Open Scope list_scope.
Open Scope Z_scope.
Ltac Zify.zify_post_hook ::= idtac.

(* Tx.sighash_all and Tx.sighash_single: every index, script, value and transaction *)
Theorem tx_digest_total : forall H name net segwit ty t i script value anyone,
  get_network name = Ok net -> tx_obj H net t -> (segwit = false <-> plain t) -> all_bytes script ->
  digest H ty net t i script value anyone = exact_digest H name segwit ty (the_tx t) i script value anyone.
Proof. intros. apply (digest_total H name net); assumption. Qed.
Print Assumptions tx_digest_total.
(* the length before the script is taken off unread; no script has no length; a script of
   one byte 253 is too short for its length *)
Example tx_digest_ex : tx_obj toy BitcoinMain ex_two /\ plain ex_two /\
  (exists d, sighash_all toy BitcoinMain ex_two 0 [1; 118] None false = Ok d /\ sighash_all toy BitcoinMain ex_two 0 [9; 118] None false = Ok d) /\
  sighash_all toy BitcoinMain ex_two 7 [] None false = Err IndexError /\
  sighash_all toy BitcoinMain ex_two 7 [253] None false = Err ValueError /\
  exact_digest toy (lit "bitcoin_main") true All (the_tx ex_two) 0 [1; 118] None false = Err TypeError /\
  exact_digest toy (lit "bitcoin_cash_main") true All (the_tx ex_two) 0 [1; 118] None false = Err ValueError.
Proof.
  split; [apply ex_two_objects|]. split; [apply ex_two_objects|]. split; [eexists; split; vm_compute; reflexivity|].
  do 3 (split; [vm_compute; reflexivity|]). vm_compute. reflexivity.
Qed.

(* OverwinterTx.sighash; ty: any integer *)
Theorem overwinter_digest_total : forall H net t ty value script i joinsplit anyone, overwinter_obj H net t ->
  overwinter_sighash H net t ty value script i joinsplit anyone = exact_zip143 H t ty value script i joinsplit anyone.
Proof. intros. apply overwinter_total. assumption. Qed.
Print Assumptions overwinter_digest_total.
(* SaplingTx.sighash *)
Theorem sapling_digest_total : forall H net t ty value script i joinsplit anyone, sapling_obj H net t ->
  sapling_sighash H net t ty value i joinsplit script anyone = exact_zip243 H t ty value script i joinsplit anyone.
Proof. intros. apply sapling_total. assumption. Qed.
Print Assumptions sapling_digest_total.
(* SINGLE with no output at the index: one error or the other.  SIGHASH_NONE and numbers
   that are no hash type are accepted up to 2^32 *)
Example zcash_digest_ex : overwinter_obj small ZcashOverwinterMain ex_ow /\ sapling_obj small ZcashSaplingMain ex_sa /\
  exact_zip143 small ex_ow 3 (Some (repeat 0 8)) (Some [1; 118]) 1 false false = Err IndexError /\
  exact_zip143 small ex_ow 3 (Some (repeat 0 8)) (Some [1; 118]) 2 false false = Err NotImplementedError /\
  exact_zip143 small ex_ow 1 None (Some [1; 118]) 1 false false = Err TypeError /\
  exact_zip243 small ex_sa (-1) None None 1 true false = Err OverflowError /\
  exact_zip243 small ex_sa 1 None None 1 true true = Err ValueError /\
  exists d e, exact_zip143 small ex_ow 2 (Some (repeat 0 8)) (Some [1; 118]) 1 false false = Ok d /\
    exact_zip243 small ex_sa 777 None None 1 true false = Ok e.
Proof.
  split; [destruct overwinter_transaction_ex as (a & b & c & _ & O & _); exact O|].
  split; [destruct sapling_transaction_ex as (a & b & c & _ & O & _); exact O|].
  do 5 (split; [vm_compute; reflexivity|]). eexists. eexists. split; vm_compute; reflexivity.
Qed.

(* SproutTx.sighash_all and SproutTx.sighash_single *)
Theorem sprout_digest_total : forall H name net ty t i script anyone,
  get_network name = Ok net -> sprout_obj H net t -> all_bytes script ->
  match ty with All => sprout_sighash_all H net t i script anyone | Single => sprout_sighash_single H net t i script anyone end =
  exact_sprout H name ty t i script anyone.
Proof. intros H name net ty t i script anyone En. apply (sprout_total H name net En). Qed.
Print Assumptions sprout_digest_total.
Example sprout_digest_ex : sprout_obj small ZcashSproutMain ex_sp /\
  sprout_sighash_all small ZcashSproutMain ex_sp 2 [1; 118] true = Err IndexError /\
  sprout_sighash_all small ZcashSproutMain ex_sp 1 [1; 118] true = Err ValueError /\
  sprout_sighash_all small ZcashSproutMain ex_sp 1 [] false = Err IndexError /\
  exists d, sprout_sighash_all small ZcashSproutMain ex_sp (-2) [1; 118] false = Ok d.
Proof.
  split; [destruct sprout_transaction_ex as (a & b & c & _ & O & _); exact O|].
  do 3 (split; [vm_compute; reflexivity|]). eexists. vm_compute. reflexivity.
Qed.

(* DecredTx.sighash_all and DecredTx.sighash_single *)
Theorem decred_digest_total : forall H name net ty t i script anyone,
  get_network name = Ok net -> In name decred_names -> dtx_obj H net t ->
  ddigest H ty net t i script anyone = exact_ddigest H ty (the_dtx t) i script anyone.
Proof. intros H name net ty t i script anyone En I. apply ddigest_total, (decred_only_Ok name net En I). Qed.
Print Assumptions decred_digest_total.
(* three witnesses, two inputs, two outputs: index -1 takes the script to witness 2 and keeps
   input 1 and output 1; index -3 finds a witness and no input *)
Example decred_digest_total_ex : dtx_obj small DecredMain ex_third /\
  place 3 (-1) = Some 2%nat /\ place 2 (-1) = Some 1%nat /\
  (exists d, decred_sighash_single small DecredMain ex_third (-1) (Some [118]) false = Ok d) /\
  decred_sighash_single small DecredMain ex_third (-3) (Some [118]) false = Err NotImplementedError /\
  decred_sighash_single small DecredMain ex_third (-4) (Some [118]) false = Err IndexError.
Proof.
  split; [apply ex_third_obj|]. do 2 (split; [reflexivity|]). split; [eexists; vm_compute; reflexivity|]. split; vm_compute; reflexivity.
Qed.
