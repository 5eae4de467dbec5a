(* Lemmas about signed Decred transactions *)
From Coq Require Import String.
From Verif Require Import Py LBase MNet MUtils MAddr MShared MScript MTx MDecred MBuilder SNum SNet SHash SScript SAddr STx SSig SCopy SDecred SInterp SSign SDSign
  LNet LUtils LTx LTxParse LScript LAddr LBuilder LBuilderTx LDecred LDecredTop LInterp LExamples LSign PScript PBuilder PCopy PInterp PDecred.
Open Scope list_scope.
Open Scope Z_scope.
Ltac Zify.zify_post_hook ::= idtac.

Lemma dh160_key_hash H cx name m : decred_hashing H cx -> In name decred_names -> h160 cx m = key_hash H name m.
Proof. intros [E1 E2] I. unfold h160, key_hash. rewrite E1, E2. destruct in_dec; [reflexivity|contradiction]. Qed.
Lemma hash_type_number ty anyone : hash_type (type_number ty anyone) = Some (ty, anyone).
Proof. destruct ty, anyone; reflexivity. Qed.
Lemma type_number_byte ty anyone : is_byte (type_number ty anyone).
Proof. unfold is_byte. destruct ty, anyone; cbn; lia. Qed.
Lemma dcheck_snoc W D code s b key : decred_check W D code (s ++ [b]) key = match D code b with Some d => ecdsa W key d s | None => None end.
Proof. unfold decred_check. destruct (s ++ [b]) eqn:E; [destruct s; discriminate|]. rewrite <- E, last_last, removelast_last. reflexivity. Qed.
Lemma dpreimage_same hash ty anyone n code t t' : same_prefix t t' -> dpreimage hash ty anyone n code t = dpreimage hash ty anyone n code t'.
Proof.
  intros (E1 & E2 & E3 & E4 & E5). unfold dpreimage, dsigned_scripts, dprefix_wire, dprefix_body, dsigned_tx, with_ins_outs. cbn [d_version d_ins d_outs d_lock d_expiry].
  rewrite E1, E2, E3, E4, E5. reflexivity.
Qed.

(** * P2PKH *)

Lemma decred_p2pkh_input H cx name net pk script sg key text : hashes_ok H -> decred_hashing H cx -> get_network name = Ok net -> In name decred_names ->
  make_p2pkh_output_script H net pk = Ok script -> all_bytes sg -> all_bytes key -> 1 <= len sg <= 520 -> 1 <= len key <= 520 ->
  words [hex sg; hex key] text ->
  exists sig, serialize net text = Ok sig /\
    (spends cx false sig script [] = true <-> key_hash H name key = key_hash H name pk /\ cx_checksig cx sg key = Some true).
Proof.
  intros K Hc En I Es B1 B2 L1 L2 Wd.
  pose (es := [Push (smallest sg) sg; Push (smallest key) key]).
  assert (Forall (standard_element name) es) as F by (repeat constructor; cbn; try lia; assumption).
  assert (Forall2 spelled [hex sg; hex key] es) as Sp by (repeat constructor).
  exists (concat (map wire es)). split; [apply (serialize_deserialize_partial name net _ es text En F Sp Wd)|].
  rewrite (make_p2pkh_output_script_template H name net pk En) in Es. apply Ok_inj in Es. subst script.
  destruct (key_hash_ok H name pk K) as [_ L]. rewrite (spends_p2pkh cx false _ _ [] L).
  pose proof (standard_codes name es F) as Fc.
  assert (len (concat (map wire es)) <= 10000) as LL.
  { unfold es. cbn [map wire concat]. change (len (push (smallest sg) sg ++ push (smallest key) key ++ [])) with (zlen (push (smallest sg) sg ++ push (smallest key) key ++ [])).
    rewrite !zlen_app, zlen_nil. pose proof (push_length sg). pose proof (push_length key). lia. }
  rewrite run_values; [|exact Fc|reflexivity|vm_compute; discriminate|exact LL]. unfold es. cbn [forallb map rev pushed app]. unfold small. rewrite andb_true_r.
  destruct (Z.leb_spec (len sg) 520); [|lia]. destruct (Z.leb_spec (len key) 520); [|lia]. cbn [andb].
  split.
  - intros (k & s & r & E & _ & Q & C & _). injection E as <- <- <-. rewrite (dh160_key_hash H cx name _ Hc I) in Q. auto.
  - intros (Q & C). exists key, sg, []. rewrite (dh160_key_hash H cx name _ Hc I). repeat split; auto. vm_compute. discriminate.
Qed.
