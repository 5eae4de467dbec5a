(* Two's complement in n bytes *)
From Verif Require Import Py MUtils SNum LBase LUtils.
Open Scope list_scope.
Open Scope Z_scope.

Lemma twos_range b : all_bytes b -> b <> [] -> - 256 ^ len b <= 2 * twos_value b < 256 ^ len b.
Proof.
  intros B N. destruct (exists_last N) as [p [x ->]]. unfold twos_value. rewrite last_last.
  unfold all_bytes in B. apply is_bytes_app in B. destruct B as [Bp Bx]. inversion Bx as [|? ? X _]; subst. unfold is_byte in X.
  norm_spec. rewrite from_le_app, zlen_app. cbn [from_le]. change (zlen [x]) with 1. pose proof (from_le_range p Bp) as R. pose proof (zlen_nonneg p).
  rewrite Z.pow_add_r by lia. change (256 ^ 1) with 256. assert (0 < 256 ^ zlen p) by (apply pow256_pos; lia).
  destruct (Z.ltb_spec x 128); nia.
Qed.

Lemma pow519_even : 256 ^ 519 mod 2 = 0.
Proof. change 519 with (Z.succ 518). rewrite Z.pow_succ_r by lia. rewrite Z.mul_mod by lia. reflexivity. Qed.
