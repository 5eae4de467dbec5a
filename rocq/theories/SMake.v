(* C61: which parts belong to which family of networks.  The parts of a
   transaction come in classes: [AnyIn], [AnyOut] (Bitcoin and Zcash),
   [AnyDecredIn], [AnyDecredOut], [AnySproutJs] (before Sapling) and
   [AnySaplingJs] (MBuilder.v). *)
From Verif Require Import Py SNet SZcash MBuilder.

Definition is_decred_in (i : any_in) : Prop := match i with AnyDecredIn _ => True | AnyIn _ => False end.
Definition is_decred_out (o : any_out) : Prop := match o with AnyDecredOut _ => True | AnyOut _ => False end.
Definition is_sapling_js (j : any_js) : Prop := match j with AnySaplingJs _ => True | AnySproutJs _ => False end.

(* witness arguments that cannot be the witnesses of a Bitcoin transaction *)
Definition decred_witnesses (w : any_wits) : Prop :=
  match w with DecredWit _ => True | DecredWits l => l <> nil | _ => False end.

(* some part is of a class that the network's transactions do not have *)
Definition foreign (name : str) (ins : list any_in) (outs : list any_out) (ws : any_wits) (js : option (list any_js)) : Prop :=
  let joinsplits := match js with Some l => l | None => nil end in
  (In name decred_names /\
    (Exists (fun i => ~ is_decred_in i) ins \/ Exists (fun o => ~ is_decred_out o) outs \/ forall w, ws <> DecredWit w)) \/
  (~ In name decred_names /\ (Exists is_decred_in ins \/ Exists is_decred_out outs)) \/
  ((In name sprout_names \/ In name overwinter_names) /\ Exists is_sapling_js joinsplits) \/
  (In name sapling_names /\ Exists (fun j => ~ is_sapling_js j) joinsplits) \/
  (~ In name decred_names /\ ~ In name zcash_names /\ decred_witnesses ws).

(* every integer that the network's transactions carry fits its field *)
Definition numbers_fit (name : str) (v lock : Z) (expiry : option Z) (vb : Z) : Prop :=
  (0 <= lock < 2 ^ 32) /\
  (~ In name overwinter_names -> ~ In name sapling_names -> 0 <= v < 2 ^ 32) /\
  (In name decred_names \/ In name overwinter_names \/ In name sapling_names -> exists e, expiry = Some e /\ 0 <= e < 2 ^ 32) /\
  (In name sapling_names -> 0 <= vb < 2 ^ 64).
