(* The supported networks, and the effect of a sequence of select_network calls. *)
From Coq Require Import String.
From Verif Require Import Py MNet.
Open Scope list_scope.
Open Scope Z_scope.

Definition coins3 : list string :=
  ["bitcoin"; "litecoin"; "bitcoin_cash"; "bitcoin_gold"; "dogecoin"; "dash"; "zcash_sprout"; "zcash_overwinter";
   "zcash_sapling"; "pivx"; "feathercoin"; "bitcoin_dark"; "axe"; "bitcore"; "digibyte"; "groestlcoin"; "monacoin";
   "navcoin"; "syscoin"; "vertcoin"; "bitcoin_private"; "verge"]%string.
(* every coin has a main and a test network, and a regtest or a simulation network *)
Definition supported_names : list str :=
  concat (map (fun c => [lit c ++ lit "_main"; lit c ++ lit "_test"; lit c ++ lit "_reg"]) coins3) ++
  concat (map (fun c => [lit c ++ lit "_main"; lit c ++ lit "_test"; lit c ++ lit "_simnet"]) ["decred"; "viacoin"]%string).

(* calls one after the other: the final network and what each call did *)
Fixpoint calls (names : list str) (current : network) : network * list (res unit) :=
  match names with
  | [] => (current, [])
  | name :: rest =>
      let (next, outcome) := select_network name current in
      let (final, outcomes) := calls rest next in (final, outcome :: outcomes)
  end.

(* the last supported name, or [start] *)
Inductive settles (start : str) : list str -> str -> Prop :=
| settles_start : forall names, (forall n, In n names -> ~ In n supported_names) -> settles start names start
| settles_at : forall before name after, In name supported_names -> (forall n, In n after -> ~ In n supported_names) ->
    settles start (before ++ name :: after) name.
