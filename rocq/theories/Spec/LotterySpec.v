(** What an observer reads off the log of a lottery: entrants, bets, payments. *)
From Coq Require Import ZArith List.
From Verif.Model Require Import Zkdvrf Lottery.
From Verif.Spec Require Import Histories.
Import ListNotations.
Open Scope Z_scope.

Definition entrants (g : list lev) : list Z := flat_map (fun e => match e with Entered a _ _ => [a] | _ => [] end) g.
Definition bets (g : list lev) : Z := zsum (flat_map (fun e => match e with Entered _ x _ => [x] | _ => [] end) g).
Definition forced_in (g : list lev) : Z := zsum (flat_map (fun e => match e with Forced x => [x] | _ => [] end) g).
Definition payments (g : list lev) : list (Z * Z) := flat_map (fun e => match e with Paid a x => [(a, x)] | _ => [] end) g.
Definition paid (g : list lev) : Z := zsum (map snd (payments g)).

(** pickWinner called again by the winner's own code *)
Definition is_pick (a : act) : bool := match a with PickWinner _ _ _ => true | _ => false end.
Definition picks_again (a : act) : bool := match a with PickWinner _ calls _ => existsb is_pick calls | _ => false end.
(** the receiver refuses the payment *)
Definition refused (a : act) : bool := match a with PickWinner _ _ accept => negb accept | _ => false end.

(** a lottery deployed by [d] next to a zkdvrf contract with some history, after the top-level calls [l] *)
Section R.
  Variable v : Zkdvrf.variant.
  Variable E : Zkdvrf.env.
  Variable c : Zkdvrf.cfg.
  Definition lreach (w : world) (G : list lev) : Prop :=
    exists tr s d l, hist v E c tr s /\ perform_all v E l (mkW s (lconstruct d)) = (w, G).
End R.
