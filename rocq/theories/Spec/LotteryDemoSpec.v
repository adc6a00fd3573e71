(** What the lottery demo assumes about everybody else: the admin's key and the players' keys are used by the scripts only. *)
From Coq Require Import ZArith List Bool.
From Verif.Model Require Import Zkdvrf Lottery LotteryDemo.
Import ListNotations.
Open Scope Z_scope.

(** who sends a call to the lottery *)
Definition lsender (a : act) : option Z :=
  match a with
  | Setup b _ _ | Enter b _ | PickWinner b _ _ | LTransferOwnership b _ | LRenounceOwnership b => Some b
  | ZkTx _ | LForceEther _ => None
  end.
Definition not_by (l : list Z) (a : act) : Prop := forall b, lsender a = Some b -> ~ In b l.
Definition allowed (admin : Z) (keys : list Z) (m : move) : Prop :=
  match m with
  | Other a => not_by (admin :: keys) a
  | AdminHandle calls _ => Forall (not_by [admin]) calls
  | _ => True
  end.
(** the winner when the random is [p] and the players entered in this order: the head of the shuffled list *)
Definition winner_of (hash : list Z -> Z) (p : prand) (entered : list Z) : Z :=
  hd 0 (fisher_yates (fun i => Z.to_nat (hash (Evm.word (rvalue p) ++ Evm.word (Z.of_nat i)) mod (Z.of_nat i + 1))) entered).
