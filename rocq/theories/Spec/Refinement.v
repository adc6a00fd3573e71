(** What an observer of zkdvrf and of zkdvrf_pre can compare: everything but the fields only one of them has
    (pkListOrder, ppListOrder / roundHash) and the extra phase Registered. *)
From Coq Require Import ZArith List.
From Verif.Model Require Import Monad Evm Zkdvrf.
From Verif.Spec Require Import Histories.
Import ListNotations.

Definition common_phase (p : phase) : phase := match p with Registered => Unregistered | p => p end.
Definition view (s : st) : st :=
  set_pkListOrder [] (set_ppListOrder [] (set_roundHash (fun _ => (0, 0)%Z) (set_contractPhase (common_phase (contractPhase s)) s))).

(** the two PseudoRand entry points per check agree: verify(msg) = verifyFast(hashToG1(msg)) *)
Definition coherent (E : env) : Prop :=
  (forall m h, hash_to_g1 E m = Ok h -> forall sg z c vk, verify_partial_eval E m sg z c vk = verify_partial_eval_fast E h sg z c vk) /\
  (forall m h, hash_to_g1 E m = Ok h -> forall p g, verify_pseudo_rand E m p g = verify_pseudo_rand_fast E h p g).

(** the transactions of a history that were accepted *)
Definition accepted_txs (tr : list step) : list tx := map txn (filter accepted tr).
