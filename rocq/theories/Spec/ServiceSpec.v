(** What the services observe and what a running deployment is. *)
From Coq Require Import ZArith List Bool.
From Verif.Base Require Import Curves Group.
From Verif.Model Require Import Monad Evm Strings Zkdvrf Services.
From Verif.Spec Require Import Histories.
Import ListNotations.
Open Scope Z_scope.

Section S.
  Variable v : variant.
  Variable E : env.
  Variable c : cfg.
  (** successive observations of one contract: each state is reached from the previous one by further transactions *)
  Definition evolves (tr : nat -> list step) (ch : nat -> st) : Prop :=
    forall i, hist v E c (tr i) (ch i) /\ exists t, tr (S i) = tr i ++ t.
End S.

(** the service of address [o_me o] is running with the configuration of the contract *)
Definition configured (o : options) (s : st) : Prop := check_config o s = Ok tt.
