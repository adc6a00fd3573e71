(** What the EVM precompiles promise: EIP-197's second group is the one generated by P2 = g2. *)
From Coq Require Import ZArith List Bool.
From Verif.Base Require Import Fld Fp Primes Curves Group.
From Verif.Model Require Import Monad Evm Points Dkg.
From Verif.Spec Require Import Dvrf.
Import ListNotations.
Open Scope Z_scope.

Definition in_g2_ok (in_g2 : G2c -> bool) : Prop := forall Q, in_g2 Q = true <-> exists b : Fr, Q = g2mul g2 b.
(** keccak256 returns 32 bytes *)
Definition keccak_ok (keccak : bytes -> Z) : Prop := forall b, 0 <= keccak b < 2 ^ 256.
(** the integer values of field elements *)
Definition val_q (x : Fq) : Z := fval (x : Fp q_mod).
Definition val_r (x : Fr) : Z := fval (x : Fp r_mod).
