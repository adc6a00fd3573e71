(** An instance vector that some prover, honest or not, can get accepted by the DKG circuit for a configuration: the circuit
    with that many coefficients and keys has a satisfying assignment for it. *)
From Coq Require Import ZArith List.
From Verif.Base Require Import Fld Fp Curves Group.
From Verif.Model Require Import Points Dkg Lib Circ DkgCircuit.
Open Scope Z_scope.

Definition accepts (poseidon : Fr -> Fr -> Fr) (aux1 : G1) (aux2 : G2c) (cfg : config) (inst : list Fr) : Prop :=
  zlen inst = instance_size cfg /\
  exists c, zlen (dc_coeffs c) = threshold cfg /\ zlen (dc_public_keys c) = number_of_members cfg /\
            satisfiable (synthesize poseidon aux1 aux2 c inst).
