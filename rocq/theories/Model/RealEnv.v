(** The deployed environment of zkdvrf: PseudoRand, GlobalPublicParams and the generated Halo2 verifier. *)
From Coq Require Import ZArith List.
From Verif.Base Require Import Curves Group.
From Verif.Model Require Import Monad Evm PairingSol HashSol PseudoRandSol GppSol Zkdvrf.

(** [halo2] is Halo2Verifier.verifyProof (contracts/Halo2Verifier.sol): Model/VerifierCall.v, or any function where a theorem does not
    depend on it *)
Definition real_env (keccak : bytes -> Z) (in_g2 : G2c -> bool) (pairing : list (G1 * G2c) -> bool)
    (halo2 : Z -> bytes -> list Z -> res bool) : env :=
  mkEnv keccak halo2 (createGpp in_g2 pairing) (hashToG1 keccak) (verifyPartialEval keccak) (verifyPartialEvalFast keccak)
    (verifyPseudoRand keccak in_g2 pairing) (verifyPseudoRandFast in_g2 pairing).
