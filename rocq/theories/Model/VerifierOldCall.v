(** verifyProof of contracts/Halo2Verifier-3-5-g2.sol, the verifier with the key embedded in its code: the ABI encoding of the
    arguments, the run of the assembly block, and the decoding of what it returns. *)
From Coq Require Import ZArith List String Bool.
From Verif.Base Require Import Curves Group.
From Verif.Model Require Import Monad Evm PairingSol Yul VerifierCall Halo2VerifierOldSol.
Import ListNotations.
Open Scope Z_scope.

(** abi.encode(proof, instances), contracts/Halo2Verifier-3-5-g2.sol:67-70: two words of head (the offsets), then the two arrays with
    their lengths; the selector not counted *)
Definition abi_args_old (proof : bytes) (instances : list Z) : list Z :=
  [0x40; 0x60 + 32 * Z.of_nat (word_count proof)] ++
  [Z.of_nat (List.length proof)] ++ words_of proof ++ [Z.of_nat (List.length instances)] ++ instances.

Section Call.
  Variable keccak : bytes -> Z.
  Variable in_g2 : G2c -> bool.
  Variable pairing : list (G1 * G2c) -> bool.
  Variable code : Z -> list Z.       (** the code of each account, in words: never read *)
  (** contracts/Halo2Verifier-3-5-g2.sol:67-70 and the assembly block :71-1619 *)
  Definition verifyProof_old (proof : bytes) (instances : list Z) : res bool :=
    decode_result keccak in_g2 pairing code
      (run (EVM keccak in_g2 pairing (abi_args_old proof instances) code) LIMIT old_functions [] initial_memory old_main).
End Call.
