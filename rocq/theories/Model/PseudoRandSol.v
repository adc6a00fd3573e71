(** contracts/PseudoRand.sol *)
From Coq Require Import ZArith String List Bool.
From Verif.Base Require Import Curves Group.
From Verif.Model Require Import Monad Evm Strings PairingSol HashSol.
Import ListNotations.
Open Scope list_scope.
Open Scope Z_scope.

(** PseudoRand.sol:12-13 *)
Definition DOMAIN : bytes := ascii_bytes "DVRF pseudorandom generation 2023".
Definition PR_R : Z := 21888242871839275222246405745257275088548364400416034343698204186575808495617.

Section PseudoRand.
  Variable keccak : bytes -> Z.
  Variable in_g2 : G2c -> bool.
  Variable pairing : list (G1 * G2c) -> bool.

  (** PseudoRand.sol:15-18 *)
  Definition hashToG1 (message : bytes) : res pt := sol_hashToG1 keccak DOMAIN message.

  (** abi.encodePacked of the coordinates of a list of points *)
  Definition pack (l : list pt) : bytes := flat_map (fun p => word (fst p) ++ word (snd p)) l.

  (** PseudoRand.sol:21-43 *)
  Definition verifyPartialEvalFast (h sigma : pt) (z c : Z) (vk : pt) : res bool :=
    let g := P1 in
    let* gz := scalar_mul g z in
    let* vkc := scalar_mul vk c in
    let* nvkc := negate vkc in
    let* r1 := addition gz nvkc in
    let* hz := scalar_mul h z in
    let* sc := scalar_mul sigma c in
    let* nsc := negate sc in
    let* r2 := addition hz nsc in
    let hash := keccak (pack [g; h; r1; r2; vk; sigma]) in
    let cc := hash mod PR_R in
    Ok (cc =? c).

  (** PseudoRand.sol:45-68 *)
  Definition verifyPartialEval (message : bytes) (sigma : pt) (z c : Z) (vk : pt) : res bool :=
    let* h := sol_hashToG1 keccak DOMAIN message in
    let g := P1 in
    let* gz := scalar_mul g z in
    let* vkc := scalar_mul vk c in
    let* nvkc := negate vkc in
    let* r1 := addition gz nvkc in
    let* hz := scalar_mul h z in
    let* sc := scalar_mul sigma c in
    let* nsc := negate sc in
    let* r2 := addition hz nsc in
    let hash := keccak (pack [g; h; r1; r2; vk; sigma]) in
    let cc := hash mod PR_R in
    Ok (cc =? c).

  (** PseudoRand.sol:70-75 *)
  Definition verifyPseudoRandFast (h sigma : pt) (gpk : g2pt) : res bool :=
    let* hn := negate h in
    pairingProd2 in_g2 pairing hn gpk sigma P2.

  (** PseudoRand.sol:77-83 *)
  Definition verifyPseudoRand (message : bytes) (sigma : pt) (gpk : g2pt) : res bool :=
    let* h := sol_hashToG1 keccak DOMAIN message in
    let* h := negate h in
    pairingProd2 in_g2 pairing h gpk sigma P2.
End PseudoRand.
