(** contracts/libs/Pairing.sol and the three BN254 precompiles it calls (EIP-196 and EIP-197).
    Points of the contracts are pairs of uint256; the precompiles decode them into the concrete groups. *)
From Coq Require Import ZArith String List Bool.
From Verif.Base Require Import Fld Fp EC Primes Curves Group.
From Verif.Model Require Import Monad Evm Points.
Import ListNotations.
Open Scope string_scope.
Open Scope list_scope.
Open Scope Z_scope.

(** EIP-196 decoding of a G1 point: both coordinates below q, and (0,0) or a point of the curve *)
Definition canon (x : Z) : bool := (0 <=? x) && (x <? q_mod).
Definition decode (p : pt) : option G1 :=
  if canon (fst p) && canon (snd p) then g1_from_xy (fq (fst p)) (fq (snd p)) else None.
Definition enc (P : G1) : pt := (px P, py P).
(** EIP-197 decoding of a G2 point, given the coordinates real and imaginary part separately *)
Definition decode2 (x0 x1 y0 y1 : Z) : option G2c :=
  if canon x0 && canon x1 && canon y0 && canon y1 then g2_from_xy (fq2 x0 x1) (fq2 y0 y1) else None.
Definition enc2 (Q : G2c) : g2pt :=
  let '(x, y) := xy Q in G2pt (fval (fst x : Fp q_mod)) (fval (snd x : Fp q_mod)) (fval (fst y : Fp q_mod)) (fval (snd y : Fp q_mod)).

(** a failed staticcall executes the [invalid] opcode *)
Definition invalid {A} : res A := Panic "invalid opcode".

(** precompile 6 through Pairing.addition, Pairing.sol:44-57.  (The call passes 0xc0 bytes and asks for 0x60; the
    precompile reads 0x80 and writes 0x40.) *)
Definition addition (a b : pt) : res pt :=
  match decode a, decode b with Some P, Some Q => Ok (enc (P ⊕ Q)%grp) | _, _ => invalid end.
(** precompile 7 through Pairing.scalar_mul, Pairing.sol:62-74 *)
Definition scalar_mul (a : pt) (s : Z) : res pt :=
  match decode a with Some P => Ok (enc (zmul s P)) | None => invalid end.

(** Pairing.sol:20-22, 24-31 *)
Definition P1 : pt := (1, 2).
Definition P2 : g2pt := G2pt
  10857046999023057135944570762232829481370756359578518086990519993285655852781
  11559732032986387107991004021392285783925812861821192530917403151452391805634
  8495653923123431417604973247489272438418190587263600148770280649306958101930
  4082367875863433681332203403145435568316851327593401208105741076214120093531.
(** Pairing.sol:33-39, with the checked subtraction *)
Definition sol_q : Z := 21888242871839275222246405745257275088696311157297823662689037894645226208583.
Definition negate (p : pt) : res pt :=
  if (fst p =? 0) && (snd p =? 0) then Ok (0, 0) else
  let* y := sub256 sol_q (snd p mod sol_q) in Ok (fst p, y).

Section Engine.
  (** membership in the group of EIP-197 and its pairing check *)
  Variable in_g2 : G2c -> bool.
  Variable pairing : list (G1 * G2c) -> bool.

  (** precompile 8 on a list of words, six per pair: G1 x, y; G2 x imaginary, x real, y imaginary, y real *)
  Fixpoint decode_pairs (l : list Z) : option (list (G1 * G2c)) :=
    match l with
    | [] => Some []
    | x :: y :: x1 :: x0 :: y1 :: y0 :: rest =>
        match decode (x, y), decode2 x0 x1 y0 y1, decode_pairs rest with
        | Some P, Some Q, Some r => if in_g2 Q then Some ((P, Q) :: r) else None
        | _, _, _ => None
        end
    | _ => None
    end.
  Definition ecpairing (input : list Z) : res Z :=
    match decode_pairs input with Some l => Ok (if pairing l then 1 else 0) | None => invalid end.

  (** Pairing.sol:79-103 *)
  Definition pairing_input (p1 : list pt) (p2 : list g2pt) : list Z :=
    flat_map (fun '(p, q) => [fst p; snd p; gx1 q; gx0 q; gy1 q; gy0 q]) (combine p1 p2).
  Definition pairing_sol (p1 : list pt) (p2 : list g2pt) : res bool :=
    let* _ := require (Nat.eqb (length p1) (length p2)) "" in
    let* out := ecpairing (pairing_input p1 p2) in
    Ok (negb (out =? 0)).
  (** Pairing.sol:105-113 *)
  Definition pairingProd2 (a1 : pt) (a2 : g2pt) (b1 : pt) (b2 : g2pt) : res bool := pairing_sol [a1; b1] [a2; b2].
End Engine.
