(** contracts/GlobalPublicParams.sol *)
From Coq Require Import ZArith String List Bool.
From Verif.Base Require Import Curves Group.
From Verif.Model Require Import Monad Evm PairingSol Zkdvrf.
Import ListNotations.
Open Scope string_scope.
Open Scope list_scope.
Open Scope Z_scope.

(** GlobalPublicParams.sol:11-16 *)
Definition COORD_LEN : Z := 2.
Definition POINT_LEN : Z := 4.
Definition BASE : Z := 2 ^ 136.

(** calldata slice l[a:b]: reverts when out of bounds *)
Definition cslice (l : list Z) (a b : Z) : res (list Z) :=
  if (0 <=? a) && (a <=? b) && (b <=? Z.of_nat (length l)) then Ok (firstn (Z.to_nat (b - a)) (skipn (Z.to_nat a) l)) else Panic "slice out of bounds".

(** the descending loops of readBnG1: [for (i = top; i > low; i--) x = x * BASE + g[i-1]] *)
Fixpoint read_down (g : list Z) (top : Z) (steps : nat) (x : Z) : res Z :=
  match steps with
  | O => Ok x
  | S n => let* m := mul256 x BASE in
           let* e := at_ g (top - 1) in
           let* x' := add256 m e in
           read_down g (top - 1) n x'
  end.
(** GlobalPublicParams.sol:20-35 *)
Definition readBnG1 (g : list Z) : res pt :=
  let* _ := assert (Z.of_nat (length g) =? POINT_LEN) "assert" in
  let* x := at_ g (COORD_LEN - 1) in
  let* x := read_down g (COORD_LEN - 1) (Z.to_nat (COORD_LEN - 1)) x in
  let* y := at_ g (Z.of_nat (length g) - 1) in
  let* y := read_down g (Z.of_nat (length g) - 1) (Z.to_nat (Z.of_nat (length g) - 1 - COORD_LEN)) y in
  Ok (x, y).

Section Gpp.
  Variable in_g2 : G2c -> bool.
  Variable pairing : list (G1 * G2c) -> bool.

  (** GlobalPublicParams.sol:63-70 *)
  Definition sum_points (instances : list (list Z)) (b e : Z) : res pt :=
    foldM (fun acc inst => let* s := cslice inst b e in let* p := readBnG1 s in addition acc p) (0, 0) instances.
  (** GlobalPublicParams.sol:80-92; uint32 [begin], [end] *)
  Fixpoint vk_loop (instances : list (list Z)) (n : nat) (b e : Z) : res (list pt) :=
    match n with
    | O => Ok []
    | S n' => let* v := sum_points instances b e in
              let* e' := add32 e POINT_LEN in
              let* rest := vk_loop instances n' e e' in
              Ok (v :: rest)
    end.
  (** GlobalPublicParams.sol:38-101.  The three assertions at 44-46 are about constants and hold. *)
  Definition createGpp (numOfMembers : Z) (gpk : g2pt) (validInstances : list (list Z)) : res (g2pt * list pt) :=
    let* _ := require (Z.of_nat (length validInstances) <=? numOfMembers) "too many instances" in
    let* m4 := mul32 4 numOfMembers in
    let* sizeInstance := add32 m4 4 in
    let* _ := foldM (fun _ inst => require (sizeInstance <=? Z.of_nat (length inst)) "not enough elements") tt validInstances in
    let* ga := sum_points validInstances 0 POINT_LEN in
    let* vk_vec := vk_loop validInstances (Z.to_nat numOfMembers) POINT_LEN (POINT_LEN + POINT_LEN) in
    let* n1 := negate P1 in
    let* succeed := pairingProd2 in_g2 pairing ga P2 n1 gpk in
    let* _ := require succeed "invalid gpk" in
    Ok (gpk, vk_vec).
End Gpp.
