(** src/hash_to_curve.rs: the Shallue - van de Woestijne hash, as src/utils.rs:175-183 instantiates it for Grumpkin. *)
From Coq Require Import ZArith String List Bool.
From Verif.Base Require Import Fld Fp EC Primes Curves Group.
From Verif.Model Require Import Monad Evm Strings Points HashEvm.
Import ListNotations.
Open Scope Z_scope.

Section HashGrumpkin.
  (** BLAKE2b with a 64-byte digest and an all-zero personalisation, of the concatenation of the updates *)
  Variable blake2b : bytes -> bytes.
  (** ff::Field::sqrt of grumpkin's base field *)
  Variable fr_sqrt : Fr -> option Fr.

  (** the updates every block ends with, hash_to_curve.rs:42-48 (and 55-61, 70-76) *)
  Definition suffix (method curve_id domain : bytes) : bytes :=
    domain ++ ascii_bytes "-" ++ curve_id ++ ascii_bytes "_XMD:BLAKE2b_" ++ method ++ ascii_bytes "_RO_" ++
    [(18 + Z.of_nat (length method) + Z.of_nat (length curve_id) + Z.of_nat (length domain)) mod 256].
  (** F::from_uniform_bytes of 64 little-endian bytes *)
  Fixpoint from_le (b : bytes) : Z := match b with [] => 0 | x :: r => x + 256 * from_le r end.
  (** hash_to_curve.rs:12-86 *)
  Definition hash_to_field (method curve_id domain message : bytes) : res (Fr * Fr) :=
    let* _ := assert (Z.of_nat (length domain) <? 256) "assertion failed: domain_prefix.len() < 256" in
    let* _ := assert (18 + Z.of_nat (length method) + Z.of_nat (length curve_id) + Z.of_nat (length domain) <? 256) "assertion failed" in
    let sfx := suffix method curve_id domain in
    let b0 := blake2b (repeat 0 128 ++ message ++ [0; 64 * 2; 0] ++ sfx) in
    let b1 := blake2b (b0 ++ [1] ++ sfx) in
    let b2 := blake2b (map (fun '(l, r) => Z.lxor l r) (combine b0 b1) ++ [2] ++ sfx) in
    Ok (fr (from_le (rev b1)), fr (from_le (rev b2))).

  Open Scope fld_scope.
  (** Field::invert *)
  Definition fr_invert (a : Fr) : option Fr := if feq_dec a f0 then None else Some (finv a).
  (** is_odd: the parity of the canonical representative *)
  Definition is_odd (a : Fr) : bool := Z.odd (fval (a : Fp r_mod)).
  (** TWO_INV = (r + 1) / 2 *)
  Definition TWO_INV : Fr := fr ((r_mod + 1) / 2).

  (** hash_to_curve.rs:88-177 with C = grumpkin::G1: A = 0, B = -17 ([bk]) *)
  Definition svdw_map_to_curve (u c1 c2 c3 c4 z : Fr) : res Gk :=
    let a : Fr := f0 in
    let b : Fr := bk in
    let tv1 := u * u in
    let tv1 := tv1 * c1 in
    let tv2 := f1 + tv1 in
    let tv1 := f1 - tv1 in
    let tv3 := tv1 * tv2 in
    let tv3 := unwrap_or (fr_invert tv3) f0 in
    let tv4 := u * tv1 in
    let tv4 := tv4 * tv3 in
    let tv4 := tv4 * c3 in
    let x1 := c2 - tv4 in
    let gx1 := x1 * x1 in
    let gx1 := gx1 + a in
    let gx1 := gx1 * x1 in
    let gx1 := gx1 + b in
    let e1 := is_some (fr_sqrt gx1) in
    let x2 := c2 + tv4 in
    let gx2 := x2 * x2 in
    let gx2 := gx2 + a in
    let gx2 := gx2 * x2 in
    let gx2 := gx2 + b in
    let e2 := is_some (fr_sqrt gx2) && negb e1 in
    let x3 := tv2 * tv2 in
    let x3 := x3 * tv3 in
    let x3 := x3 * x3 in
    let x3 := x3 * c4 in
    let x3 := x3 + z in
    let x := select x3 x1 e1 in
    let x := select x x2 e2 in
    let gx := x * x in
    let gx := gx + a in
    let gx := gx * x in
    let gx := gx + b in
    let* y := unwrap (fr_sqrt gx) in
    let e3 := eqb (is_odd u) (is_odd y) in
    let y := select (- y) y e3 in
    (* new_jacobian(x, y, 1).unwrap() *)
    unwrap (match bool_dec (on_curve Fr bk (Aff Fr x y)) true with
            | left H => Some (mkEC Fr bk (Aff Fr x y) H : Gk)
            | right _ => None
            end).

  (** hash_to_curve.rs:203-228 *)
  Definition svdw_precomputed_constants (z : Fr) : res (Fr * Fr * Fr * Fr) :=
    let a : Fr := f0 in
    let b : Fr := bk in
    let three := f1 + f1 + f1 in
    let four := three + f1 in
    let tmp := three * (z * z) + four * a in
    let c1 := (z * z + a) * z + b in
    let c2 := - z * TWO_INV in
    let* s := unwrap (fr_sqrt (- c1 * tmp)) in
    let c3 := select s (- s) (is_odd s) in
    let* i := unwrap (fr_invert tmp) in
    let c4 := - four * c1 * i in
    Ok (c1, c2, c3, c4).

  (** hash_to_curve.rs:180-200 (the debug_assert holds by typing) *)
  Definition svdw_hash_to_curve (curve_id domain : bytes) (z : Fr) (message : bytes) : res Gk :=
    let* (c1, c2, c3, c4) := svdw_precomputed_constants z in
    let* (u0, u1) := hash_to_field (ascii_bytes "SVDW") curve_id domain message in
    let* q0 := svdw_map_to_curve u0 c1 c2 c3 c4 z in
    let* q1 := svdw_map_to_curve u1 c1 c2 c3 c4 z in
    Ok (q0 ⊕ q1)%grp.
  (** utils.rs:175-183 *)
  Definition hash_to_curve_grumpkin (domain message : bytes) : res Gk :=
    svdw_hash_to_curve (ascii_bytes "grumpkin_g1") domain f1 message.
End HashGrumpkin.
