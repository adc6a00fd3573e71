(** RFC 9380: expand_message_xmd (5.3.1), hash_to_field (5.2) and the Shallue - van de Woestijne map (6.6.1), for the Grumpkin
    curve y^2 = x^3 - 17 over the field of [r_mod] elements with Z = 1. *)
From Coq Require Import ZArith String List Bool.
From Verif.Base Require Import Fld Fp Primes Curves.
From Verif.Model Require Import Evm.
Import ListNotations.
Open Scope Z_scope.

(** big-endian value of a byte string (OS2IP) *)
Definition os2ip (b : bytes) : Z := fold_left (fun acc x => acc * 256 + x) b 0.

Section Xmd.
  Variable H : bytes -> bytes.
  Variable dst : bytes.
  Definition dst_prime : bytes := dst ++ [Z.of_nat (length dst)].
  (** block size 128, two 64-byte blocks: len_in_bytes = 128, written in two bytes *)
  Definition xmd_b0 (msg : bytes) : bytes := H (repeat 0 128 ++ msg ++ [0; 128] ++ [0] ++ dst_prime).
  Definition xmd_b1 (msg : bytes) : bytes := H (xmd_b0 msg ++ [1] ++ dst_prime).
  Definition xmd_b2 (msg : bytes) : bytes := H (map (fun '(l, r) => Z.lxor l r) (combine (xmd_b0 msg) (xmd_b1 msg)) ++ [2] ++ dst_prime).
End Xmd.

Open Scope fld_scope.
Definition is_square (a : Fr) : Prop := exists y : Fr, y * y = a.
(** g(x) = x^3 - 17 *)
Definition curve_g (x : Fr) : Fr := x * x * x - fr 17.
(** inv0: the inverse, 0 for 0 *)
Definition inv0_of (a i : Fr) : Prop := (a = f0 /\ i = f0) \/ a * i = f1.
Definition sgn0 (a : Fr) : bool := Z.odd (fval (a : Fp r_mod)).
(** (x, y) is the point RFC 9380 6.6.1 assigns to u *)
Definition svdw_point (u x y : Fr) : Prop := forall s3 i4 half : Fr,
  (* g(Z) = -16, 3 Z^2 = 3 *)
  s3 * s3 = fr 48 -> sgn0 s3 = false -> (fr 3) * i4 = f1 -> fr 2 * half = f1 -> forall tv3 : Fr,
  let tv1 := u * u * - fr 16 in
  inv0_of ((f1 - tv1) * (f1 + tv1)) tv3 ->
  let x1 := - half - u * (f1 - tv1) * tv3 * s3 in
  let x2 := - half + u * (f1 - tv1) * tv3 * s3 in
  let x3 := f1 + (fr 64 * i4) * (((f1 + tv1) * (f1 + tv1) * tv3) * ((f1 + tv1) * (f1 + tv1) * tv3)) in
  (is_square (curve_g x1) -> x = x1) /\
  (~ is_square (curve_g x1) -> is_square (curve_g x2) -> x = x2) /\
  (~ is_square (curve_g x1) -> ~ is_square (curve_g x2) -> x = x3) /\
  y * y = curve_g x /\ (y = f0 \/ sgn0 y = sgn0 u).
