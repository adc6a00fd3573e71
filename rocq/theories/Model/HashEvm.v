(** src/hash_to_curve_evm.rs: the EVM-friendly hash to BN254 G1. *)
From Coq Require Import ZArith String List Bool.
From Verif.Base Require Import Fld Fp EC Primes Curves Group Sqrt.
From Verif.Model Require Import Monad Evm Points.
Import ListNotations.
Open Scope string_scope.
Open Scope list_scope.
Open Scope Z_scope.

(** hash_to_curve_evm.rs:10-57 (constants given there as limbs; hexadecimal comments of the source) *)
Definition Q2 : Z := 0x183227397098d014dc2822db40c0ac2ecbc0b548b438e5469e10460b6c3e7ea3.
Definition MINUS_ONE : Z := 0x30644e72e131a029b85045b68181585d97816a916871ca8d3c208c16d87cfd46.
Definition RR : Z := 0x0e0a77c19a07df2f666ea36f7879462c0a78eb28f5c70b3dd35d438dc58f0d9d.
Definition C1 : Z := 0x59e26bcea0d48bacd4f263f1acdb5c4f5763473177fffffe.
Definition C2 : Z := 0xb3c4d79d41a91759a9e4c7e359b6b89eaec68e62effffffd.
Definition C3 : Z := 0x2042def740cbc01bd03583cf0100e593ba56470b9af68708d2c05d6490535385.

Section HashEvm.
  (** keccak256 as a 256-bit integer; [finalize().to_vec()] is its big-endian byte string *)
  Variable keccak : bytes -> Z.
  Definition keccak_vec (b : bytes) : bytes := be_bytes 32 (keccak b).

  (** hash_to_curve_evm.rs:72-85: usize::to_be_bytes padded to 32 bytes (64-bit usize) *)
  Definition len32 (l : bytes) : bytes :=
    let len_bytes := be_bytes 8 (Z.of_nat (length l)) in repeat 0 (32 - length len_bytes) ++ len_bytes.

  (** hash_to_curve_evm.rs:70-117 *)
  Definition hash_to_field_evm (domain message : bytes) : Fq * Fq :=
    let hash0 := keccak_vec ([0; 1] ++ len32 domain ++ domain ++ len32 message ++ message) in
    let hash1 := keccak_vec ([2; 3] ++ hash0) in
    let hash2 := keccak_vec ([4; 5] ++ hash1) in
    let hash3 := keccak_vec ([6; 7] ++ hash2) in
    let t0 : Fq := from_raw q_mod (from_be_bytes hash0) in
    let t1 : Fq := from_raw q_mod (from_be_bytes hash1) in
    let t2 : Fq := from_raw q_mod (from_be_bytes hash2) in
    let t3 : Fq := from_raw q_mod (from_be_bytes hash3) in
    ((t0 * fq RR + t1)%fld, (t2 * fq RR + t3)%fld).

  (** hash_to_curve_evm.rs:119-125; [Fq: Ord] compares the canonical integers *)
  Definition sign (t : Fq) : Fq := if fval (t : Fp q_mod) <=? Q2 then f1 else fq MINUS_ONE.

  (** halo2curves bn256 Fq::sqrt: a^((q+1)/4), checked *)
  Definition fq_sqrt (a : Fq) : option Fq :=
    let r : Fq := root q_mod q_prime a in if feq_dec (r * r)%fld a then Some r else None.
  (** Field::invert *)
  Definition fq_invert (a : Fq) : option Fq := if feq_dec a f0 then None else Some (finv a).

  Definition is_some {A} (o : option A) : bool := match o with Some _ => true | None => false end.
  Definition or_else {A} (o p : option A) : option A := match o with Some _ => o | None => p end.
  Definition select {A} (a b : A) (choice : bool) : A := if choice then b else a.
  Definition unwrap_or {A} (o : option A) (d : A) : A := match o with Some a => a | None => d end.

  (** hash_to_curve_evm.rs:127-164 *)
  Definition map_to_curve_evm (t : Fq) : res G1 :=
    (let t_sign := sign t in
     let t_square := t * t in
     let t4 := t_square * t_square in
     let r := t_square + fq 4 in
     let r_square := r * r in
     let s := r * r_square in
     let alpha := unwrap_or (fq_invert (t_square * r)) f0 in
     let x1 := fq C1 - fq C2 * t4 * alpha in
     let x2 := - (x1 + f1) in
     let x3 := f1 - s * alpha * fq C3 in
     let u1 := x1 * x1 * x1 + fq 3 in
     let y1 := fq_sqrt u1 in
     let e1 := is_some y1 in
     let u2 := x2 * x2 * x2 + fq 3 in
     let y2 := fq_sqrt u2 in
     let e2 := is_some y2 in
     let u3 := x3 * x3 * x3 + fq 3 in
     let y3 := fq_sqrt u3 in
     let x := select (select x3 x2 e2) x1 e1 in
     let* y := unwrap (or_else y1 (or_else y2 y3)) in
     let y := y * t_sign in
     (* new_jacobian(x, y, 1).unwrap() *)
     unwrap (match bool_dec (on_curve Fq b1 (Aff Fq x y)) true with
             | left H => Some (mkEC Fq b1 (Aff Fq x y) H : G1)
             | right _ => None
             end))%fld.

  (** hash_to_curve_evm.rs:166-178 (the debug_assert holds by typing: elements of [G1] are on the curve) *)
  Definition hash_to_curve_evm (domain message : bytes) : res G1 :=
    let fs := hash_to_field_evm domain message in
    let* q0 := map_to_curve_evm (fst fs) in
    let* q1 := map_to_curve_evm (snd fs) in
    Ok (q0 ⊕ q1)%grp.
End HashEvm.
