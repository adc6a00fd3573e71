(** Affine coordinates of curve points, as the halo2curves affine types hold them: the identity is (0,0).
    (halo2curves is a dependency: these functions are part of the trusted base, see DESIGN.md.) *)
From Coq Require Import ZArith String List Bool.
From Verif.Base Require Import Fld Fp EC Primes Curves Group.
From Verif.Model Require Import Monad Evm.
Import ListNotations.
Open Scope string_scope.
Open Scope list_scope.

Section Points.
  Variable K : Fld.
  Variable b : K.
  Open Scope fld_scope.

  (** coordinates of the affine form ([to_affine], fields x and y) *)
  Definition xy (P : EC K b) : K * K := match EC.pt K b P with Inf _ => (0, 0) | Aff _ x y => (x, y) end.
  (** [CurveAffine::from_xy]: the identity, or a point of the curve *)
  Definition from_xy (x y : K) : option (EC K b) :=
    if feqb x 0 && feqb y 0 then Some (mkEC K b (Inf K) eq_refl)
    else match bool_dec (on_curve K b (Aff K x y)) true with
         | left H => Some (mkEC K b (Aff K x y) H)
         | right _ => None
         end.
End Points.
Arguments xy {K b}. 

Definition px (P : G1) : Z := fval (fst (xy P) : Fp q_mod).
Definition py (P : G1) : Z := fval (snd (xy P) : Fp q_mod).

(** bn256::G1Affine::from_xy, grumpkin::G1Affine::from_xy, bn256::G2Affine::from_xy *)
Definition g1_from_xy (x y : Fq) : option G1 := from_xy Fq b1 x y.
Definition gk_from_xy (x y : Fr) : option Gk := from_xy Fr bk x y.
Definition g2_from_xy (x y : Fq2) : option G2c := from_xy Fq2 b2 x y.

(** [Option::unwrap] *)
Definition unwrap {A} (o : option A) : res A := match o with Some a => Ok a | None => Panic "unwrap of None" end.

(** Field::to_bytes / to_repr of the 254-bit fields: 32 bytes, little endian *)
Fixpoint le_bytes (n : nat) (x : Z) : bytes :=
  match n with O => [] | S n' => (x mod 256)%Z :: le_bytes n' (x / 256)%Z end.
Definition to_bytes {p} (x : Fp p) : bytes := le_bytes 32 (fval x).

(** src/hash_to_curve_evm.rs:61-68 from_be_bytes followed by the field's [from_raw] (reduction mod p of the 256-bit
    integer given by four little-endian limbs) *)
Definition slice (a n : nat) (l : bytes) : bytes := firstn n (skipn a l).
Definition from_be_bytes (h : bytes) : list Z :=
  [of_be (slice 24 8 h); of_be (slice 16 8 h); of_be (slice 8 8 h); of_be (slice 0 8 h)].
Definition raw_value (l : list Z) : Z := fold_right (fun d acc => d + 2 ^ 64 * acc)%Z 0%Z l.
Definition from_raw (p : Z) (l : list Z) : Fp p := of_Z p (raw_value l).

(** scalar multiplication of points by field elements ([&G1Affine * &Fr] etc.) *)
Definition g1mul (P : G1) (k : Fr) : G1 := smul (k : Fp r_mod) P.
Definition g2mul (P : G2c) (k : Fr) : G2c := smul (k : Fp r_mod) P.
Definition gkmul (P : Gk) (k : Fq) : Gk := smul (k : Fp q_mod) P.
