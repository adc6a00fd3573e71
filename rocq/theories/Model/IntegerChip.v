(** Non-native integers and points in the circuit: halo2wrong's [IntegerChip] and [BaseFieldEccChip] (dependencies, as
    contracts), src/ecc_chip/integer2.rs, src/ecc_chip/point_base_chip.rs:136-167, src/ecc_chip/point2_base_chip.rs:80-224
    and src/ecc_chip/point2_base_chip/add.rs. *)
From Coq Require Import ZArith List Bool.
From Verif.Base Require Import Fld.
From Verif.Model Require Import Circ MainGate.
Import ListNotations.

Section IntegerChip.
  (** [W] the emulated (wrong) field, [N] the native field of the circuit *)
  Variable W N : Fld.
  Open Scope fld_scope.

  (** ** IntegerChip<W, N, 4, 68> of halo2wrong: trusted contract.
      An assigned integer is represented by its residue in [W]; its limbs become visible only through [reduce]. The
      instructions below determine the residue of their result by constraints, so they are modelled by that result. *)
  Definition i_assign_constant (a : W) : circ W := Ret a.
  Definition i_add (a b : W) : circ W := Ret (a + b).
  Definition i_sub (a b : W) : circ W := Ret (a - b).
  Definition i_sub_sub (a b0 b1 : W) : circ W := Ret (a - b0 - b1).
  Definition i_neg (a : W) : circ W := Ret (- a).
  Definition i_mul2 (a : W) : circ W := Ret (a + a).
  Definition i_mul3 (a : W) : circ W := Ret (a + a + a).
  Definition i_mul (a b : W) : circ W := Ret (a * b).
  Definition i_square (a : W) : circ W := Ret (a * a).
  Definition winv (a : W) : W := if feqb a 0 then 0 else finv a.
  (** the quotient is a witness constrained by  result * b = a *)
  Definition i_div_incomplete (a b : W) : circ W := Cell W (a * winv b) (fun c => c * b = a) (fun c => Ret c).
  Definition i_invert_incomplete (a : W) : circ W := Cell W (winv a) (fun c => a * c = 1) (fun c => Ret c).
  Definition i_assert_equal (a b : W) : circ unit := constrain (a = b).
  Definition i_assert_zero (a : W) : circ unit := constrain (a = 0).
  Definition i_assert_not_zero (a : W) : circ unit := constrain (a <> 0).
  Definition i_assert_not_equal (a b : W) : circ unit := constrain (a <> b).
  Definition i_select (a b : W) (cond : N) : circ W :=
    Cell W (if feqb cond 1 then a else b) (fun c => (cond = 1 -> c = a) /\ (cond = 0 -> c = b)) (fun c => Ret c).
  (** [reduce]: fresh range-checked limbs congruent to the operand; what "range-checked and congruent" means for the limb
      parameters in use is the parameter [is_reduced], instantiated in DkgCircuit.v *)
  Variable is_reduced : list N -> W -> Prop.
  Variable reduced : W -> list N.
  Definition i_reduce (a : W) : circ (list N) := Cell (list N) (reduced a) (fun l => is_reduced l a) (fun l => Ret l).

  (** ** Points of E(W) (halo2wrong's BaseFieldEccChip and point_base_chip.rs) *)
  Definition point1 : Type := W * W.
  (** BaseFieldEccChip::assign_constant (dependency): coordinates().unwrap(), no point at infinity *)
  Definition p1_assign_constant (xy : option (W * W)) : circ point1 :=
    match xy with
    | None => Abort
    | Some (x, y) => let! x := i_assign_constant x in let! y := i_assign_constant y in Ret (x, y)
    end.
  (** point_base_chip.rs:136-167 *)
  Definition p1_add_incomplete (a b : point1) : circ point1 :=
    let '(ax, ay) := a in let '(bx, bY) := b in
    let! numerator := i_sub bY ay in
    let! denominator := i_sub bx ax in
    let! lambda := i_div_incomplete numerator denominator in
    let! lambda_square := i_square lambda in
    let! x := i_sub_sub lambda_square ax bx in
    let! t := i_sub ax x in
    let! t := i_mul t lambda in
    let! y := i_sub t ay in
    Ret (x, y).
  (** BaseFieldEccChip::add (dependency): asserts the x coordinates distinct, then the formula above *)
  Definition p1_add (a b : point1) : circ point1 :=
    let! _ := i_assert_not_equal (fst a) (fst b) in
    p1_add_incomplete a b.
  (** BaseFieldEccChip::select (dependency) *)
  Definition p1_select (c : N) (p1 p2 : point1) : circ point1 :=
    let! x := i_select (fst p1) (fst p2) c in
    let! y := i_select (snd p1) (snd p2) c in
    Ret (x, y).
  (** point_base_chip.rs:125-131 *)
  Definition p1_normalize (p : point1) : circ (list N * list N) :=
    let! x := i_reduce (fst p) in
    let! y := i_reduce (snd p) in
    Ret (x, y).

  (** ** integer2.rs: elements of W[X]/(X^2+1) *)
  (** integer2.rs:45-55 *)
  Definition int2 : Type := W * W.
  (** integer2.rs:84-93 *)
  Definition i2_reduce (a : int2) : circ (list N * list N) :=
    let! i0 := i_reduce (fst a) in let! i1 := i_reduce (snd a) in Ret (i0, i1).
  (** integer2.rs:95-104 *)
  Definition i2_assign_constant (x : W * W) : circ int2 :=
    let! i0 := i_assign_constant (fst x) in let! i1 := i_assign_constant (snd x) in Ret (i0, i1).
  (** integer2.rs:106-116 *)
  Definition i2_assert_equal (a b : int2) : circ unit :=
    let! _ := i_assert_equal (fst a) (fst b) in i_assert_equal (snd a) (snd b).
  (** integer2.rs:118-129; reduction does not change the residue *)
  Definition i2_assert_zero (a : int2) : circ unit :=
    let! _ := i2_reduce a in
    let! _ := i_assert_zero (fst a) in i_assert_zero (snd a).
  (** integer2.rs:257-265 *)
  Definition i2_norm (a : int2) : circ W :=
    let! t0 := i_square (fst a) in let! t1 := i_square (snd a) in i_add t0 t1.
  (** integer2.rs:142-152 *)
  Definition i2_assert_not_zero (a : int2) : circ unit :=
    let! norm := i2_norm a in i_assert_not_zero norm.
  (** integer2.rs:154-164 *)
  Definition i2_add (a b : int2) : circ int2 :=
    let! i0 := i_add (fst a) (fst b) in let! i1 := i_add (snd a) (snd b) in Ret (i0, i1).
  (** integer2.rs:166-176 *)
  Definition i2_sub (a b : int2) : circ int2 :=
    let! i0 := i_sub (fst a) (fst b) in let! i1 := i_sub (snd a) (snd b) in Ret (i0, i1).
  (** integer2.rs:178-189 *)
  Definition i2_sub_sub (a b c : int2) : circ int2 :=
    let! i0 := i_sub_sub (fst a) (fst b) (fst c) in let! i1 := i_sub_sub (snd a) (snd b) (snd c) in Ret (i0, i1).
  (** integer2.rs:131-140 *)
  Definition i2_assert_not_equal (a b : int2) : circ unit :=
    let! c := i2_sub a b in i2_assert_not_zero c.
  (** integer2.rs:191-200 *)
  Definition i2_neg (a : int2) : circ int2 :=
    let! i0 := i_neg (fst a) in let! i1 := i_neg (snd a) in Ret (i0, i1).
  (** integer2.rs:202-218 *)
  Definition i2_mul (a b : int2) : circ int2 :=
    let! t1 := i_mul (fst a) (fst b) in
    let! t0 := i_add (fst a) (snd a) in
    let! t2 := i_mul (snd a) (snd b) in
    let! t3 := i_add (fst b) (snd b) in
    let! i0 := i_sub t1 t2 in
    let! t1' := i_add t1 t2 in
    let! t0' := i_mul t0 t3 in
    let! i1 := i_sub t0' t1' in
    Ret (i0, i1).
  (** integer2.rs:220-240 *)
  Definition i2_mul2 (a : int2) : circ int2 :=
    let! i0 := i_mul2 (fst a) in let! i1 := i_mul2 (snd a) in Ret (i0, i1).
  Definition i2_mul3 (a : int2) : circ int2 :=
    let! i0 := i_mul3 (fst a) in let! i1 := i_mul3 (snd a) in Ret (i0, i1).
  (** integer2.rs:242-255 *)
  Definition i2_square (a : int2) : circ int2 :=
    let! t0 := i_square (fst a) in
    let! t1 := i_square (snd a) in
    let! i0 := i_sub t0 t1 in
    let! t2 := i_mul (fst a) (snd a) in
    let! i1 := i_mul2 t2 in
    Ret (i0, i1).
  (** integer2.rs:267-282 *)
  Definition i2_div_incomplete (a b : int2) : circ int2 :=
    let! norm := i2_norm b in
    let! norm_inv := i_invert_incomplete norm in
    let! i0 := i_mul (fst b) norm_inv in
    let! i1 := i_mul (snd b) norm_inv in
    let! i1 := i_neg i1 in
    i2_mul a (i0, i1).
  (** integer2.rs:284-295 *)
  Definition i2_select (a b : int2) (cond : N) : circ int2 :=
    let! i0 := i_select (fst a) (fst b) cond in let! i1 := i_select (snd a) (snd b) cond in Ret (i0, i1).

  (** ** Points of E(W[X]/(X^2+1)) *)
  (** point2.rs:53-63 *)
  Definition point2 : Type := int2 * int2.
  (** point2_base_chip.rs:162-185; [None]: one of the three checks (on curve, in the subgroup, not infinity) panics *)
  Definition p2_assign_constant (xy : option (int2 * int2)) : circ point2 :=
    match xy with
    | None => Abort
    | Some (x, y) => let! x := i2_assign_constant x in let! y := i2_assign_constant y in Ret (x, y)
    end.
  (** point2_base_chip.rs:187-197 *)
  Definition p2_assert_equal (p0 p1 : point2) : circ unit :=
    let! _ := i2_assert_equal (fst p0) (fst p1) in i2_assert_equal (snd p0) (snd p1).
  (** point2_base_chip.rs:199-211 *)
  Definition p2_select (c : N) (p1 p2 : point2) : circ point2 :=
    let! x := i2_select (fst p1) (fst p2) c in
    let! y := i2_select (snd p1) (snd p2) c in
    Ret (x, y).
  (** point2_base_chip.rs:213-223 *)
  Definition p2_normalize (p : point2) : circ ((list N * list N) * (list N * list N)) :=
    let! x := i2_reduce (fst p) in
    let! y := i2_reduce (snd p) in
    Ret (x, y).
  (** add.rs:29-52 *)
  Definition p2_add_incomplete (a b : point2) : circ point2 :=
    let '(ax, ay) := a in let '(bx, bY) := b in
    let! numerator := i2_sub bY ay in
    let! denominator := i2_sub bx ax in
    let! lambda := i2_div_incomplete numerator denominator in
    let! lambda_square := i2_square lambda in
    let! x := i2_sub_sub lambda_square ax bx in
    let! t := i2_sub ax x in
    let! t := i2_mul t lambda in
    let! y := i2_sub t ay in
    Ret (x, y).
  (** add.rs:17-27 *)
  Definition p2_add (a b : point2) : circ point2 :=
    let! _ := i2_assert_not_equal (fst a) (fst b) in
    p2_add_incomplete a b.
  (** add.rs:63-86 *)
  Definition p2_double_incomplete (p : point2) : circ point2 :=
    let '(px, py) := p in
    let! x_0_square := i2_square px in
    let! numerator := i2_mul3 x_0_square in
    let! denominator := i2_mul2 py in
    let! lambda := i2_div_incomplete numerator denominator in
    let! lambda_square := i2_square lambda in
    let! x := i2_sub_sub lambda_square px px in
    let! t := i2_sub px x in
    let! t := i2_mul lambda t in
    let! y := i2_sub t py in
    Ret (x, y).
  (** add.rs:54-61 *)
  Definition p2_double (p : point2) : circ point2 :=
    let! _ := i2_assert_not_zero (fst p) in
    p2_double_incomplete p.

  (** ** expose_public_optimal (point_base_chip.rs:75-131, point2_base_chip.rs:99-160) *)
  (** wrap_len = 2, 4 limbs: for each pair, s = hi; s = s * base + lo *)
  Fixpoint wrap_limbs (base : N) (l : list N) : circ (list N) :=
    match l with
    | lo :: hi :: tl => let! s := mul_add hi base lo in let! r := wrap_limbs base tl in Ret (s :: r)
    | _ => Ret []
    end.
  Fixpoint expose_all (inst : list N) (vs : list N) (offset : nat) : circ nat :=
    match vs with
    | [] => Ret offset
    | v :: tl => let! _ := expose_public inst v offset in expose_all inst tl (offset + 1)%nat
    end.
  (** [cs]: the reduced coordinates, x then y (for G2: x.i0, x.i1, y.i0, y.i1); the base 2^68 is assigned as a constant
      unless an assigned one is handed in *)
  Definition expose_public_optimal (inst : list N) (limb_base : N) (cs : list (list N)) (assigned_base : option N) (offset : nat)
    : circ (N * nat) :=
    let! base := match assigned_base with Some b => Ret b | None => assign_constant limb_base end in
    let! wrapped := cmap (wrap_limbs base) cs in
    let! offset := expose_all inst (concat wrapped) offset in
    Ret (base, offset).
End IntegerChip.
