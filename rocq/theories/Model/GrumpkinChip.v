(** src/grumpkin_chip.rs, src/grumpkin_chip/add.rs, src/grumpkin_chip/mul.rs.
    The definitions are over a field [K] with curve constant [b]; the code's instance ([Base] = the bn256 scalar field,
    [Point::b()] = -17) is [gk_*] in DkgCircuit.v.  An [AssignedPoint] is the pair of its cells; the witness value of an
    assigned cell is the value itself (see Circ.v). *)
From Coq Require Import ZArith List Bool.
From Verif.Base Require Import Fld.
From Verif.Model Require Import Circ MainGate.
Import ListNotations.

Section GrumpkinChip.
  Variable K : Fld.
  Open Scope fld_scope.
  (** grumpkin_chip.rs:62-64 curve_b *)
  Variable curve_b : K.
  (** add.rs:9-15 *)
  Variable THREE_OVER_TWO : K.

  (** grumpkin_chip.rs:17-41 *)
  Definition apoint : Type := K * K.

  (** [invert().unwrap_or(ZERO)] *)
  Definition inv_or_0 (x : K) : K := if feqb x 0 then 0 else finv x.

  (** grumpkin_chip.rs:86-100 *)
  Definition g_assign_constant (p : K * K) : circ apoint :=
    let! x := assign_constant (fst p) in
    let! y := assign_constant (snd p) in
    Ret (x, y).

  (** grumpkin_chip.rs:143-160 *)
  Definition assert_is_on_curve (p : apoint) : circ unit :=
    let '(x, y) := p in
    let! y2 := mul y y in
    let! x2 := mul x x in
    let! x3 := mul x2 x in
    let! x3b := add_constant x3 curve_b in
    assert_equal y2 x3b.

  (** grumpkin_chip.rs:128-141, [p] the witness coordinates *)
  Definition assign_point (p : K * K) : circ apoint :=
    let! x := assign_value (fst p) in
    let! y := assign_value (snd p) in
    let! _ := assert_is_on_curve (x, y) in
    Ret (x, y).

  (** grumpkin_chip.rs:173-181 *)
  Definition g_neg (p : apoint) : circ apoint :=
    let! y_neg := neg_with_constant (snd p) 0 in
    Ret (fst p, y_neg).

  (** grumpkin_chip.rs:102-126: aux_generator and aux_correction as assigned *)
  Definition assign_aux (aux : K * K) : circ (apoint * apoint) :=
    let! a := assign_point aux in
    let! c := g_neg a in
    Ret (a, c).

  (** grumpkin_chip.rs:162-171 *)
  Definition g_assert_equal (p0 p1 : apoint) : circ unit :=
    let! _ := assert_equal (fst p0) (fst p1) in
    assert_equal (snd p0) (snd p1).

  (** grumpkin_chip.rs:184-196 *)
  Definition g_select (c : K) (p1 p2 : apoint) : circ apoint :=
    let! x := select (fst p1) (fst p2) c in
    let! y := select (snd p1) (snd p2) c in
    Ret (x, y).

  (** grumpkin_chip.rs:224-244: bit cells, not recomposed; [hb] = decompose(value, 254, 1) *)
  Definition to_bits_unsafe (hb : list K) : circ (list K) := cmap assign_bit hb.

  (** add.rs:17-44: d = a*b-c *)
  Definition mul_sub (a b c : K) : circ K :=
    let! l := apply [assigned_to_mul a; assigned_to_mul b; assigned_to_sub c; unassigned_to_sub (a * b - c)] 0 (OneLinerMul K) in
    Ret (nth 3 l 0).
  (** add.rs:46-82: e = a*b-c-d *)
  Definition mul_sub_sub (a b c d : K) : circ K :=
    let! l := apply [assigned_to_mul a; assigned_to_mul b; assigned_to_sub c; assigned_to_sub d;
                     unassigned_to_sub (a * b - c - d)] 0 (OneLinerMul K) in
    Ret (nth 4 l 0).
  (** add.rs:84-119: c = 1/(a-b) *)
  Definition sub_invert_unsafe (a b : K) : circ K :=
    let c := inv_or_0 (a - b) in
    let! l := apply [assigned_to_mul a; unassigned_to_mul c; assigned_to_mul b; unassigned_to_mul c] (- (1)) (OneLinerDoubleMul (- (1))) in
    let! _ := constrain (nth 1 l 0 = nth 3 l 0) in
    Ret (nth 1 l 0).
  (** add.rs:121-156: d = (a-b)*c *)
  Definition sub_mul (a b c : K) : circ K :=
    let! l := apply [assigned_to_mul a; assigned_to_mul c; assigned_to_mul b; assigned_to_mul c; unassigned_to_sub ((a - b) * c)]
                    0 (OneLinerDoubleMul (- (1))) in
    Ret (nth 4 l 0).
  (** add.rs:158-186: c = s*a*b *)
  Definition scale_mul (s a b : K) : circ K :=
    let! l := apply [assigned_to_mul a; assigned_to_mul b; unassigned_to_sub (s * a * b)] 0 (CombineToNextScaleMul0 s) in
    Ret (nth 2 l 0).
  (** add.rs:188-219 *)
  Definition lambda_double_unsafe (a : apoint) : circ K :=
    let '(x, y) := a in
    let! l := apply [unassigned_to_mul (inv_or_0 y * x * x * THREE_OVER_TWO); assigned_to_mul y; assigned_to_mul x; assigned_to_mul x]
                    0 (OneLinerDoubleMul (- THREE_OVER_TWO)) in
    Ret (nth 0 l 0).

  (** add.rs:221-315 *)
  Definition g_add_incomplete (a b : apoint) : circ apoint :=
    let '(xa, ya) := a in let '(xb, yb) := b in
    let lv := inv_or_0 (xa - xb) * (ya - yb) in
    let! l := apply [unassigned_to_mul lv; unassigned_to_mul lv; assigned_to_sub xa; assigned_to_sub xb;
                     unassigned_to_sub (lv * lv - xa - xb)] 0 (OneLinerMul K) in
    let! _ := constrain (nth 0 l 0 = nth 1 l 0) in
    let lambda := nth 0 l 0 in
    let xc := nth 4 l 0 in
    let! t := mul_sub lambda xa ya in
    let! _ := apply [assigned_to_mul lambda; assigned_to_mul xb; assigned_to_sub yb; assigned_to_sub t] 0 (OneLinerMul K) in
    let! l' := apply [assigned_to_mul lambda; assigned_to_mul xc; unassigned_to_add (t - lv * xc); assigned_to_sub t] 0 (OneLinerMul K) in
    Ret (xc, nth 2 l' 0).

  (** add.rs:317-339 *)
  Definition g_add (a b : apoint) : circ apoint :=
    let '(xa, ya) := a in let '(xb, yb) := b in
    let! inv := sub_invert_unsafe xa xb in
    let! lambda := sub_mul ya yb inv in
    let! x := mul_sub_sub lambda lambda xa xb in
    let! s := sub xa x in
    let! y := mul_sub lambda s ya in
    Ret (x, y).

  (** add.rs:341-363 *)
  Definition g_double_incomplete (a : apoint) : circ apoint :=
    let '(xa, ya) := a in
    let! lambda := lambda_double_unsafe a in
    let! x := mul_sub_sub lambda lambda xa xa in
    let! s := sub xa x in
    let! y := mul_sub lambda s ya in
    Ret (x, y).

  (** add.rs:365-387 *)
  Definition g_double (a : apoint) : circ apoint :=
    let '(xa, ya) := a in
    let! numerator := scale_mul THREE_OVER_TWO xa xa in
    let! inv := invert_unsafe ya in
    let! lambda := mul numerator inv in
    let! x := mul_sub_sub lambda lambda xa xa in
    let! s := sub xa x in
    let! y := mul_sub lambda s ya in
    Ret (x, y).

  (** mul.rs:38-43: one iteration of the loop, on (res, double) *)
  Definition mul_step (st : apoint * apoint) (bit : K) : circ (apoint * apoint) :=
    let '(res, double) := st in
    let! t := g_add res double in
    let! res' := g_select bit t res in
    let! double' := g_double_incomplete double in
    Ret (res', double').
  (** mul.rs:21-47; [auxs] = (aux_generator, aux_correction) as assigned; without them synthesis fails *)
  Definition g_mul_bits (auxs : option (apoint * apoint)) (point : apoint) (bits : list K) : circ apoint :=
    match auxs with
    | None => Abort
    | Some (aux, aux_neg) =>
        let! st := cfold mul_step bits (aux, point) in
        g_add (fst st) aux_neg
    end.
  (** mul.rs:8-19; [hb] = the bits of the scalar's witness value *)
  Definition g_mul (auxs : option (apoint * apoint)) (point : apoint) (scalar : K) (hb : list K) : circ apoint :=
    let! bits := to_bits scalar hb in
    g_mul_bits auxs point bits.

  (** grumpkin_chip.rs:66-84 *)
  Definition g_expose_public (inst : list K) (p : apoint) (offset : nat) : circ nat :=
    let! _ := expose_public inst (fst p) offset in
    let! _ := expose_public inst (snd p) (offset + 1) in
    Ret (offset + 2)%nat.
End GrumpkinChip.
Arguments apoint : clear implicits.
