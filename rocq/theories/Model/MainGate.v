(** The main gate of halo2wrong (halo2_maingate, a dependency), as far as the circuit uses it: one row
      a sa + b sb + c sc + d sd + e se + a b m_ab + c d m_cd + constant = 0
    and the derived instructions.  Part of the trusted base: these are the documented equations of
    [MainGateInstructions]. *)
From Coq Require Import ZArith List.
From Verif.Base Require Import Fld.
From Verif.Model Require Import Circ.
Import ListNotations.

Section MainGate.
  Variable K : Fld.
  Open Scope fld_scope.

  (** [Term]: a cell with the coefficient of its linear term; [to_mul] has coefficient 0, [to_add] 1, [to_sub] -1 *)
  Inductive term := Assigned (v : K) (coeff : K) | Unassigned (h : K) (coeff : K).
  Definition assigned_to_mul v := Assigned v 0.
  Definition assigned_to_add v := Assigned v 1.
  Definition assigned_to_sub v := Assigned v (- (1)).
  Definition unassigned_to_mul h := Unassigned h 0.
  Definition unassigned_to_add h := Unassigned h 1.
  Definition unassigned_to_sub h := Unassigned h (- (1)).

  (** [CombinationOption]: the coefficients (m_ab, m_cd); the coefficient of the next row's E cell is 0 everywhere *)
  Definition OneLinerMul : K * K := (1, 0).
  Definition OneLinerAdd : K * K := (0, 0).
  Definition OneLinerDoubleMul (e : K) : K * K := (1, e).
  Definition CombineToNextScaleMul0 (s : K) : K * K := (s, 0).

  Definition coeff_of (t : term) : K := match t with Assigned _ c => c | Unassigned _ c => c end.

  Fixpoint assign_terms (ts : list term) : circ (list K) :=
    match ts with
    | [] => Ret []
    | Assigned v _ :: r => let! l := assign_terms r in Ret (v :: l)
    | Unassigned h _ :: r => Cell K h (fun _ => True) (fun x => let! l := assign_terms r in Ret (x :: l))
    end.
  (** the row equation; cells beyond the terms given are zero *)
  Definition row (cs vs : list K) (const : K) (opt : K * K) : Prop :=
    let v i := nth i vs 0 in let c i := nth i cs 0 in
    v 0%nat * c 0%nat + v 1%nat * c 1%nat + v 2%nat * c 2%nat + v 3%nat * c 3%nat + v 4%nat * c 4%nat
      + fst opt * (v 0%nat * v 1%nat) + snd opt * (v 2%nat * v 3%nat) + const = 0.
  (** [apply]: assign the row, enable the gate, return the cells *)
  Definition apply (ts : list term) (const : K) (opt : K * K) : circ (list K) :=
    let! vs := assign_terms ts in
    let! _ := constrain (row (map coeff_of ts) vs const opt) in
    Ret vs.

  Definition assign_value (h : K) : circ K := Cell K h (fun _ => True) (fun x => Ret x).
  Definition assign_constant (a : K) : circ K := Cell K a (fun x => x = a) (fun x => Ret x).
  Definition assign_bit (h : K) : circ K := Cell K h (fun x => x * x = x) (fun x => Ret x).
  Definition assert_equal (a b : K) : circ unit := constrain (a = b).
  Definition add (a b : K) : circ K := Cell K (a + b) (fun c => a + b - c = 0) (fun c => Ret c).
  Definition sub (a b : K) : circ K := Cell K (a - b) (fun c => a - b - c = 0) (fun c => Ret c).
  Definition mul (a b : K) : circ K := Cell K (a * b) (fun c => a * b - c = 0) (fun c => Ret c).
  Definition mul_add (a b to_add : K) : circ K := Cell K (a * b + to_add) (fun c => a * b + to_add - c = 0) (fun c => Ret c).
  Definition add_constant (a const : K) : circ K := Cell K (a + const) (fun c => a + const - c = 0) (fun c => Ret c).
  (** [neg_with_constant a c] = c - a *)
  Definition neg_with_constant (a const : K) : circ K := Cell K (const - a) (fun c => const - a - c = 0) (fun c => Ret c).
  (** [invert_unsafe]: a * inverse = 1; the witness for a = 0 is 0 *)
  Definition invert_unsafe (a : K) : circ K := Cell K (if feqb a 0 then 0 else finv a) (fun c => a * c - 1 = 0) (fun c => Ret c).
  (** [select a b cond]: a if cond = 1, b if cond = 0 *)
  Definition select (a b cond : K) : circ K :=
    Cell K (if feqb cond 1 then a else b) (fun c => cond * (a - b) + b - c = 0) (fun c => Ret c).

  (** the sum of the bits, least significant first *)
  Definition pow2 (n : nat) : K := fpow (1 + 1) (N.of_nat n).
  Fixpoint compose_from (i : nat) (bits : list K) : K :=
    match bits with [] => 0 | b :: r => b * pow2 i + compose_from (S i) r end.
  Definition compose (bits : list K) : K := compose_from 0 bits.
  (** [to_bits v n]: n bit cells whose weighted sum is [v]; [hb] the bits the prover assigns *)
  Definition to_bits (v : K) (hb : list K) : circ (list K) :=
    let! bits := cmap assign_bit hb in
    let! _ := constrain (compose bits = v) in
    Ret bits.

  (** [expose_public v off]: copy constraint with the instance column; rows beyond the instance supplied hold 0 *)
  Definition expose_public (inst : list K) (v : K) (off : nat) : circ unit := constrain (nth off inst 0 = v).
End MainGate.
Arguments assigned_to_mul {K}. Arguments assigned_to_add {K}. Arguments assigned_to_sub {K}.
Arguments unassigned_to_mul {K}. Arguments unassigned_to_add {K}. Arguments unassigned_to_sub {K}.
Arguments apply {K}. Arguments OneLinerDoubleMul {K}. Arguments CombineToNextScaleMul0 {K}.
Arguments assign_value {K}. Arguments assign_constant {K}. Arguments assign_bit {K}. Arguments assert_equal {K}.
Arguments add {K}. Arguments sub {K}. Arguments mul {K}. Arguments mul_add {K}. Arguments add_constant {K}.
Arguments neg_with_constant {K}. Arguments invert_unsafe {K}. Arguments select {K}.
Arguments compose {K}. Arguments compose_from {K}. Arguments to_bits {K}. Arguments expose_public {K}.
