(** Multiplication of large integers with a 4-bit window. Mathematics only: the certificates below are checked with it because
    it halves the number of reduction steps the kernel needs. It is proved equal to the library's multiplication. *)
From Coq Require Import ZArith Lia.
Open Scope Z_scope.

Definition sh4 (p : positive) : positive := xO (xO (xO (xO p))).
Section Window.
  Variables t1 t2 t3 t4 t5 t6 t7 t8 t9 t10 t11 t12 t13 t14 t15 : positive.
  Fixpoint wgo (x : positive) : positive :=
  match x with
  | xO (xO (xO (xO (x')))) => sh4 (wgo x')
  | xI (xO (xO (xO (x')))) => Pos.add t1 (sh4 (wgo x'))
  | xO (xI (xO (xO (x')))) => Pos.add t2 (sh4 (wgo x'))
  | xI (xI (xO (xO (x')))) => Pos.add t3 (sh4 (wgo x'))
  | xO (xO (xI (xO (x')))) => Pos.add t4 (sh4 (wgo x'))
  | xI (xO (xI (xO (x')))) => Pos.add t5 (sh4 (wgo x'))
  | xO (xI (xI (xO (x')))) => Pos.add t6 (sh4 (wgo x'))
  | xI (xI (xI (xO (x')))) => Pos.add t7 (sh4 (wgo x'))
  | xO (xO (xO (xI (x')))) => Pos.add t8 (sh4 (wgo x'))
  | xI (xO (xO (xI (x')))) => Pos.add t9 (sh4 (wgo x'))
  | xO (xI (xO (xI (x')))) => Pos.add t10 (sh4 (wgo x'))
  | xI (xI (xO (xI (x')))) => Pos.add t11 (sh4 (wgo x'))
  | xO (xO (xI (xI (x')))) => Pos.add t12 (sh4 (wgo x'))
  | xI (xO (xI (xI (x')))) => Pos.add t13 (sh4 (wgo x'))
  | xO (xI (xI (xI (x')))) => Pos.add t14 (sh4 (wgo x'))
  | xI (xI (xI (xI (x')))) => Pos.add t15 (sh4 (wgo x'))
  | xH => t1
  | xO (xH) => t2
  | xI (xH) => t3
  | xO (xO (xH)) => t4
  | xI (xO (xH)) => t5
  | xO (xI (xH)) => t6
  | xI (xI (xH)) => t7
  | xO (xO (xO (xH))) => t8
  | xI (xO (xO (xH))) => t9
  | xO (xI (xO (xH))) => t10
  | xI (xI (xO (xH))) => t11
  | xO (xO (xI (xH))) => t12
  | xI (xO (xI (xH))) => t13
  | xO (xI (xI (xH))) => t14
  | xI (xI (xI (xH))) => t15
  end.
  Variable y : positive.
  Lemma wgo_ok : Zpos t1 = 1 * Zpos y -> Zpos t2 = 2 * Zpos y -> Zpos t3 = 3 * Zpos y -> Zpos t4 = 4 * Zpos y -> Zpos t5 = 5 * Zpos y -> Zpos t6 = 6 * Zpos y -> Zpos t7 = 7 * Zpos y -> Zpos t8 = 8 * Zpos y -> Zpos t9 = 9 * Zpos y -> Zpos t10 = 10 * Zpos y -> Zpos t11 = 11 * Zpos y -> Zpos t12 = 12 * Zpos y -> Zpos t13 = 13 * Zpos y -> Zpos t14 = 14 * Zpos y -> Zpos t15 = 15 * Zpos y -> forall x, Zpos (wgo x) = Zpos x * Zpos y.
  Proof.
    intros H1 H2 H3 H4 H5 H6 H7 H8 H9 H10 H11 H12 H13 H14 H15.
    fix IH 1. intros x.
    destruct x as [[[[x|x|]|[x|x|]|]|[[x|x|]|[x|x|]|]|]|[[[x|x|]|[x|x|]|]|[[x|x|]|[x|x|]|]|]|];
      cbn [wgo]; unfold sh4; try pose proof (eq_sym (IH x)) as E; clear IH; rewrite ?Pos2Z.inj_add;
      repeat match goal with H : Z.pos ?t = _ * Z.pos y |- _ => first [rewrite H; clear H | clear H] end; lia.
  Qed.
End Window.

Definition pmulw (x y : positive) : positive :=
  let t1 := y in
    let t2 := xO t1 in
  let t3 := Pos.add t2 t1 in
  let t4 := xO t2 in
  let t5 := Pos.add t2 t3 in
  let t6 := xO t3 in
  let t7 := Pos.add t2 t5 in
  let t8 := xO t4 in
  let t9 := Pos.add t2 t7 in
  let t10 := xO t5 in
  let t11 := Pos.add t2 t9 in
  let t12 := xO t6 in
  let t13 := Pos.add t2 t11 in
  let t14 := xO t7 in
  let t15 := Pos.add t2 t13 in
  wgo t1 t2 t3 t4 t5 t6 t7 t8 t9 t10 t11 t12 t13 t14 t15 x.
Lemma pmulw_ok x y : pmulw x y = Pos.mul x y.
Proof.
  apply Pos2Z.inj. rewrite Pos2Z.inj_mul. unfold pmulw.
  apply wgo_ok; lia.
Qed.
Definition zmulw (x y : Z) : Z :=
  match x, y with
  | Zpos a, Zpos b => Zpos (pmulw a b)
  | Zpos a, Zneg b => Zneg (pmulw a b)
  | Zneg a, Zpos b => Zneg (pmulw a b)
  | Zneg a, Zneg b => Zpos (pmulw a b)
  | _, _ => 0
  end.
Lemma zmulw_ok x y : zmulw x y = x * y.
Proof. destruct x, y; cbn [zmulw Z.mul]; rewrite ?pmulw_ok; reflexivity. Qed.
