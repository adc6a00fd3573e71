(** Quadratic extension K[u]/(u^2+1) (mathematics). *)
From Coq Require Import ZArith Znumtheory List Lia Bool Ring Field.
From Verif.Base Require Import Fermat Pocklington Primes Fld Fp.
Open Scope fld_scope.

Section Ext.
  Variable K : Fld.
  Hypothesis no_i : forall x : K, x * x <> - (1).
  Add Field KfX : (flaw K).

  Definition e2 : Type := (K * K)%type.
  Definition e0 : e2 := (0, 0).
  Definition e1 : e2 := (1, 0).
  Definition eadd (x y : e2) : e2 := (fst x + fst y, snd x + snd y).
  Definition esub (x y : e2) : e2 := (fst x - fst y, snd x - snd y).
  Definition eopp (x : e2) : e2 := (- fst x, - snd x).
  Definition emul (x y : e2) : e2 := (fst x * fst y - snd x * snd y, fst x * snd y + snd x * fst y).
  Definition enorm (x : e2) : K := fst x * fst x + snd x * snd x.
  Definition einv (x : e2) : e2 := (fst x / enorm x, - snd x / enorm x).
  Definition ediv (x y : e2) : e2 := emul x (einv y).

  Lemma e2_eq_dec (x y : e2) : {x = y} + {x <> y}.
  Proof.
    destruct x as [a b], y as [c d].
    destruct (feq_dec a c); [|right; congruence]. destruct (feq_dec b d); [left|right]; congruence.
  Defined.

  Lemma enorm_neq0 (x : e2) : x <> e0 -> enorm x <> 0.
  Proof.
    destruct x as [a b]. unfold enorm, e0; cbn [fst snd]. intros N E.
    destruct (feq_dec b 0) as [->|Nb].
    - assert (a = 0).
      { assert (Z : a * a = 0) by (rewrite <- E; ring). apply fmul_eq0 in Z as [Z|Z]; auto. }
      subst; auto.
    - apply (no_i (a / b)).
      assert (E2 : a * a = - (b * b)) by (apply fsub_eq0; rewrite <- E; ring).
      transitivity (a * a / (b * b)); [field; auto|]. rewrite E2. field; auto.
  Qed.

  Lemma e2_field : field_theory e0 e1 eadd emul esub eopp ediv einv (@eq e2).
  Proof.
    constructor.
    - constructor; intros; unfold eadd, emul, esub, eopp, e0, e1;
        repeat match goal with x : e2 |- _ => destruct x end; cbn [fst snd]; f_equal; ring.
    - unfold e1, e0. intros E. injection E as E. exact (f1_neq_0 K E).
    - reflexivity.
    - intros x Hx. pose proof (enorm_neq0 x Hx) as N. destruct x as [a b].
      unfold emul, einv, e1; cbn [fst snd]. unfold enorm in *; cbn [fst snd] in *. f_equal; field; auto.
  Qed.

  Definition Ext : Fld :=
    {| car := e2; f0 := e0; f1 := e1; fadd := eadd; fmul := emul; fsub := esub; fopp := eopp;
       fdiv := ediv; finv := einv; feq_dec := e2_eq_dec; flaw := e2_field |}.
End Ext.

(** Powers and Fermat in the packaged field *)
Lemma fpow_of_Z p (Hp : prime p) (x : FpFld p Hp) (n : N) :
  fpow x n = of_Z p (fval (x : Fp p) ^ Z.of_N n).
Proof.
  induction n as [|n IH] using N.peano_ind; [reflexivity|].
  rewrite fpow_succ, IH, N2Z.inj_succ, Z.pow_succ_r by lia.
  rewrite of_Z_mul. rewrite of_Z_fval. reflexivity.
Qed.

(** fast evaluation of a power *)
Definition fpow_fast (p : Z) (x : Z) (n : N) : Z := match n with N0 => 1 mod p | Npos e => powm x e p end.
Lemma fpow_fast_ok p (Hp : prime p) (x : FpFld p Hp) n : fval (fpow x n : Fp p) = fpow_fast p (fval (x : Fp p)) n.
Proof.
  rewrite fpow_of_Z, fval_of_Z. unfold fpow_fast. destruct n; [reflexivity|]. rewrite powm_spec. reflexivity.
Qed.

Lemma fpow_fermat p (Hp : prime p) (x : FpFld p Hp) : x <> 0 -> fpow x (Z.to_N (p - 1)) = 1.
Proof.
  intros Hx. pose proof Hp as [Hp1 _]. rewrite fpow_of_Z. apply Fp_ext. rewrite fval_of_Z.
  rewrite Z2N.id by lia.
  change (fval (1 : FpFld p Hp)) with (1 mod p)%Z. rewrite Z.mod_1_l by lia.
  apply fermat; auto. intros D. apply Hx. apply Fp_ext. apply Z.mod_divide in D; [|lia].
  rewrite fval_mod in D. rewrite D. reflexivity.
Qed.

(** -1 is not a square modulo a prime that is 3 mod 4 *)
Section NoSqrt.
  Variable p : Z.
  Variable Hp : prime p.
  Let K := FpFld p Hp.
  Add Field KfN : (flaw K).

  Lemma m1_neq_1 : (2 < p)%Z -> - (1 : K) <> 1.
  Proof.
    intros H E. assert (E2 : (1 : K) + 1 = 0) by (rewrite <- E at 1; ring).
    apply (f_equal fval) in E2. change (((1 mod p) + (1 mod p)) mod p = 0 mod p)%Z in E2.
    rewrite Z.mod_1_l, Zmod_0_l, Z.mod_small in E2; lia.
  Qed.

  Lemma no_sqrt_m1 : (p mod 4 = 3)%Z -> forall x : K, x * x <> - (1).
  Proof.
    intros H4 x E. pose proof Hp as [Hp1 _]. pose proof (Z.div_mod p 4 ltac:(lia)).
    assert (Hx : x <> 0).
    { intros Z. rewrite Z in E. apply (f1_neq_0 K). transitivity (- - (1 : K)); [ring|]. rewrite <- E. ring. }
    pose proof (fpow_fermat p Hp x Hx) as F.
    replace (Z.to_N (p - 1)) with (2 * (2 * Z.to_N (p / 4) + 1))%N in F by lia.
    rewrite fpow_mul in F. change (fpow x 2) with (x * x) in F. fold K in F. rewrite E in F.
    rewrite fpow_add, fpow_mul in F. change (fpow (- (1 : K)) 2) with (- (1 : K) * - (1 : K)) in F.
    change (fpow (- (1 : K)) 1) with (- (1 : K)) in F.
    replace (- (1 : K) * - (1 : K)) with (1 : K) in F by ring.
    rewrite fpow_1_l in F.
    apply m1_neq_1; [lia|]. transitivity (1 * - (1 : K)); [ring|exact F].
  Qed.
End NoSqrt.
