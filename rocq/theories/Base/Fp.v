(** The prime field Z/p with canonical representatives (the arithmetic of the halo2curves
    types bn256::Fq and bn256::Fr, which is not code of this repository: see DESIGN.md, trusted base). *)
From Coq Require Import ZArith Znumtheory List Lia Eqdep_dec Bool Field.
From Verif.Base Require Import Fermat Pocklington Primes Fld.
Import ListNotations.
Open Scope Z_scope.

Record Fp (p : Z) : Type := mkFp { fval : Z; fval_ok : (fval mod p =? fval) = true }.
Arguments mkFp {p}. Arguments fval {p}. Arguments fval_ok {p}.

Lemma of_Z_ok p a : ((a mod p) mod p =? a mod p) = true.
Proof. rewrite Zmod_mod. apply Z.eqb_refl. Qed.
Definition of_Z (p : Z) (a : Z) : Fp p := mkFp (a mod p) (of_Z_ok p a).

Lemma Fp_ext p (x y : Fp p) : fval x = fval y -> x = y.
Proof.
  destruct x as [x Hx], y as [y Hy]; cbn; intros E. subst. f_equal. apply UIP_dec, bool_dec.
Qed.
Lemma fval_mod p (x : Fp p) : fval x mod p = fval x.
Proof. apply Z.eqb_eq, fval_ok. Qed.
Lemma fval_of_Z p a : fval (of_Z p a) = a mod p. Proof. reflexivity. Qed.
Lemma of_Z_fval p (x : Fp p) : of_Z p (fval x) = x.
Proof. apply Fp_ext. cbn. apply fval_mod. Qed.
Lemma of_Z_eq p a b : a mod p = b mod p -> of_Z p a = of_Z p b.
Proof. intros; apply Fp_ext; auto. Qed.
Lemma of_Z_inj_mod p a b : of_Z p a = of_Z p b -> a mod p = b mod p.
Proof. intros H. apply (f_equal fval) in H. exact H. Qed.
Lemma fval_range p (x : Fp p) : 0 < p -> 0 <= fval x < p.
Proof. intros H. rewrite <- fval_mod. apply Z.mod_pos_bound; auto. Qed.

Definition Fp_add {p} (x y : Fp p) := of_Z p (fval x + fval y).
Definition Fp_sub {p} (x y : Fp p) := of_Z p (fval x - fval y).
Definition Fp_mul {p} (x y : Fp p) := of_Z p (fval x * fval y).
Definition Fp_opp {p} (x : Fp p) := of_Z p (- fval x).
(** inverse by Fermat; 0 maps to 0 *)
Definition Fp_inv {p} (x : Fp p) : Fp p :=
  of_Z p (match p - 2 with Zpos e => powm (fval x) e p | _ => fval x end).
Definition Fp_div {p} (x y : Fp p) := Fp_mul x (Fp_inv y).

Lemma Fp_eq_dec p (x y : Fp p) : {x = y} + {x <> y}.
Proof.
  destruct (Z.eq_dec (fval x) (fval y)) as [E|N].
  - left; apply Fp_ext; auto.
  - right; congruence.
Defined.

Lemma of_Z_add p a b : of_Z p (a + b) = Fp_add (of_Z p a) (of_Z p b).
Proof. apply Fp_ext; cbn. apply Zplus_mod. Qed.
Lemma of_Z_mul p a b : of_Z p (a * b) = Fp_mul (of_Z p a) (of_Z p b).
Proof. apply Fp_ext; cbn. rewrite mod_mul_l, mod_mul_r; auto. Qed.
Lemma of_Z_sub p a b : of_Z p (a - b) = Fp_sub (of_Z p a) (of_Z p b).
Proof. apply Fp_ext; cbn. apply Zminus_mod. Qed.
Lemma of_Z_opp p a : of_Z p (- a) = Fp_opp (of_Z p a).
Proof. apply Fp_ext; cbn. rewrite <- (Z.sub_0_l a), <- (Z.sub_0_l (a mod p)), Zminus_mod, (Zminus_mod 0 (a mod p)), Zmod_mod; auto. Qed.

Lemma Fp_ring p : ring_theory (of_Z p 0) (of_Z p 1) (@Fp_add p) (@Fp_mul p) (@Fp_sub p) (@Fp_opp p) (@eq (Fp p)).
Proof.
  constructor; intros;
    repeat match goal with x : Fp p |- _ => rewrite <- (of_Z_fval p x); generalize (fval x); clear x; intros end;
    rewrite <- ?of_Z_add, <- ?of_Z_mul, <- ?of_Z_sub, <- ?of_Z_opp;
    rewrite <- ?of_Z_add, <- ?of_Z_mul, <- ?of_Z_sub, <- ?of_Z_opp; rewrite <- ?of_Z_add; try (f_equal; ring).
Qed.

Lemma Fp_field p : prime p -> field_theory (of_Z p 0) (of_Z p 1) (@Fp_add p) (@Fp_mul p) (@Fp_sub p) (@Fp_opp p)
                                (@Fp_div p) (@Fp_inv p) (@eq (Fp p)).
Proof.
  intros Hp. pose proof Hp as [Hp1 _]. constructor.
  - apply Fp_ring.
  - intros E. apply of_Z_inj_mod in E. rewrite Z.mod_1_l, Zmod_0_l in E; lia.
  - reflexivity.
  - intros x Hx. apply Fp_ext. cbn [Fp_mul of_Z fval Fp_inv].
    assert (Hnd : ~ (p | fval x)).
    { intros D. apply Hx. apply Fp_ext. apply Z.mod_divide in D; [|lia].
      rewrite fval_mod in D. rewrite D, fval_of_Z, Zmod_0_l; auto. }
    pose proof (fermat p (fval x) Hp Hnd) as Hf.
    rewrite mod_mul_l, (Z.mod_1_l p) by lia.
    destruct (p - 2) as [|e|e] eqn:E.
    + assert (p = 2) by lia. subst p. replace (2 - 1) with 1 in Hf by lia.
      rewrite Z.pow_1_r in Hf. rewrite fval_mod in Hf. rewrite Hf. reflexivity.
    + rewrite powm_spec, mod_mul_l, <- Hf. f_equal.
      replace (p - 1) with (Z.pos e + 1) by lia. rewrite Z.pow_add_r, Z.pow_1_r by lia. ring.
    + lia.
Qed.

Definition FpFld (p : Z) (Hp : prime p) : Fld :=
  {| car := Fp p; f0 := of_Z p 0; f1 := of_Z p 1; fadd := Fp_add; fmul := Fp_mul; fsub := Fp_sub;
     fopp := Fp_opp; fdiv := Fp_div; finv := Fp_inv; feq_dec := Fp_eq_dec p; flaw := Fp_field p Hp |}.

(** bn256::Fq and bn256::Fr (= grumpkin::Fr and grumpkin::Fq) *)
Definition Fq : Fld := FpFld q_mod q_prime.
Definition Fr : Fld := FpFld r_mod r_prime.
