(** Square roots in Z/p for p = 3 mod 4: a^((p+1)/4) (mathematics). *)
From Coq Require Import ZArith Znumtheory List Lia Ring Field Bool.
From Verif.Base Require Import Fermat Primes Fld Fp Fq2.
Open Scope Z_scope.

Section Sqrt.
  Variable p : Z.
  Hypothesis Hp : prime p.
  Hypothesis H4 : p mod 4 = 3.
  Let K := FpFld p Hp.
  Add Field KfS : (flaw K).
  Open Scope fld_scope.

  Definition root (a : K) : K := fpow a (Z.to_N ((p + 1) / 4)).
  Definition half : N := Z.to_N ((p - 1) / 2).

  Lemma p_gt1 : (1 < p)%Z. Proof. destruct Hp; auto. Qed.
  Lemma root_sq (a : K) : root a * root a = a * fpow a half.
  Proof.
    unfold root, half. rewrite <- fpow_add, <- fpow_succ. f_equal.
    pose proof p_gt1. pose proof (Z.div_mod p 4 ltac:(lia)) as D. rewrite H4 in D.
    replace ((p + 1) / 4)%Z with (p / 4 + 1)%Z by (apply Z.div_unique with 0%Z; lia).
    replace ((p - 1) / 2)%Z with (2 * (p / 4) + 1)%Z by (apply Z.div_unique with 0%Z; lia). lia.
  Qed.
  Lemma half_sq (a : K) : a <> 0 -> fpow a half * fpow a half = 1.
  Proof.
    intros Ha. etransitivity; [|exact (fpow_fermat p Hp a Ha)]. rewrite <- fpow_add. f_equal. unfold half.
    pose proof p_gt1. pose proof (Z.div_mod p 4 ltac:(lia)) as D. rewrite H4 in D.
    replace ((p - 1) / 2)%Z with (2 * (p / 4) + 1)%Z by (apply Z.div_unique with 0%Z; lia). lia.
  Qed.
  Lemma half_cases (a : K) : a <> 0 -> fpow a half = 1 \/ fpow a half = - (1).
  Proof. intros Ha. apply fsq_eq. rewrite half_sq by auto. ring. Qed.
  Lemma half_of_sq (y : K) : y <> 0 -> fpow (y * y) half = 1.
  Proof. intros Hy. rewrite fpow_mul_base. apply half_sq; auto. Qed.
  Lemma one_neq_m1 : (1 : K) <> - (1).
  Proof.
    intros E. pose proof p_gt1. pose proof (Z.div_mod p 4 ltac:(lia)) as D. rewrite H4 in D.
    apply (f_equal (@fval p)) in E. cbn in E. rewrite Z.mod_1_l in E by lia.
    pose proof (Z.div_pos p 4 ltac:(lia) ltac:(lia)).
    rewrite <- (Z_mod_plus_full _ 1 p), Z.mul_1_l, Z.mod_small in E; lia.
  Qed.
  Lemma root_spec (a : K) : root a * root a = a <-> exists y : K, y * y = a.
  Proof.
    split; [eauto|]. intros [y E]. rewrite root_sq. destruct (feq_dec y 0) as [->|N].
    - rewrite <- E. ring.
    - rewrite <- E, half_of_sq by auto. ring.
  Qed.
  Lemma minus1_nonsquare (y : K) : y * y <> - (1).
  Proof. apply (no_sqrt_m1 p Hp H4). Qed.
  Lemma nonsquare_half (a : K) : (forall y : K, y * y <> a) -> fpow a half = - (1).
  Proof.
    intros N. assert (a <> 0) by (intros ->; apply (N 0); ring).
    destruct (half_cases a H) as [E|E]; auto. exfalso. apply (N (root a)). rewrite root_sq, E. ring.
  Qed.
  (** the product of two non-squares is a square *)
  Lemma nonsquares_mul (a b : K) : (forall y : K, y * y <> a) -> (forall y : K, y * y <> b) -> exists y : K, y * y = a * b.
  Proof.
    intros Na Nb. exists (root (a * b)). rewrite root_sq, fpow_mul_base, !nonsquare_half by auto. ring.
  Qed.
  Lemma square_dec (a : K) : (exists y : K, y * y = a) \/ (forall y : K, y * y <> a).
  Proof.
    destruct (feq_dec (root a * root a) a) as [E|N]; [left; eauto|]. right. intros y E. apply N, root_spec. eauto.
  Qed.
End Sqrt.
