(** The domain and the cosets of the permutation. *)
From Coq Require Import ZArith NArith List Bool Lia Field.
From Verif.Base Require Import Fld Fp EC Primes Curves Group.
From Verif.Model Require Import Points Halo2VerifierSol.
From Verif.Spec Require Import Plonk PlonkVerifier.
From Verif.Proofs Require Import VerifierKey.
Import ListNotations.

Section F.
  Variable K : Fld.
  Add Field kf : (flaw K).
  Open Scope fld_scope.
  Lemma coset_disjoint (d w : K) (n q i j t a b : N) : fpow w n = 1 -> fpow d q <> 1 -> d <> 0 -> (q = t * (j - i) * n)%N -> (i <= j)%N ->
    fpow d i * fpow w a <> fpow d j * fpow w b.
  Proof.
    intros Hw Hd D Hq Hij E. apply Hd. rewrite Hq. apply (f_equal (fun v => fpow v n)) in E. rewrite !(fpow_mul_base K) in E.
    assert (W : forall a, fpow (fpow w a) n = 1).
    { intros c. rewrite <- (fpow_mul K), N.mul_comm, (fpow_mul K), Hw. apply (fpow_1_l K). }
    rewrite !W in E. replace j with (j - i + i)%N in E by lia. rewrite (fpow_add K), (fpow_mul_base K) in E.
    assert (N0 : fpow (fpow d i) n <> 0) by (apply (fpow_neq0 K); apply (fpow_neq0 K); exact D).
    assert (E1 : fpow (fpow d (j - i)) n = 1).
    { apply (fmul_cancel_l K (fpow (fpow d i) n) _ _ N0). replace (fpow (fpow d i) n * 1) with (fpow (fpow d i) n * 1) by reflexivity.
      rewrite E. ring. }
    replace (t * (j - i) * n)%N with ((j - i) * n * t)%N by lia. rewrite !(fpow_mul K), E1. apply (fpow_1_l K).
  Qed.
  Lemma root_order (w : K) (m : N) : fpow w m = - (1) -> 1 + 1 <> (0 : K) -> fpow w (m * 2) = 1 /\ fpow w m <> 1.
  Proof.
    intros E T. split.
    - rewrite (fpow_mul K), E. change 2%N with (N.succ (N.succ 0)). rewrite !(fpow_succ K), (fpow_0 K). ring.
    - rewrite E. intros X. apply T. transitivity (1 + - - (1) : K); [ring|]. rewrite X. ring.
  Qed.
End F.

Section Key.
  Variable k : vkey.
  Hypothesis Hd : domain_ok k.
  Lemma two_neq : (1 + 1 <> 0 :> Fr)%fld.
  Proof. apply (Fp_neq r_mod). reflexivity. Qed.
  Notation half := (2 ^ (N.of_nat (k_degree k) - 1))%N.
  Lemma half_key : fpow (k_omega k) half = (fopp f1 : Fr).
  Proof. exact (proj1 (proj2 Hd)). Qed.
  Lemma half_two : domain k = (half * 2)%N.
  Proof.
    unfold domain. destruct Hd as ((H & _) & _). replace (N.of_nat (k_degree k)) with (N.succ (N.of_nat (k_degree k) - 1)) at 1 by (clear -H; lia).
    rewrite N.pow_succ_r'. apply N.mul_comm.
  Qed.
  Lemma omega_order : fpow (k_omega k) (domain k) = (f1 : Fr) /\ fpow (k_omega k) half <> (f1 : Fr).
  Proof. rewrite half_two. exact (root_order Fr (k_omega k) half half_key two_neq). Qed.
  Lemma domain_divides : (2 ^ 28 = 2 ^ (28 - N.of_nat (k_degree k)) * domain k)%N.
  Proof.
    unfold domain. destruct Hd as ((_ & H) & _). rewrite <- N.pow_add_r. f_equal. clear -H. lia.
  Qed.
  Lemma delta_neq0 : delta <> (f0 : Fr).
  Proof. apply (Fp_neq r_mod). vm_compute. reflexivity. Qed.
  Definition quot (i j : nat) : N := (840 / (N.of_nat j - N.of_nat i))%N.
  Lemma quots : forallb (fun j => forallb (fun i => (840 =? quot i j * (N.of_nat j - N.of_nat i))%N) (seq 0 j)) (seq 0 9) = true.
  Proof. reflexivity. Qed.
  Lemma cosets_lt i j a b : (i < j < 9)%nat -> (fpow delta (N.of_nat i) * fpow (k_omega k) a <> fpow delta (N.of_nat j) * fpow (k_omega k) b)%fld.
  Proof.
    intros Hij. pose proof quots as Q. rewrite forallb_forall in Q. specialize (Q j ltac:(apply in_seq; lia)).
    rewrite forallb_forall in Q. specialize (Q i ltac:(apply in_seq; lia)). apply N.eqb_eq in Q.
    apply (coset_disjoint Fr delta (k_omega k) (domain k) (840 * 2 ^ 28) (N.of_nat i) (N.of_nat j) (quot i j * 2 ^ (28 - N.of_nat (k_degree k))) a b).
    - exact (proj1 omega_order). - exact delta_order. - exact delta_neq0. - rewrite domain_divides. rewrite Q at 1. rewrite !N.mul_assoc. f_equal. rewrite <- !N.mul_assoc. f_equal. apply N.mul_comm. - lia.
  Qed.
  Lemma cosets i j a b : (i < 9)%nat -> (j < 9)%nat -> i <> j -> (fpow delta (N.of_nat i) * fpow (k_omega k) a <> fpow delta (N.of_nat j) * fpow (k_omega k) b)%fld.
  Proof.
    intros Hi Hj N. destruct (Nat.lt_ge_cases i j) as [L|L]; [exact (cosets_lt i j a b (conj L Hj))|].
    assert (L' : (j < i)%nat) by (clear -L N; lia). intros E. exact (cosets_lt j i b a (conj L' Hi) (eq_sym E)).
  Qed.
End Key.
