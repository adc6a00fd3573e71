(** The addition chains of ModExp.sol compute x^(q-2) and x^((q+1)/4). *)
From Coq Require Import ZArith NArith List Lia Bool Ring Field.
From Verif.Base Require Import Fermat Pocklington Primes Fld Fp Fq2 Sqrt.
From Verif.Model Require Import Monad Evm ModExp HashEvm.
Import ListNotations.
Open Scope Z_scope.

(** exponents: None for a register not holding a power of the input *)
Definition eadd (a b : option N) : option N := match a, b with Some a, Some b => Some (a + b)%N | _, _ => None end.
Definition exponent (prog : list instr) (inp : nat) : option N := run_with eadd None prog inp (Some 1%N).

Section One.
  Variable K : Fld.
  Add Field Kone : (flaw K).
  Lemma pow1 (x : K) : x = fpow x 1.
  Proof. change 1%N with (N.succ 0). rewrite fpow_succ, fpow_0. ring. Qed.
End One.

Section Chain.
  Variable x : Fq.
  Definition rel (v : Z) (e : option N) : Prop := match e with Some e => v = fval (fpow x e : Fp q_mod) | None => True end.
  Lemma rel_nth l l' : Forall2 rel l l' -> forall k, rel (nth k l 0) (nth k l' None).
  Proof. induction 1; intros [|k]; cbn; auto. Qed.
  Lemma rel_set l l' : Forall2 rel l l' -> forall k a a', rel a a' -> Forall2 rel (set_nth k a l) (set_nth k a' l').
  Proof. induction 1; intros [|k] a a' H'; cbn; auto; constructor; auto. Qed.
  Lemma rel_mul a a' b b' : rel a a' -> rel b b' -> rel (mulmod a b modexp_n) (eadd a' b').
  Proof.
    destruct a' as [a'|], b' as [b'|]; cbn; auto. intros -> ->. rewrite fpow_add. reflexivity.
  Qed.
  Lemma rel_run prog inp : rel (run_with (fun a b => mulmod a b modexp_n) 0 prog inp (fval (x : Fp q_mod))) (exponent prog inp).
  Proof.
    unfold exponent, run_with. apply rel_nth.
    assert (S : Forall2 rel (set_nth inp (fval (x : Fp q_mod)) (repeat 0 10)) (set_nth inp (Some 1%N) (repeat None 10))).
    { apply rel_set; [repeat constructor|]. cbn [rel]. rewrite <- (pow1 Fq x). reflexivity. }
    revert S. generalize (set_nth inp (fval (x : Fp q_mod)) (repeat 0 10)) (set_nth inp (Some 1%N) (repeat None 10)).
    induction prog as [|[[t a] b] prog IH]; intros l l' S; cbn [fold_left]; auto.
    apply IH. unfold step_with. apply rel_set; auto. apply rel_mul; apply rel_nth; auto.
  Qed.
End Chain.

Lemma inverse_exponent : exponent ModexpInverse_prog 2 = Some (Z.to_N (q_mod - 2)).
Proof. vm_compute. reflexivity. Qed.
Lemma sqrt_exponent : exponent ModexpSqrt_prog 6 = Some (Z.to_N ((q_mod + 1) / 4)).
Proof. vm_compute. reflexivity. Qed.

Lemma Fp_inv_pow p (x : Fp p) : 2 < p -> fval (Fp_inv x) = fval x ^ (p - 2) mod p.
Proof.
  intros H. unfold Fp_inv. rewrite fval_of_Z. destruct (p - 2) as [|e|e] eqn:E; try lia. rewrite powm_spec, Zmod_mod. reflexivity.
Qed.
Theorem inverse_run (x : Fq) : ModexpInverse_run (fval (x : Fp q_mod)) = fval (unwrap_or (fq_invert x) f0 : Fp q_mod).
Proof.
  pose proof (rel_run x ModexpInverse_prog 2) as H. rewrite inverse_exponent in H. cbn [rel] in H. unfold ModexpInverse_run. rewrite H. clear H.
  f_equal. rewrite (fpow_of_Z q_mod q_prime). unfold fq_invert. destruct (feq_dec x f0) as [->|N]; cbn [unwrap_or].
  - apply Fp_ext. rewrite fval_of_Z. change (fval ((f0 : Fq) : Fp q_mod)) with 0. rewrite Z.pow_0_l by reflexivity. reflexivity.
  - apply Fp_ext. rewrite fval_of_Z, Z2N.id by discriminate. symmetry. exact (Fp_inv_pow q_mod x eq_refl).
Qed.
Theorem sqrt_run (x : Fq) : ModexpSqrt_run (fval (x : Fp q_mod)) = fval (root q_mod q_prime x : Fp q_mod).
Proof.
  pose proof (rel_run x ModexpSqrt_prog 6) as H. rewrite sqrt_exponent in H. cbn [rel] in H. unfold ModexpSqrt_run. rewrite H. reflexivity.
Qed.
