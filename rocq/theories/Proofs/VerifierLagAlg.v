(** What the words computed by the Lagrange part of the verifier are: any number of instances, any degree. *)
From Coq Require Import ZArith NArith List String Bool Lia Field.
From Verif.Base Require Import Fld Fp Primes Curves Group.
From Verif.Model Require Import Monad Evm Yul.
From Verif.Spec Require Import Plonk.
From Verif.Proofs Require Import VerifierTools VerifierLagrange.
Import ListNotations.
Open Scope Z_scope.

Section Alg.
  Variable K : Fld.
  Variable m1 : K.
  Variables n_inv omega omega_inv_l x : K.
  Variable N d : nat.
  Variable iv : nat -> K.
  Add Field Kf : (flaw K).
  Open Scope fld_scope.
  Hypothesis m1_eq : m1 = - (1).
  Notation M := (Nat.max N 1 + 6)%nat.
  Notation n := (2 ^ N.of_nat d)%N.
  Notation xn := (Nat.iter d (sq K) x).
  Notation pw := (pw K omega omega_inv_l).
  Hypothesis omega_l : omega_inv_l * fpow omega 6 = 1.
  Hypothesis omega_n : fpow omega n = 1.
  Hypothesis x_n : fpow x n <> 1.
  Lemma xn_pow : xn = fpow x n. Proof. apply sq_pow. Qed.
  Lemma g_pw_back k : (k <= 6)%nat -> pw (6 - k) = w_back K omega k.
  Proof.
    intros Hk. unfold w_back. apply inv_unique. rewrite pw_spec, <- omega_l.
    replace 6%N with (N.of_nat (6 - k) + N.of_nat k)%N by lia. rewrite fpow_add. ring.
  Qed.
  Lemma g_pw_at i : pw (6 + i) = w_at K omega i.
  Proof.
    unfold w_at. rewrite pw_spec. replace (N.of_nat (6 + i)) with (6 + N.of_nat i)%N by lia. rewrite fpow_add.
    transitivity (omega_inv_l * fpow omega 6 * fpow omega (N.of_nat i)); [ring|]. rewrite omega_l. ring.
  Qed.
  Lemma g_il_n : fpow omega_inv_l n = 1.
  Proof.
    assert (E : fpow (omega_inv_l * fpow omega 6) n = 1) by (rewrite omega_l; apply fpow_1).
    rewrite fpow_mul_base in E. rewrite <- E. replace (fpow (fpow omega 6) n) with (1 : K); [ring|].
    rewrite <- fpow_mul, N.mul_comm, fpow_mul, omega_n. symmetry. apply fpow_1.
  Qed.
  Lemma g_pw_n i : fpow (pw i) n = 1.
  Proof. rewrite pw_spec, fpow_mul_base, g_il_n, <- fpow_mul, N.mul_comm, fpow_mul, omega_n, fpow_1. ring. Qed.
  Definition g_den (i : nat) : K := if Nat.ltb i M then x + - pw i else xn + m1.
  Lemma g_den_nz i : g_den i <> 0.
  Proof.
    unfold g_den. destruct (Nat.ltb i M).
    - intros E. apply x_n. replace x with (pw i); [apply g_pw_n|]. symmetry. apply fsub_eq0. rewrite <- E. ring.
    - rewrite m1_eq, xn_pow. intros E. apply x_n. apply fsub_eq0. rewrite <- E. ring.
  Qed.
  Definition g_t (i : nat) : K := if Nat.ltb i M then (xn + m1) * n_inv * (binv g_den M i * pw i) else binv g_den M i.
  Lemma g_t_ok i : (i < M)%nat -> g_t i = lagrange K n n_inv (pw i) x.
  Proof.
    intros Hi. unfold g_t. replace (Nat.ltb i M) with true by (symmetry; apply Nat.ltb_lt, Hi).
    rewrite binv_ok; [|intros; apply g_den_nz|lia|lia]. unfold lagrange, g_den.
    replace (Nat.ltb i M) with true by (symmetry; apply Nat.ltb_lt, Hi).
    rewrite m1_eq, xn_pow, fdiv_def. replace (x + - pw i) with (x - pw i) by ring. ring.
  Qed.
  Lemma g_last : g_t 0 = l_last K omega n n_inv x.
  Proof. rewrite g_t_ok by lia. unfold l_last. change (pw 0) with (pw (6 - 6)). rewrite g_pw_back by lia. reflexivity. Qed.
  Lemma g_0 : g_t 6 = l_0 K n n_inv x.
  Proof. rewrite g_t_ok by lia. unfold l_0. change 6%nat with (6 + 0)%nat. rewrite g_pw_at. reflexivity. Qed.
  Lemma g_blind : g_t 1 + g_t 2 + g_t 3 + g_t 4 + g_t 5 = l_blind K omega n n_inv x.
  Proof.
    unfold l_blind. cbn [blinding seq map fold_right]. rewrite !g_t_ok by lia.
    change (pw 1) with (pw (6 - 5)). change (pw 2) with (pw (6 - 4)). change (pw 3) with (pw (6 - 3)). change (pw 4) with (pw (6 - 2)).
    change (pw 5) with (pw (6 - 1)). rewrite !g_pw_back by lia. ring.
  Qed.
  Lemma g_inv : g_t M = finv (fpow x n - 1).
  Proof.
    unfold g_t. rewrite Nat.ltb_irrefl. rewrite binv_ok; [|intros; apply g_den_nz|lia|lia].
    unfold g_den. rewrite Nat.ltb_irrefl, m1_eq, xn_pow. f_equal. ring.
  Qed.
  Lemma sum_snoc (l : list K) (a : K) : fold_right fadd 0 (l ++ [a])%list = fold_right fadd 0 l + a.
  Proof.
    induction l as [|b l IHl]; [cbn; ring|]. change (b + fold_right fadd 0 (l ++ [a])%list = b + fold_right fadd 0 l + a). rewrite IHl. ring.
  Qed.
  Fixpoint g_ie (i : nat) : K := match i with O => 0 | S i => g_ie i + g_t (6 + i)%nat * iv i end.
  Lemma g_ie_sum k : g_ie k = fold_right fadd 0 (map (fun i => g_t (6 + i)%nat * iv i) (seq 0 k)).
  Proof.
    induction k as [|k IH]; [reflexivity|]. rewrite seq_S, map_app. cbn [map]. rewrite sum_snoc, <- IH. reflexivity.
  Qed.
  Lemma g_insts : g_ie N = instance_at K omega n n_inv (map iv (seq 0 N)) x.
  Proof.
    rewrite g_ie_sum. unfold instance_at. rewrite map_length, seq_length, combine_map, map_map.
    f_equal. apply map_ext_in. intros i Hi. apply in_seq in Hi. cbn [fst snd]. rewrite g_t_ok by lia. rewrite g_pw_at. reflexivity.
  Qed.
End Alg.
