(** A function with the pairing check's behaviour exists (so hypotheses [pairing_ok] are not empty). *)
From Coq Require Import ZArith List Bool Lia.
From Verif.Base Require Import Fld Fp EC Primes Curves Group Fermat.
From Verif.Model Require Import Monad Evm Points Dkg.
From Verif.Spec Require Import Dvrf.
From Verif.Proofs Require Import DkgProofs.
Import ListNotations.
Open Scope Z_scope.

Section Find.
  Context {A : Type} (eqb : A -> A -> bool) (f : Fr -> A).
  Hypothesis eqb_eq : forall a b, eqb a b = true <-> a = b.
  Hypothesis f_inj : forall x y, f x = f y -> x = y.
  Definition dl (l : list Z) (a : A) : option Fr :=
    match find (fun k => eqb (f (fr k)) a) l with Some k => Some (fr k) | None => None end.
  Lemma dl_ok l : (forall x : Fr, exists k, In k l /\ fr k = x) -> forall x, dl l (f x) = Some x.
  Proof.
    intros H x. unfold dl. destruct (find _ l) as [k|] eqn:E.
    - apply find_some in E as [_ E]. apply eqb_eq in E. apply f_inj in E. congruence.
    - destruct (H x) as (k & I & Ek). pose proof (find_none _ _ E k I) as N. cbn beta in N. rewrite Ek in N.
      rewrite (proj2 (eqb_eq _ _) eq_refl) in N. discriminate.
  Qed.
End Find.

Definition pair_check (l : list Z) (ps : list (G1 * G2c)) : bool :=
  feqb (fsum (map (fun '(P, Q) => match dl geqb (g1mul g1) l P, dl geqb (g2mul g2) l Q with Some a, Some b => (a * b)%fld | _, _ => (f0 : Fr) end) ps)) (f0 : Fr).

Lemma pair_check_ok l : (forall x : Fr, exists k, In k l /\ fr k = x) -> pairing_ok (pair_check l).
Proof.
  intros H ps. unfold pair_check. f_equal. f_equal. rewrite map_map. apply map_ext. intros [a b].
  rewrite (dl_ok geqb (g1mul g1) (geqb_eq G1) (fun x y => g1mul_inj g1 x y g1_neq0) l H).
  rewrite (dl_ok geqb (g2mul g2) (geqb_eq G2c) g2mul_inj l H). reflexivity.
Qed.
Lemma all_scalars n : (Z.of_nat n = r_mod) -> forall x : Fr, exists k, In k (0 :: zseq n) /\ fr k = x.
Proof.
  intros Hn x. exists (fval (x : Fp r_mod)). pose proof (fval_range r_mod x eq_refl). split.
  - destruct (Z.eq_dec (fval (x : Fp r_mod)) 0) as [->|N]; [left; auto|]. right. apply in_zseq. lia.
  - apply of_Z_fval.
Qed.
Theorem pairing_exists : exists pairing, pairing_ok pairing.
Proof.
  destruct (Z_of_nat_complete r_mod) as [n Hn]; [discriminate|]. exists (pair_check (0 :: zseq n)). apply pair_check_ok, all_scalars. auto.
Qed.
