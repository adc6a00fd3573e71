(** Squares modulo an odd prime: at most half of the non-zero elements satisfy x^((p-1)/2) = 1, and the squares already are
    that many; hence the product of two non-squares is a square (mathematics). *)
From Coq Require Import ZArith NArith Nnat Znumtheory List Lia Ring Field Bool.
From Verif.Base Require Import Fermat Primes Fld Fp Fq2 Poly.
Import ListNotations.
Open Scope Z_scope.

Section Euler.
  Variable p : Z.
  Hypothesis Hp : prime p.
  Hypothesis Hodd : Z.odd p = true.
  Let K := FpFld p Hp.
  Add Field KfE : (flaw K).
  Open Scope fld_scope.
  Definition eh : nat := Z.to_nat ((p - 1) / 2).

  Lemma p_gt2 : (2 < p)%Z.
  Proof. pose proof (prime_ge_2 p Hp) as H. destruct (Z.eq_dec p 2) as [E|]; [rewrite E in Hodd; discriminate|lia]. Qed.
  Lemma eh_eq : (2 * Z.of_nat eh + 1 = p)%Z.
  Proof.
    pose proof p_gt2. unfold eh. rewrite Z2Nat.id by (apply Z.div_pos; lia). pose proof Hodd as O. rewrite Zodd_mod in O. apply Zeq_bool_eq in O.
    pose proof (Z.div_mod p 2 ltac:(lia)) as D. rewrite O in D. replace ((p - 1) / 2)%Z with (p / 2)%Z; [lia|]. apply Z.div_unique with 0%Z; lia.
  Qed.
  Lemma eh_sq (a : K) : a <> 0 -> fpow a (N.of_nat eh) * fpow a (N.of_nat eh) = 1.
  Proof.
    intros Ha. etransitivity; [|exact (fpow_fermat p Hp a Ha)]. rewrite <- fpow_add. f_equal. pose proof eh_eq. lia.
  Qed.
  Lemma eh_cases (a : K) : a <> 0 -> fpow a (N.of_nat eh) = 1 \/ fpow a (N.of_nat eh) = - (1).
  Proof. intros Ha. apply fsq_eq. rewrite eh_sq by auto. ring. Qed.
  Lemma eh_of_sq (y : K) : y <> 0 -> fpow (y * y) (N.of_nat eh) = 1.
  Proof. intros Hy. rewrite fpow_mul_base. apply eh_sq; auto. Qed.

  (** X^h - 1 as a coefficient list *)
  Definition xh1 (h : nat) : list K := match h with O => [] | S m => - (1) :: repeat 0 m ++ [1] end.
  Lemma peval_shift m : forall x : K, peval (repeat (0 : K) m ++ [1]) x = fpow x (N.of_nat m).
  Proof.
    induction m as [|m IH]; intros x; [cbn [repeat app peval N.of_nat fpow]; ring|]. cbn [repeat app peval]. rewrite IH, Nat2N.inj_succ, fpow_succ. ring.
  Qed.
  Lemma peval_xh1 h (x : K) : (0 < h)%nat -> peval (xh1 h) x = fpow x (N.of_nat h) - 1.
  Proof. destruct h as [|m]; [lia|]. intros _. unfold xh1. cbn [peval]. rewrite peval_shift, Nat2N.inj_succ, fpow_succ. ring. Qed.

  Definition el (i : Z) : K := of_Z p i.
  Definition sqs : list K := map (fun i => el i * el i) (zseq eh).
  Lemma of_Z_neq0 i : (0 < i < p)%Z -> el i <> 0.
  Proof.
    intros H E. apply (f_equal (fun x : K => fval (x : Fp p))) in E. unfold el in E. pose proof (fval_of_Z p i) as X. rewrite X in E. change (fval (0 : K)) with (0 mod p)%Z in E. rewrite Zmod_0_l, Z.mod_small in E; lia.
  Qed.
  Lemma NoDup_sqs : NoDup sqs.
  Proof.
    unfold sqs. assert (G : forall l, NoDup l -> (forall i, In i l -> (1 <= i <= Z.of_nat eh)%Z) -> NoDup (map (fun i => el i * el i) l)).
    { induction 1 as [|i l Ni Nd IH]; intros R; cbn [map]; constructor; [|apply IH; intros; apply R; right; auto].
      intros I. apply in_map_iff in I as (j & E & I). pose proof (R i (or_introl eq_refl)) as Ri. pose proof (R j (or_intror I)) as Rj. pose proof eh_eq.
      apply fsq_eq in E as [E|E].
      - apply (f_equal (fun x : K => fval (x : Fp p))) in E. unfold el in E. rewrite !fval_of_Z, !Z.mod_small in E by lia. subst j. contradiction.
      - assert (Z0 : el (j + i) = 0) by (transitivity (el j + el i); [exact (of_Z_add p j i)|rewrite E; ring]). revert Z0. apply of_Z_neq0. lia. }
    apply G; [apply NoDup_zseq|]. intros i I. apply in_zseq in I. lia.
  Qed.
  Lemma square_in_sqs (a : K) : In a sqs -> exists y : K, y * y = a.
  Proof. unfold sqs. intros I. apply in_map_iff in I as (i & E & _). eauto. Qed.
  Lemma euler (a : K) : fpow a (N.of_nat eh) = 1 -> exists y : K, y * y = a.
  Proof.
    intros E. pose proof p_gt2. pose proof eh_eq. assert (L : length sqs = eh) by (unfold sqs; rewrite map_length; apply length_zseq).
    destruct (in_dec feq_dec a sqs) as [I|N]; [exact (square_in_sqs a I)|]. exfalso.
    assert (X : (1 : K) = 0).
    { apply (roots_zero K (xh1 eh) (a :: sqs)).
      - constructor; [exact N|exact NoDup_sqs].
      - cbn [length]. rewrite L. unfold xh1. destruct eh; [lia|]. cbn [length]. rewrite app_length, repeat_length. cbn. lia.
      - intros x I. rewrite peval_xh1 by lia. destruct I as [<-|I]; [rewrite E; ring|].
        unfold sqs in I. apply in_map_iff in I as (i & <- & I). apply in_zseq in I. rewrite eh_of_sq by (apply of_Z_neq0; lia). ring.
      - unfold xh1. destruct eh; [lia|]. right. apply in_or_app. right. left. reflexivity. }
    exact (f1_neq_0 K X).
  Qed.
  Theorem odd_nonsquares_mul (a b : K) : (forall y : K, y * y <> a) -> (forall y : K, y * y <> b) -> exists y : K, y * y = a * b.
  Proof.
    intros Na Nb. assert (a <> 0) by (intros ->; apply (Na 0); ring). assert (b <> 0) by (intros ->; apply (Nb 0); ring).
    apply euler. rewrite fpow_mul_base.
    destruct (eh_cases a) as [E|E]; auto. { apply euler in E as [y E]. destruct (Na y E). }
    destruct (eh_cases b) as [E'|E']; auto. { apply euler in E' as [y E']. destruct (Nb y E'). }
    rewrite E, E'. ring.
  Qed.
  Theorem odd_square_dec (a : K) : {exists y : K, y * y = a} + {forall y : K, y * y <> a}.
  Proof.
    destruct (feq_dec a 0) as [->|N]; [left; exists 0; ring|]. destruct (feq_dec (fpow a (N.of_nat eh)) 1) as [E|E]; [left; apply euler; exact E|].
    right. intros y Ey. apply E. rewrite <- Ey. apply eh_of_sq. intros ->. apply N. rewrite <- Ey. ring.
  Qed.
  (** a square-root function exists *)
  Definition search_sqrt (a : K) : option K := find (fun y : K => feqb (y * y) a) (map el (0%Z :: zseq (Z.to_nat p))).
  Lemma search_sqrt_some (a y : K) : search_sqrt a = Some y -> y * y = a.
  Proof. unfold search_sqrt. intros E. apply find_some in E as [_ E]. apply feqb_eq in E. exact E. Qed.
  Lemma search_sqrt_none (a : K) : search_sqrt a = None -> ~ exists y : K, y * y = a.
  Proof.
    unfold search_sqrt. intros E [y Ey]. assert (I : In y (map el (0%Z :: zseq (Z.to_nat p)))).
    { apply in_map_iff. exists (fval (y : Fp p)). split; [exact (of_Z_fval p y)|]. pose proof (fval_range p y ltac:(pose proof p_gt2; lia)) as R.
      destruct (Z.eq_dec (fval (y : Fp p)) 0) as [->|]; [left; reflexivity|]. right. apply in_zseq. lia. }
    pose proof (find_none _ _ E y I) as F. cbv beta in F. rewrite Ey, feqb_refl in F. discriminate F.
  Qed.
End Euler.
