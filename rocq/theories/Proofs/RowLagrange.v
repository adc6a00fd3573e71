(** The Lagrange polynomials of the rows, and the points of a row. *)
From Coq Require Import ZArith NArith Nnat List Lia Field Bool.
From Verif.Base Require Import Fld Fp Poly.
From Verif.Spec Require Import Few Plonk PlonkCircuit.
From Verif.Proofs Require Import FewProofs.
Import ListNotations.

Section Rows.
  Variable K : Fld.
  Open Scope fld_scope.
  Add Field kf : (flaw K).
  Variable n : nat.
  Variables omega n_inv : K.
  Hypothesis n7 : (6 < n)%nat.
  Hypothesis omega_n : fpow omega (N.of_nat n) = 1.
  Hypothesis omega_inj : forall i j, (i < n)%nat -> (j < n)%nat -> fpow omega (N.of_nat i) = fpow omega (N.of_nat j) -> i = j.
  Hypothesis n_inv_ok : n_inv * fsum (map (fun _ => 1 : K) (seq 0 n)) = 1.
  Notation w i := (fpow omega (N.of_nat i)).
  Notation u := (usable n).
  Lemma w_eq i : w_at K omega i = w i. Proof. reflexivity. Qed.
  Lemma w_add i j : w (i + j) = w i * w j.
  Proof. rewrite Nat2N.inj_add. apply fpow_add. Qed.
  Lemma w_0 : w 0 = 1. Proof. reflexivity. Qed.
  Lemma w_mul_n q : w (n * q) = 1.
  Proof. rewrite Nat2N.inj_mul, (fpow_mul K), omega_n. apply fpow_1_l. Qed.
  Lemma w_mod i : w (i mod n) = w i.
  Proof. rewrite (Nat.div_mod i n) at 2 by lia. rewrite w_add, w_mul_n. ring. Qed.
  Lemma omega_neq0 : omega <> 0.
  Proof.
    intros E. apply (f1_neq_0 K). rewrite <- omega_n, E. destruct n as [|m]; [lia|]. rewrite Nat2N.inj_succ, fpow_succ. ring.
  Qed.
  Lemma w_neq0 i : w i <> 0. Proof. apply fpow_neq0. exact omega_neq0. Qed.
  Lemma finv_eq (a b : K) : a * b = 1 -> finv a = b.
  Proof.
    intros E. assert (N0 : a <> 0) by (intros X; apply (f1_neq_0 K); rewrite <- E, X; ring).
    apply (fmul_cancel_l K a _ _ N0). rewrite E. field. exact N0.
  Qed.
  Lemma w_back_eq i : (i <= n)%nat -> w_back K omega i = w (n - i).
  Proof.
    intros L. unfold w_back. apply finv_eq. rewrite <- w_add. replace (i + (n - i))%nat with n by lia. exact omega_n.
  Qed.
  Lemma point_row i r : point K omega (w i) r = w (row_at n i r).
  Proof.
    destruct r; cbn [point row_at].
    - rewrite w_back_eq, w_mod, <- w_add by lia. reflexivity.
    - reflexivity.
    - rewrite w_mod, w_add. change (N.of_nat 1) with (N.succ 0). rewrite fpow_succ, fpow_0. ring.
    - rewrite w_back_eq, w_mod, <- w_add by (unfold blinding; lia). reflexivity.
  Qed.

  (** *** Lagrange *)
  Definition geo (t : K) (m : nat) : K := fsum (map (fun j => fpow t (N.of_nat j)) (seq 0 m)).
  Lemma geo_S t m : geo t (S m) = geo t m + fpow t (N.of_nat m).
  Proof. unfold geo. rewrite seq_S, map_app, fsum_app. cbn [map Nat.add]. rewrite fsum_cons, fsum_nil. ring. Qed.
  Lemma geo_ok t m : (t - 1) * geo t m = fpow t (N.of_nat m) - 1.
  Proof.
    induction m as [|m IH]; [unfold geo; cbn; ring|]. rewrite geo_S, Nat2N.inj_succ, fpow_succ.
    transitivity ((t - 1) * geo t m + (t - 1) * fpow t (N.of_nat m)); [ring|]. rewrite IH. ring.
  Qed.
  Definition Lp (v X : K) : K := n_inv * geo (X * finv v) n.
  Lemma pf_Lp v : polyfun K (n - 1) (Lp v).
  Proof.
    apply pf_scale. apply (pf_sum K (n - 1) (seq 0 n) (fun j X => fpow (X * finv v) (N.of_nat j))). intros j Hj. apply in_seq in Hj.
    apply (pf_le K j); [lia|]. exact (pf_dilate K j (finv v) _ (pf_pow K j)).
  Qed.
  Lemma Lp_lagrange v X : v <> 0 -> fpow v (N.of_nat n) = 1 -> X <> v -> lagrange K (N.of_nat n) n_inv v X = Lp v X.
  Proof.
    intros V0 V D. assert (N0 : X - v <> 0) by (intros E; apply D; apply (fsub_eq0 K); exact E).
    unfold lagrange, Lp. pose proof (geo_ok (X * finv v) n) as G. rewrite (fpow_mul_base K) in G.
    assert (I : fpow (finv v) (N.of_nat n) = 1).
    { transitivity (fpow (finv v) (N.of_nat n) * fpow v (N.of_nat n)); [rewrite V; ring|]. rewrite <- fpow_mul_base, (finv_l K v V0). apply fpow_1_l. }
    rewrite I in G. assert (E : fpow X (N.of_nat n) - 1 = (X * finv v - 1) * geo (X * finv v) n) by (rewrite G; ring).
    rewrite E. field. split; [exact V0|exact N0].
  Qed.
  Lemma Lp_row k i : (k < n)%nat -> (i < n)%nat -> Lp (w k) (w i) = if Nat.eqb i k then 1 else 0.
  Proof.
    intros Lk Li. unfold Lp. destruct (Nat.eqb_spec i k) as [->|D].
    - refine (eq_trans _ n_inv_ok). unfold geo. apply f_equal. apply f_equal. apply map_ext. intros j.
      replace (w k * finv (w k)) with (1 : K) by (field; apply w_neq0). apply fpow_1_l.
    - assert (T : w i * finv (w k) - 1 <> 0).
      { intros E. apply D. apply (omega_inj i k Li Lk). transitivity (w k * (w i * finv (w k) - 1) + w k); [field; apply w_neq0|]. rewrite E. ring. }
      assert (G : (w i * finv (w k) - 1) * geo (w i * finv (w k)) n = 0).
      { rewrite geo_ok, (fpow_mul_base K). rewrite <- (fpow_mul K), N.mul_comm, (fpow_mul K), omega_n, fpow_1_l.
        assert (I : fpow (finv (w k)) (N.of_nat n) = 1).
        { transitivity (fpow (finv (w k)) (N.of_nat n) * fpow (w k) (N.of_nat n)).
          - rewrite <- (fpow_mul K omega), N.mul_comm, (fpow_mul K), omega_n, fpow_1_l. ring.
          - rewrite <- fpow_mul_base, (finv_l K _ (w_neq0 k)). apply fpow_1_l. }
        rewrite I. ring. }
      apply fmul_eq0 in G as [G|G]; [contradiction|]. rewrite G. ring.
  Qed.

  (** *** the four Lagrange values and the instance *)
  Definition Linst (insts : list K) (X : K) : K :=
    fold_right fadd 0 (map (fun p => Lp (w (fst p)) X * snd p) (combine (seq 0 (length insts)) insts)).
  Definition Lblind (X : K) : K := fold_right fadd 0 (map (fun i => Lp (w (n - i)) X) (seq 1 blinding)).
  Lemma w_root i : fpow (w i) (N.of_nat n) = 1.
  Proof. rewrite <- (fpow_mul K), N.mul_comm, (fpow_mul K), omega_n. apply fpow_1_l. Qed.
  Lemma off_domain X i : fpow X (N.of_nat n) <> 1 -> X <> w i.
  Proof. intros H E. apply H. rewrite E. apply w_root. Qed.
  Section Off.
    Variable X : K.
    Hypothesis HX : fpow X (N.of_nat n) <> 1.
    Lemma off_lag i : lagrange K (N.of_nat n) n_inv (w i) X = Lp (w i) X.
    Proof. apply Lp_lagrange; [apply w_neq0|apply w_root|apply off_domain; exact HX]. Qed.
    Lemma off_0 : l_0 K (N.of_nat n) n_inv X = Lp (w 0) X.
    Proof. exact (off_lag 0). Qed.
    Lemma off_last : l_last K omega (N.of_nat n) n_inv X = Lp (w u) X.
    Proof. unfold l_last. rewrite w_back_eq by (unfold blinding; lia). apply off_lag. Qed.
    Lemma off_blind : l_blind K omega (N.of_nat n) n_inv X = Lblind X.
    Proof.
      unfold l_blind, Lblind. apply f_equal. apply map_ext_in. intros i Hi. apply in_seq in Hi. rewrite w_back_eq by (unfold blinding in Hi; lia). apply off_lag.
    Qed.
    Lemma off_inst insts : instance_at K omega (N.of_nat n) n_inv insts X = Linst insts X.
    Proof. unfold instance_at, Linst. apply f_equal. apply map_ext. intros p. rewrite w_eq, off_lag. reflexivity. Qed.
  End Off.
  Lemma row_inst_gen i : (i < n)%nat -> forall insts k, (k + length insts <= n)%nat ->
    fold_right fadd 0 (map (fun p => Lp (w (fst p)) (w i) * snd p) (combine (seq k (length insts)) insts)) = if Nat.leb k i then nth (i - k) insts 0 else 0.
  Proof.
    intros Li. induction insts as [|v insts IH]; intros k L; cbn [length seq combine map fold_right fst snd].
    - destruct (Nat.leb k i); [|reflexivity]. destruct (i - k)%nat; reflexivity.
    - cbn [length] in L. rewrite IH by lia. rewrite Lp_row by lia.
      destruct (Nat.eqb_spec i k) as [->|D].
      + rewrite Nat.leb_refl, Nat.sub_diag. cbn [nth]. destruct (Nat.leb_spec (S k) k); [lia|]. ring.
      + destruct (Nat.leb_spec k i) as [G|G].
        * destruct (Nat.leb_spec (S k) i) as [G'|G']; [|lia]. replace (i - k)%nat with (S (i - S k)) by lia. cbn [nth]. ring.
        * destruct (Nat.leb_spec (S k) i) as [G'|G']; [lia|]. ring.
  Qed.
  Lemma row_inst insts i : (i < n)%nat -> (length insts <= n)%nat -> Linst insts (w i) = nth i insts 0.
  Proof. intros Li L. unfold Linst. rewrite (row_inst_gen i Li insts 0 L). cbn [Nat.leb]. rewrite Nat.sub_0_r. reflexivity. Qed.
  Lemma row_blind i : (i < n)%nat -> Lblind (w i) = if Nat.ltb u i then 1 else 0.
  Proof.
    intros Li. unfold Lblind. change (seq 1 blinding) with [1; 2; 3; 4; 5]%nat. cbn [map fold_right].
    rewrite !Lp_row by lia. unfold usable, blinding.
    assert (C : (i < n - 6 \/ i = n - 6 \/ i = n - 5 \/ i = n - 4 \/ i = n - 3 \/ i = n - 2 \/ i = n - 1)%nat) by lia.
    destruct (Nat.ltb_spec (n - (5 + 1)) i) as [G|G];
      repeat match goal with |- context [Nat.eqb i ?b] => destruct (Nat.eqb_spec i b); try lia end; try ring.
  Qed.
End Rows.
