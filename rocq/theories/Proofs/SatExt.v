(** Whether a circuit is satisfied depends on the cells of its five advice columns only; and every circuit has polynomials. *)
From Coq Require Import NArith List Lia Arith.
From Verif.Base Require Import Fld Poly.
From Verif.Spec Require Import Plonk PlonkCircuit.
From Verif.Proofs Require Import RowLagrange RowComplete.
Import ListNotations.

Section Ext.
  Variable K : Fld.
  Open Scope fld_scope.
  Variables mds mds_inv : nat -> nat -> K.
  Variable tag : K.
  Variable n : nat.
  Hypothesis n7 : (6 < n)%nat.
  Variable c : circuit K.
  Hypothesis Hc : circuit_ok K n c.
  Variable insts : list K.
  Variables advice advice' : nat -> nat -> K.
  Hypothesis E : forall j i, (j < 5)%nat -> (i < n)%nat -> advice j i = advice' j i.
  Lemma row_bound i r : (i < n)%nat -> (row_at n i r < n)%nat.
  Proof. intros L. destruct r; cbn [row_at]; try (apply Nat.mod_upper_bound; lia). exact L. Qed.
  Lemma cell_ext i j r : (i < n)%nat -> (j < 5)%nat -> cell K n c advice i (Adv j) r = cell K n c advice' i (Adv j) r.
  Proof. intros Li Lj. cbn [cell]. apply E; [exact Lj|]. apply row_bound. exact Li. Qed.
  Lemma copied_ext j i : (i < n)%nat -> copied K n c insts advice j i = copied K n c insts advice' j i.
  Proof.
    intros Li. unfold copied. do 5 (destruct j as [|j]; [cbn [permuted]; unfold a; apply cell_ext; [exact Li|lia]|]).
    do 4 (destruct j as [|j]; [reflexivity|]). reflexivity.
  Qed.
  Lemma sat_ext : satisfied K mds mds_inv tag n c insts advice -> satisfied K mds mds_inv tag n c insts advice'.
  Proof.
    assert (U : forall i, (i < usable n)%nat -> (i < n)%nat) by (unfold usable; intros; lia).
    intros (G & C & L). split; [|split].
    - intros i Li. specialize (G i Li). revert G. unfold gates, main_gate, full_round, partial_rounds, pad_and_add, middle, unmixed, a, f. cbn [map seq].
      rewrite !(fun j r Lj => cell_ext i j r Li Lj) by lia. exact (fun G => G).
    - intros j i Lj Li. destruct (Hc j i Lj Li) as (_ & B). rewrite <- !copied_ext by (apply U; assumption). exact (C j i Lj Li).
    - intros k i Lk Li. destruct (L k i Lk Li) as (i' & Li' & Ei). exists i'. split; [exact Li'|]. rewrite <- Ei. unfold looked_up.
      do 5 (destruct k as [|k]; [rewrite E by (try apply U; try assumption; lia); reflexivity|]). exfalso. lia.
  Qed.
End Ext.

Section Described.
  Variable K : Fld.
  Open Scope fld_scope.
  Variable n : nat.
  Hypothesis n7 : (6 < n)%nat.
  Variables omega n_inv delta : K.
  Hypothesis omega_n : fpow omega (N.of_nat n) = 1.
  Hypothesis omega_inj : forall i j, (i < n)%nat -> (j < n)%nat -> fpow omega (N.of_nat i) = fpow omega (N.of_nat j) -> i = j.
  Hypothesis n_inv_ok : n_inv * fsum (map (fun _ => 1 : K) (seq 0 n)) = 1.
  Variable c : circuit K.
  (** no column beyond those of the circuit *)
  Hypothesis Hfix : forall j i, (23 <= j)%nat -> fixed K c j i = 0.
  Lemma described : exists fx sg, describes K n omega delta c fx sg.
  Proof.
    destruct (cols_exist K n omega n_inv n7 omega_n omega_inj n_inv_ok 23 (fixed K c)) as (fx & F1 & F2).
    destruct (cols_exist K n omega n_inv n7 omega_n omega_inj n_inv_ok 9 (fun j i => fpow delta (N.of_nat (fst (partner K c j i))) * fpow omega (N.of_nat (snd (partner K c j i))))) as (sg & S1 & S2).
    exists (fun j => if (j <? 23)%nat then fx j else []), sg. split.
    - intros j. destruct (Nat.ltb_spec j 23) as [L|L].
      + split; [apply F1|]. intros i Li. apply F2; assumption.
      + split; [unfold short; cbn; lia|]. intros i _. rewrite Hfix by exact L. reflexivity.
    - intros j. split; [apply S1|]. intros i Lj Li. apply S2; [exact Lj|]. unfold usable in Li. lia.
  Qed.
End Described.
