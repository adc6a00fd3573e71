(** A circuit with one copy: the first cell of the first advice column is the first instance. *)
From Coq Require Import NArith List Lia Arith Field.
From Verif.Base Require Import Fld Poly.
From Verif.Spec Require Import Plonk PlonkCircuit.
From Verif.Proofs Require Import RowLagrange RowComplete.
Import ListNotations.

Section Example.
  Variable K : Fld.
  Open Scope fld_scope.
  Add Field kf : (flaw K).
  Lemma one_const (X : K) : peval [1] X = 1. Proof. cbn. ring. Qed.
  Definition swap (j i : nat) : nat * nat :=
    match i with
    | O => match j with O => (5, 0) | 5 => (0, 0) | _ => (j, i) end
    | _ => (j, i)
    end%nat.
  Definition copy_circuit : circuit K := Circuit K (fun _ _ => 0) swap.
  Lemma swap_bound n j i : (j < 9)%nat -> (i < n)%nat -> (fst (swap j i) < 9)%nat /\ (snd (swap j i) < n)%nat.
  Proof. intros Lj Li. unfold swap. destruct i; [|split; assumption]. do 6 (destruct j as [|j]; [cbn [fst snd]; lia|]). cbn [fst snd]. lia. Qed.
  Lemma swap_swap j i : swap (fst (swap j i)) (snd (swap j i)) = (j, i).
  Proof. destruct i; [|reflexivity]. do 6 (destruct j as [|j]; [reflexivity|]). reflexivity. Qed.
  Lemma copy_ok n : circuit_ok K n copy_circuit.
  Proof. intros j i Lj Li. exact (swap_bound (usable n) j i Lj Li). Qed.
  Lemma copy_cycles n : cycles K n copy_circuit.
  Proof.
    intros j i j' i' _ _ _ _ E. assert (E' : (j, i) = (j', i')).
    { rewrite <- (swap_swap j i), <- (swap_swap j' i'). cbn [partner copy_circuit] in E. rewrite E. reflexivity. }
    split; [exact (f_equal fst E')|exact (f_equal snd E')].
  Qed.
  Variables mds mds_inv : nat -> nat -> K.
  Variable tag : K.
  Variable n : nat.
  Hypothesis n7 : (6 < n)%nat.
  Variable insts : list K.
  Variable advice : nat -> nat -> K.
  Lemma copy_satisfied : satisfied K mds mds_inv tag n copy_circuit insts advice <-> advice 0%nat 0%nat = nth 0 insts 0.
  Proof.
    assert (U : (0 < usable n)%nat) by (unfold usable, blinding; lia). split.
    - intros (_ & H & _). exact (H 0%nat 0%nat ltac:(lia) U).
    - intros E. split; [|split].
      + intros i _. apply Forall_forall. intros v Hv. unfold gates in Hv. cbn [app map seq In partial_rounds pad_and_add] in Hv.
        repeat (destruct Hv as [<-|Hv]; [unfold main_gate, full_round, f, a; cbn [cell copy_circuit fixed]; ring|]). destruct Hv.
      + intros j i Lj Li. destruct i as [|i]; [|reflexivity].
        do 6 (destruct j as [|j]; [first [reflexivity|exact E|exact (eq_sym E)]|]). reflexivity.
      + intros k i Lk Li. exists 0%nat. split; [exact U|]. unfold looked_up, table_row. cbn [copy_circuit fixed].
        do 5 (destruct k as [|k]; [f_equal; ring|]). exfalso. lia.
  Qed.
  Variables omega n_inv delta : K.
  Hypothesis omega_n : fpow omega (N.of_nat n) = 1.
  Hypothesis omega_inj : forall i j, (i < n)%nat -> (j < n)%nat -> fpow omega (N.of_nat i) = fpow omega (N.of_nat j) -> i = j.
  Hypothesis n_inv_ok : n_inv * fsum (map (fun _ => 1 : K) (seq 0 n)) = 1.
  Lemma copy_described : exists sg, describes K n omega delta copy_circuit (fun _ => []) sg.
  Proof.
    destruct (cols_exist K n omega n_inv n7 omega_n omega_inj n_inv_ok 9 (fun j i => fpow delta (N.of_nat (fst (swap j i))) * fpow omega (N.of_nat (snd (swap j i))))) as (sg & S1 & S2).
    exists sg. split.
    - intros j. split; [unfold short; cbn; lia|]. intros i _. reflexivity.
    - intros j. split; [apply S1|]. intros i Lj Li. apply S2; [exact Lj|]. unfold usable in Li. lia.
  Qed.
End Example.
