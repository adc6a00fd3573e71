(** Where a hash of two values sits in the rows of a circuit, and what fixed cells and copies make it up: the layout of halo2_gadgets'
    Pow5Chip as src/dkg_circuit.rs:55-76 configures it (state in advice columns 0-2, S-box output in 3, round constants in fixed
    columns 12-14 and 15-17, constants in column 15, selectors in 20-22). *)
From Coq Require Import List Arith.
From Verif.Base Require Import Fld.
From Verif.Spec Require Import Plonk PlonkCircuit.
Import ListNotations.

Section Regions.
  Variable K : Fld.
  Open Scope fld_scope.
  Variable n : nat.
  Variable c : circuit K.
  (** the constants of round r, and the initial value of the third word *)
  Variable rc : nat -> nat -> K.
  Variable cap : K.

  (** cells, as column (0-4 advice, 5 instance, 6-8 the fixed columns 15-17) and row, that the copies make equal *)
  Inductive linked : nat * nat -> nat * nat -> Prop :=
  | linked_refl : forall p, linked p p
  | linked_next : forall p q, linked p q -> (fst q < 9)%nat -> (snd q < usable n)%nat -> linked p (partner K c (fst q) (snd q)).

  (** thirty-six rows: four full rounds, fifty-six partial rounds two by two, four full rounds; the result is in the row below *)
  Definition full_rows (b first : nat) : Prop := forall r, (r < 4)%nat ->
    fixed K c 20 (b + r) = 1 /\ forall j, (j < 3)%nat -> fixed K c (12 + j) (b + r) = rc (first + r) j.
  Definition partial_rows (b first : nat) : Prop := forall r, (r < 28)%nat ->
    fixed K c 21 (b + r) = 1 /\ forall j, (j < 3)%nat ->
      fixed K c (12 + j) (b + r) = rc (first + 2 * r) j /\ fixed K c (15 + j) (b + r) = rc (first + 2 * r + 1) j.
  Definition permutation_region (b : nat) : Prop :=
    (b + 36 < n)%nat /\ full_rows b 0 /\ partial_rows (b + 4) 4 /\ full_rows (b + 32) 60.
  (** three rows: the state, the input, the sum *)
  Definition addition_region (b : nat) : Prop := (b + 2 < n)%nat /\ fixed K c 22 (b + 1) = 1.

  (** a hash of the cells x and y: the initial state in row i, the addition at row a, the permutation at row b *)
  Definition hash_region (x y : nat * nat) (i a b : nat) : Prop :=
    addition_region a /\ permutation_region b /\
    (forall j, (j < 3)%nat -> exists k, fixed K c 15 k = (if (j =? 2)%nat then cap else 0) /\ linked (j, i) (6, k)%nat) /\
    (forall j, (j < 3)%nat -> linked (j, a) (j, i)) /\
    linked (0, a + 1)%nat x /\ linked (1, a + 1)%nat y /\
    (forall j, (j < 3)%nat -> linked (j, b) (j, a + 2)%nat).
  Definition hash_output (b : nat) : nat * nat := (0, b + 36)%nat.

  (** the value in a cell *)
  Definition value (insts : list K) (advice : nat -> nat -> K) (p : nat * nat) : K := copied K n c insts advice (fst p) (snd p).
End Regions.
