(** The circuit the proof is about, row by row: what an assignment of the columns must satisfy.  Nothing here mentions
    polynomials, commitments or challenges. *)
From Coq Require Import NArith List Arith.
From Verif.Base Require Import Fld Poly.
From Verif.Spec Require Import Plonk.
Import ListNotations.

Section Circuit.
  Variable K : Fld.
  Open Scope fld_scope.
  Variables mds mds_inv : nat -> nat -> K.
  Variable tag : K.
  (** number of rows; the last six are not part of the circuit *)
  Variable n : nat.
  Definition usable : nat := n - (blinding + 1).
  (** the fixed columns, and for each cell of the nine columns that take part in copies the next cell of its cycle *)
  Record circuit := Circuit { fixed : nat -> nat -> K; partner : nat -> nat -> nat * nat }.
  Definition circuit_ok (c : circuit) : Prop :=
    forall j i, (j < 9)%nat -> (i < usable)%nat -> (fst (partner c j i) < 9)%nat /\ (snd (partner c j i) < usable)%nat.

  (** no cell is the partner of two others: the cells fall into cycles *)
  Definition cycles (c : circuit) : Prop :=
    forall j i j' i', (j < 9)%nat -> (i < usable)%nat -> (j' < 9)%nat -> (i' < usable)%nat -> partner c j i = partner c j' i' -> j = j' /\ i = i'.

  Variable c : circuit.
  (** the instance, zero below the values given, and the five advice columns *)
  Variable insts : list K.
  Variable advice : nat -> nat -> K.
  (** rows are read cyclically *)
  Definition row_at (i : nat) (r : rot) : nat :=
    match r with Prev => (i + (n - 1)) mod n | Cur => i | Next => (i + 1) mod n | Last => (i + usable) mod n end.
  Definition cell (i : nat) (cl : col) (r : rot) : K :=
    match cl with Adv j => advice j (row_at i r) | Fix_ j => fixed c j (row_at i r) | _ => 0 end.
  (** the gates, on every row *)
  Definition gates (i : nat) : list K :=
    [main_gate K (cell i)] ++ map (full_round K mds (cell i)) (seq 0 3) ++ partial_rounds K mds mds_inv (cell i) ++ pad_and_add K (cell i).
  Definition gates_hold : Prop := forall i, (i < n)%nat -> Forall (fun v => v = 0) (gates i).
  (** the copies *)
  Definition copied (j i : nat) : K := permuted K (cell i) (nth i insts 0) j.
  Definition copies_hold : Prop := forall j i, (j < 9)%nat -> (i < usable)%nat -> copied j i = copied (fst (partner c j i)) (snd (partner c j i)).
  (** the lookups: each pair is a row of the table *)
  Definition looked_up (k i : nat) : K * K :=
    match k with
    | 4%nat => (fixed c 11 i, fixed c 19 i * advice 0%nat i)
    | _ => (fixed c 18 i * tag, fixed c 18 i * advice k i)
    end.
  Definition table_row (i : nat) : K * K := (fixed c 9 i, fixed c 10 i).
  Definition lookups_hold : Prop := forall k i, (k < 5)%nat -> (i < usable)%nat -> exists i', (i' < usable)%nat /\ looked_up k i = table_row i'.
  Definition satisfied : Prop := gates_hold /\ copies_hold /\ lookups_hold.
End Circuit.

(** ** Columns as polynomials *)
Section Columns.
  Variable K : Fld.
  Open Scope fld_scope.
  Variables (n : nat) (omega delta : K).
  Definition short (P : list K) : Prop := (length P <= n)%nat.
  (** the value of a column, given by the coefficients of its polynomial, in a row *)
  Definition in_row (P : list K) (i : nat) : K := peval P (fpow omega (N.of_nat i)).
  (** polynomials of the circuit: those of the fixed columns, and those that give for each cell the label of its partner *)
  Definition describes (c : circuit K) (fx sg : nat -> list K) : Prop :=
    (forall j, short (fx j) /\ forall i, (i < n)%nat -> in_row (fx j) i = fixed K c j i) /\
    (forall j, short (sg j) /\ forall i, (j < 9)%nat -> (i < usable n)%nat ->
       in_row (sg j) i = fpow delta (N.of_nat (fst (partner K c j i))) * fpow omega (N.of_nat (snd (partner K c j i)))).
  (** the polynomials a proof commits to *)
  Record messages := Messages {
    m_advice : nat -> list K;
    m_permuted : nat -> list K; m_table : nat -> list K;                       (** the columns of the lookups, permuted *)
    m_products : nat -> list K; m_look_products : nat -> list K; m_random : list K }.
  Definition all_short (m : messages) : Prop :=
    (forall i, short (m_advice m i)) /\ (forall i, short (m_permuted m i)) /\ (forall i, short (m_table m i)) /\
    (forall i, short (m_products m i)) /\ (forall i, short (m_look_products m i)) /\ short (m_random m).
  Definition column (fx sg : nat -> list K) (m : messages) (cl : col) : list K :=
    match cl with
    | Adv i => m_advice m i | Fix_ i => fx i | Sig i => sg i | PermZ i => m_products m i | LookZ i => m_look_products m i
    | LookA i => m_permuted m i | LookS i => m_table m i | Rand => m_random m | Quot => []
    end.
End Columns.
