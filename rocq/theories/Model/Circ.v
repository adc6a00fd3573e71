(** Circuits as the code builds them: a straight-line program that assigns cells and enables constraints on them.

    In halo2 a circuit is run twice with the same control flow: key generation records the constraints, the prover
    assigns a witness computed from the values at hand ([Value] closures).  A circuit is therefore a tree of
    - [Cell h P k]: assign one new cell (or group of cells); [h] is the value the code's closure assigns, [P] the
      constraint the proof system will check on it, [k] the rest of the circuit;
    - [Ret a]: end of the fragment with result [a] (assigned cells handed to the caller);
    - [Abort]: synthesis returns an error or panics, no circuit results.
    This is the interface of halo2's [Layouter] (a dependency); regions, offsets, columns, selectors and the
    copy constraints between occurrences of one cell are not represented: a reused cell is a reused value. *)
From Coq Require Import List.
Import ListNotations.

Inductive circ (A : Type) : Type :=
| Ret (a : A)
| Cell (X : Type) (h : X) (P : X -> Prop) (k : X -> circ A)
| Abort.
Arguments Ret {A}. Arguments Cell {A}. Arguments Abort {A}.

Fixpoint cbind {A B} (c : circ A) (f : A -> circ B) : circ B :=
  match c with
  | Ret a => f a
  | Cell X h P k => Cell X h P (fun x => cbind (k x) f)
  | Abort => Abort
  end.
Notation "'let!' x := c 'in' d" := (cbind c (fun x => d)) (at level 200, x pattern, c at level 100, d at level 200).

(** Some assignment of all cells satisfies every constraint and yields the result [a]. *)
Fixpoint sem {A} (c : circ A) (a : A) : Prop :=
  match c with
  | Ret a' => a = a'
  | Cell X _ P k => exists x : X, P x /\ sem (k x) a
  | Abort => False
  end.
(** The assignment computed by the code satisfies every constraint, and yields the result [a]. *)
Fixpoint honest {A} (c : circ A) (a : A) : Prop :=
  match c with
  | Ret a' => a = a'
  | Cell _ h P k => P h /\ honest (k h) a
  | Abort => False
  end.
(** a proof of the circuit exists / the prover run by the code succeeds *)
Definition satisfiable (c : circ unit) : Prop := sem c tt.
Definition prover_ok (c : circ unit) : Prop := honest c tt.

(** a constraint on existing cells *)
Definition constrain (P : Prop) : circ unit := Cell unit tt (fun _ => P) (fun _ => Ret tt).

Fixpoint cmap {A B} (f : A -> circ B) (l : list A) : circ (list B) :=
  match l with [] => Ret [] | a :: tl => let! b := f a in let! r := cmap f tl in Ret (b :: r) end.
Fixpoint cfold {A B} (f : B -> A -> circ B) (l : list A) (b : B) : circ B :=
  match l with [] => Ret b | a :: tl => let! b' := f b a in cfold f tl b' end.
