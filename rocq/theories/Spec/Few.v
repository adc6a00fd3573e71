(** "For all but at most [n] values." *)
From Coq Require Import List.

Definition except {A} (n : nat) (P : A -> Prop) : Prop := exists bad : list A, (length bad <= n)%nat /\ forall x, ~ In x bad -> P x.
