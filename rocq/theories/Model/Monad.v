(** Results with explicit errors.  A Solidity revert / panic, a Rust [Err] and a Rust panic are all values. *)
From Coq Require Import String List.
Import ListNotations.

(** [Err msg]: Solidity [require]/[revert] with its message, or a Rust [Err].
    [Panic msg]: Solidity checked-arithmetic / out-of-bounds / assert failure or failed precompile call ([invalid()]),
    or a Rust panic. *)
Inductive res (A : Type) : Type :=
| Ok (a : A)
| Err (msg : string)
| Panic (msg : string).
Arguments Ok {A} _.
Arguments Err {A} _.
Arguments Panic {A} _.

Definition bind {A B} (r : res A) (f : A -> res B) : res B :=
  match r with Ok a => f a | Err m => Err m | Panic m => Panic m end.

Notation "'let*' x := r 'in' k" := (bind r (fun x => k)) (at level 200, x pattern, right associativity).

(** Solidity [require(b, msg)], Rust [if !b { return Err(msg) }]. *)
Definition require (b : bool) (msg : string) : res unit := if b then Ok tt else Err msg.
(** Solidity [assert(b)], Rust [assert!(b)]. *)
Definition assert (b : bool) (msg : string) : res unit := if b then Ok tt else Panic msg.

Definition is_ok {A} (r : res A) : bool := match r with Ok _ => true | _ => false end.

(** run a fallible function over a list, stopping at the first error *)
Fixpoint mapM {A B} (f : A -> res B) (l : list A) : res (list B) :=
  match l with
  | [] => Ok []
  | x :: r => let* y := f x in let* ys := mapM f r in Ok (y :: ys)
  end.
Fixpoint foldM {A S} (f : S -> A -> res S) (s : S) (l : list A) : res S :=
  match l with
  | [] => Ok s
  | x :: r => let* s' := f s x in foldM f s' r
  end.

(** inversion helpers *)
Lemma bind_ok {A B} (r : res A) (f : A -> res B) b :
  bind r f = Ok b <-> exists a, r = Ok a /\ f a = Ok b.
Proof.
  destruct r; cbn; split; intros H; try discriminate; try (destruct H as [? [? ?]]; discriminate); eauto.
  destruct H as [x [E H]]. inversion E. subst. exact H.
Qed.
Lemma require_ok b m u : require b m = Ok u <-> b = true.
Proof. destruct u, b; cbn; split; congruence. Qed.
Lemma assert_ok b m u : assert b m = Ok u <-> b = true.
Proof. destruct u, b; cbn; split; congruence. Qed.
