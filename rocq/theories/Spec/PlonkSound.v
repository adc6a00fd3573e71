(** Proofs whose commitments are to polynomials known to the prover.  [s] is the secret of the setup: it is drawn independently
    of everything the prover sends, which sees only its powers in the exponent. *)
From Coq Require Import ZArith NArith List.
From Verif.Base Require Import Fld Fp EC Primes Curves Group Poly.
From Verif.Model Require Import Points.
From Verif.Spec Require Import Few Plonk PlonkVerifier PlonkCircuit.
Import ListNotations.

(** a domain of 2^d rows *)
Definition rows (d : nat) : nat := N.to_nat (2 ^ N.of_nat d).
(** KZG: the commitment to a polynomial is its value at the secret times the generator *)
Definition commit (s : Fr) (P : list Fr) : G1 := g1mul g1 (peval P s).

(** a key made with the secret [s] for a circuit with [n] instances and 2^d rows described by the polynomials [fx] and [sg] *)
Definition made_from (n d : nat) (omega n_inv s : Fr) (fx sg : nat -> list Fr) (k : vkey) : Prop :=
  k_instances k = n /\ k_degree k = d /\ k_omega k = omega /\ k_n_inv k = n_inv /\ k_gen k = g1 /\ k_g2 k = g2 /\ k_neg_s_g2 k = g2mul g2 (fopp s) /\
  k_fixed k = map (fun j => commit s (fx j)) (seq 0 23) /\ k_sigma k = map (fun j => commit s (sg j)) (seq 0 9).

(** the proof that commits to the messages [m], to the pieces [h] of the quotient, claims the values [evals] and opens with [w] and
    [w'] *)
Definition proof_of (s : Fr) (m : messages Fr) (h : nat -> list Fr) (evals : list Fr) (w w' : list Fr) : proof :=
  Proof_ (map (fun cl => commit s (column Fr (fun _ => []) (fun _ => []) m cl)) commitments ++ map (fun i => commit s (h i)) (seq 0 pieces))
    evals (commit s w) (commit s w').

(** The conversation.  After the advice columns are fixed, each challenge is drawn, and each message of the prover is chosen, in
    the order of the transcript; the secret is never seen.  [P] holds at the end however the messages are chosen, except for at most
    the given number of values of each challenge, these being fixed by what came before it. *)
Definition all_but_few (d : nat) (adv : nat -> list Fr)
    (P : messages Fr -> (nat -> list Fr) -> list Fr -> list Fr -> list Fr -> challenges -> Fr -> Prop) : Prop :=
  let n := rows d in let u := usable n in let ok := short Fr n in
  except u (fun theta => forall permuted table, (forall i, ok (permuted i)) -> (forall i, ok (table i)) ->
  except (9 * u) (fun beta => except (18 * u) (fun gamma =>
    forall products look_products random, (forall i, ok (products i)) -> (forall i, ok (look_products i)) -> ok random ->
  except 42 (fun y => forall h, (forall i, (i < pieces)%nat -> ok (h i)) ->
  except (7 * n + 1) (fun x => forall evals : list Fr,
  except 39 (fun zeta => except 4 (fun nu => forall w, ok w ->
  except (n + 7) (fun mu => forall w', ok w' ->
  except n (fun s =>
    P (Messages Fr adv permuted table products look_products random) h evals w w' (Challenges theta beta gamma y x zeta nu mu) s))))))))).

(** The same conversation with a prover that follows the protocol: it has an answer to every challenge but a few, and [P] holds at the
    end whatever the secret. *)
Definition can_answer (d : nat) (adv : nat -> list Fr)
    (P : messages Fr -> (nat -> list Fr) -> list Fr -> list Fr -> list Fr -> challenges -> Fr -> Prop) : Prop :=
  let n := rows d in let u := usable n in let ok := short Fr n in
  forall theta, exists permuted table, (forall i, ok (permuted i)) /\ (forall i, ok (table i)) /\
  except (5 * u) (fun beta => except (14 * u) (fun gamma =>
    exists products look_products, (forall i, ok (products i)) /\ (forall i, ok (look_products i)) /\ forall random, ok random ->
  forall y, exists h, (forall i, ok (h i)) /\
  except (n + 1) (fun x => exists evals : list Fr, length evals = length openings /\
  forall zeta nu, exists w, ok w /\
  except 4 (fun mu => exists w', ok w' /\
  forall s, P (Messages Fr adv permuted table products look_products random) h evals w w' (Challenges theta beta gamma y x zeta nu mu) s)))).
