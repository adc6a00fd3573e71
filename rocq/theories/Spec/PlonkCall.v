(** How a proof and its instances are passed to verifyProof, and the challenges drawn for them. *)
From Coq Require Import ZArith List.
From Verif.Base Require Import Fld Fp EC Primes Curves Group.
From Verif.Model Require Import Evm.
From Verif.Spec Require Import Plonk PlonkVerifier.
Import ListNotations.
Open Scope Z_scope.

(** a proof in bytes: 32 bytes for each word *)
Definition proof_bytes (p : proof) : bytes := flat_map word (proof_words p).
(** [b] is the proof [p] (whose points are not the identity) and [ws] the instances [is], as many as the key [k] asks for, written with
    representatives below r *)
Definition encodes (k : vkey) (b : bytes) (ws : list Z) (p : proof) (is : list Fr) : Prop :=
  proof_ok p /\ length is = k_instances k /\ b = proof_bytes p /\ ws = map scalar_word is.
(** the challenges: Fiat-Shamir with keccak256 over 32-byte words, reduced modulo r *)
Definition drawn (keccak : bytes -> Z) (k : vkey) (is : list Fr) (p : proof) : challenges :=
  challenges_of (transcript Z keccak word 1 (k_digest k) (map scalar_word is) (proof_words p)).
Definition byte_ok (b : Z) : Prop := 0 <= b < 256.
