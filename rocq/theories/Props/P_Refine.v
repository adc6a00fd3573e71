(** C38: zkdvrf_pre.sol (which caches the hash of the round input) against zkdvrf.sol. *)
From Coq Require Import ZArith String List Bool Lia.
From Verif.Model Require Import Monad Evm Strings Zkdvrf.
From Verif.Spec Require Import Histories Refinement.
From Verif.Proofs Require Import ZkdvrfStep ZkdvrfInv1 ZkdvrfInv2 ZkdvrfInv3 ZkdvrfThms ZkdvrfRefine.
From Verif.Props Require Import P_ContractDemo.
Import ListNotations.
Open Scope Z_scope.

(** the cache holds the hash of the round's own input, for every round ever opened *)
Theorem C38_cache_coherent E c tr s : hist Pre E c tr s -> forall k, 1 <= k <= currentRoundNum s ->
  hash_to_g1 E (roundInput s k) = Ok (roundHash s k).
Proof. apply cache_ok. Qed.

(** so checking against the cache gives the same verdict as checking against the message *)
Theorem C38_same_verdict E c tr s : coherent E -> hist Pre E c tr s -> forall k, 1 <= k <= currentRoundNum s ->
  (forall sg z ch vk, verify_partial_eval_fast E (roundHash s k) sg z ch vk = verify_partial_eval E (roundInput s k) sg z ch vk) /\
  (forall p g, verify_pseudo_rand_fast E (roundHash s k) p g = verify_pseudo_rand E (roundInput s k) p g).
Proof.
  intros [H1 H2] Hh k Hk. pose proof (cache_ok _ _ _ _ Hh k Hk) as C. split; intros; symmetry; eauto.
Qed.

(** every history of zkdvrf_pre is, on its accepted transactions, a history of zkdvrf: all accepted, same events,
    same storage up to the fields only one contract has *)
Theorem C38_refinement E c tr s : coherent E -> 0 < c_threshold c -> hist Pre E c tr s ->
  exists tr' p, hist Plain E c tr' p /\ map txn tr' = accepted_txs tr /\ forallb accepted tr' = true /\ log tr' = log tr /\ view s = view p.
Proof.
  intros HE Ht Hh. destruct (sim E c HE Ht tr s Hh) as (tr' & p & A & [B _] & C & D & F). exists tr', p. auto.
Qed.
(** in particular all public getters agree *)
Corollary C38_getters E c tr s : coherent E -> 0 < c_threshold c -> hist Pre E c tr s ->
  exists tr' p, hist Plain E c tr' p /\ map txn tr' = accepted_txs tr /\
    getPkList p = getPkList s /\ getPpList p = getPpList s /\ getVkList p = getVkList s /\ getGpk p = getGpk s /\
    (forall a, getIndexPlus p a = getIndexPlus s a) /\ (forall k, getRandomAtRound p k = getRandomAtRound s k) /\
    getLatestRandom p = getLatestRandom s /\ currentRoundNum p = currentRoundNum s /\ balance p = balance s.
Proof.
  intros HE Ht Hh. destruct (C38_refinement E c tr s HE Ht Hh) as (tr' & p & A & B & _ & _ & V). exists tr', p. split; [auto|]. split; [auto|].
  assert (X : forall A (f : st -> A), f (view s) = f (view p)) by (intros; rewrite V; auto).
  pose proof (X _ pkList) as X1. pose proof (X _ ppList) as X2. pose proof (X _ vkList) as X3. pose proof (X _ gpkVal) as X4.
  pose proof (X _ addrToNode) as X5. pose proof (X _ roundToRandom) as X6. pose proof (X _ currentRoundNum) as X7. pose proof (X _ balance) as X8.
  cbn in *. unfold getPkList, getPpList, getVkList, getGpk, getIndexPlus, getRandomAtRound, getLatestRandom.
  rewrite X1, X2, X3, X4, X5, X6, X7, X8. repeat split; auto.
Qed.

Example toy_coherent : coherent toy.
Proof. split; reflexivity. Qed.
(** the hypotheses are met by the demo history, in which rounds are opened *)
Example C38_demo : hist Pre toy toy_cfg (steps Pre toy start demo_txs) (run Pre toy start demo_txs) /\ 0 < c_threshold toy_cfg /\
  currentRoundNum (run Pre toy start demo_txs) = 2 /\ length (accepted_txs (steps Pre toy start demo_txs)) = 16%nat.
Proof. split; [apply demo_is_history|]. vm_compute. auto. Qed.
(** the converse fails: zkdvrf accepts an early submitRandom (see C37_plain_refuted) that zkdvrf_pre rejects *)
Example C38_not_conversely :
  let s := run Plain toy start (firstn 14 demo_txs) in let p := run Pre toy start (firstn 14 demo_txs) in
  let t := call0 100 (SubmitRandom (mkPrand (1, 2) 7)) in
  is_ok (apply Plain toy s t) = true /\ apply Pre toy p t = Err "Partial evaluation threshold not reached".
Proof. vm_compute. auto. Qed.
