(** Concrete histories: the hypotheses of the C26-C38 theorems are met by a full run of the protocol, for both variants;
    and the counterexamples to the parts of C37/C28 that the code does not guarantee.
    The toy environment accepts everything; the theorems do not depend on what it accepts. *)
From Coq Require Import ZArith String List Bool Lia.
From Verif.Model Require Import Monad Evm Strings Zkdvrf.
From Verif.Spec Require Import Histories.
From Verif.Proofs Require Import ZkdvrfStep ZkdvrfInv1 ZkdvrfInv2 ZkdvrfInv3 ZkdvrfThms.
Import ListNotations.
Open Scope Z_scope.

Definition toy : env := mkEnv (fun _ => 7) (fun _ _ _ => Ok true) (fun n g _ => Ok (g, repeat (1, 2) (Z.to_nat n)))
  (fun _ => Ok (5, 6)) (fun _ _ _ _ _ => Ok true) (fun _ _ _ _ _ => Ok true) (fun _ _ _ => Ok true) (fun _ _ _ => Ok true).
Definition toy_cfg : cfg := mkCfg 2 3 100 1 2 3 4 10.
Definition gk : pt := (1, 17631683881184975370165255887551781615748388533673675138860).
Definition toy_pp : list Z := repeat 9 29 ++ flat [gk; gk; gk].
Definition call0 (a : Z) (x : call) : tx := mkTx a 0 x.
Definition demo_txs : list tx :=
  [call0 100 (AddPermissionedNodes 11); call0 100 (AddPermissionedNodes 12); call0 11 (AddPermissionedNodes 13) (* reverts *);
   call0 100 (AddPermissionedNodes 13); mkTx 12 10 (RegisterNode gk); mkTx 11 15 (RegisterNode gk);
   mkTx 13 5 (RegisterNode gk) (* reverts *); mkTx 13 10 (RegisterNode gk); call0 100 StartNidkg;
   call0 11 (SubmitPublicParams toy_pp []); call0 12 (SubmitPublicParams toy_pp []); call0 13 (SubmitPublicParams toy_pp []);
   call0 55 (ComputeVk (G2pt 1 2 3 4)); call0 100 InitiateRandom;
   call0 11 (SubmitPartialEval (mkPeval 2 (1, 2) 0 0)); call0 11 (SubmitPartialEval (mkPeval 2 (1, 2) 0 0)) (* reverts *);
   call0 13 (SubmitPartialEval (mkPeval 3 (1, 2) 0 0)); call0 100 (SubmitRandom (mkPrand (1, 2) 7)); call0 100 InitiateRandom].
Definition start : st := match construct toy_cfg with Ok s => s | _ => mkSt 0 0 0 0 0 0 0 0 0 0 [] [] [] [] [] g2zero Unregistered
  0 (fun _ => 0) (fun _ => node0) (fun _ => []) (fun _ => (0, 0)) (fun _ => 0) (fun _ _ => peval0) (fun _ => 0) (fun _ => prand0) 0 end.
Fixpoint steps (v : variant) (E : env) (s : st) (l : list tx) : list step :=
  match l with [] => [] | t :: r => mkStep s t (apply v E s t) :: steps v E (exec v E s t) r end.

Lemma hist_steps v E c l : forall tr s, hist v E c tr s -> hist v E c (tr ++ steps v E s l) (run v E s l).
Proof.
  induction l as [|t l IH]; intros tr s H; cbn; [rewrite app_nil_r; auto|].
  specialize (IH _ _ (hist_tx _ _ _ _ _ t H)). rewrite <- app_assoc in IH. exact IH.
Qed.

Example demo_is_history v : hist v toy toy_cfg (steps v toy start demo_txs) (run v toy start demo_txs).
Proof. apply (hist_steps v toy toy_cfg demo_txs [] start). apply hist_deploy; reflexivity. Qed.

(** two rounds opened, the first one complete with two evaluations, three members, one threshold event *)
Example demo_facts v :
  let tr := steps v toy start demo_txs in let s := run v toy start demo_txs in
  added tr = [11; 12; 13] /\ map who (registrations tr) = [12; 11; 13] /\ map psender (submissions tr) = [11; 12; 13] /\
  contractPhase s = Ready /\ currentRoundNum s = 2 /\ map fst (evals tr 1) = [11; 13] /\
  getRandomAtRound s 1 = Ok (mkPrand (1, 2) 7) /\ getLatestRandom s = Ok (mkPrand (1, 2) 7) /\
  filter (is_thr 1) (log tr) = [RandomThresholdReached 1 (ascii_bytes "zkRand-v1-2024:1")] /\
  balance s = 35 /\ getVkList s = [(1, 2); (1, 2); (1, 2)].
Proof. destruct v; vm_compute; repeat split; reflexivity. Qed.

(** C37 does not hold of zkdvrf.sol: the owner can store a random for round 1 with no evaluation at all ... *)
Definition skip_txs : list tx := firstn 14 demo_txs ++ [call0 100 (SubmitRandom (mkPrand (1, 2) 7))].
Theorem C37_plain_refuted : exists E c tr s k p, hist Plain E c tr s /\ 0 < c_threshold c /\ 1 <= k /\
  getRandomAtRound s k = Ok p /\ evals tr k = [].
Proof.
  exists toy, toy_cfg, (steps Plain toy start skip_txs), (run Plain toy start skip_txs), 1, (mkPrand (1, 2) 7).
  split; [apply (hist_steps Plain toy toy_cfg skip_txs [] start), hist_deploy; reflexivity|].
  split; [reflexivity|]. split; [lia|]. vm_compute. auto.
Qed.
(** ... and even a random for "round 0" before anybody registered. *)
Definition zero_txs : list tx := [call0 100 (SubmitRandom (mkPrand (0, 0) 7))].
Theorem C37_plain_round_zero : exists E c tr s p, hist Plain E c tr s /\ contractPhase s = Unregistered /\ added tr = [] /\
  getRandomAtRound s 0 = Ok p /\ getLatestRandom s = Ok p.
Proof.
  exists toy, toy_cfg, (steps Plain toy start zero_txs), (run Plain toy start zero_txs), (mkPrand (0, 0) 7).
  split; [apply (hist_steps Plain toy toy_cfg zero_txs [] start), hist_deploy; reflexivity|]. vm_compute. auto.
Qed.

(** Accepted parameter vectors are not bound to the submitter: two members may submit the very same vector and proof. *)
Theorem C28_replay_possible : exists E c tr s a b pp zk, hist Plain E c tr s /\ a <> b /\
  In (a, pp, zk) (submissions tr) /\ In (b, pp, zk) (submissions tr).
Proof.
  exists toy, toy_cfg, (steps Plain toy start demo_txs), (run Plain toy start demo_txs), 11, 12, toy_pp, [].
  split; [apply demo_is_history|]. split; [lia|]. vm_compute. auto.
Qed.

(** getIndexPlus does not distinguish strangers: it answers 1 for an address that is not a member. *)
Theorem C27_index_of_stranger : exists E c tr s a, hist Plain E c tr s /\ ~ In a (added tr) /\ getIndexPlus s a = Ok 1.
Proof.
  exists toy, toy_cfg, (steps Plain toy start demo_txs), (run Plain toy start demo_txs), 77.
  split; [apply demo_is_history|]. vm_compute. split; [|reflexivity]. intuition discriminate.
Qed.

(** The curve check works modulo r, so a key whose coordinates are not canonical field elements is accepted. *)
Theorem C27_non_canonical_key : exists p, isOnCurve p = true /\ pt_ok256 p = true /\ grumpkin_r <= fst p.
Proof. exists (1 + grumpkin_r, 17631683881184975370165255887551781615748388533673675138860). vm_compute. intuition discriminate. Qed.
