(** C49: a group of three through its set-up, the round opened, and the node at position 1 deriving its share from the
    contract's list and sending its first evaluation, which is accepted: the hypotheses of C49_first_evaluation,
    C49_first_evaluation_valid and C49_sent_accepted are met together. *)
From Coq Require Import ZArith String List Bool Lia.
From Verif.Base Require Import Fld Fp EC Primes Curves Group Fermat.
From Verif.Model Require Import Monad Evm Strings Points HashEvm Dkg Lib Serialise Files Cache Client Zkdvrf PairingSol HashSol PseudoRandSol GppSol RealEnv Services.
From Verif.Spec Require Import Dvrf Onchain Histories Serial CacheSpec ClientSpec ServiceSpec.
From Verif.Proofs Require Import ZkdvrfStep ZkdvrfInv1 ZkdvrfInv2 ZkdvrfInv3 BytesProofs SerialProofs DecimalProofs HashProofs HashSolProofs OnchainProofs VerifyProofs InstanceProofs DkgProofs DvrfProofs PairingExists Forward Setup CacheProofs ClientProofs PipelineProofs PipelineRuns JsonExists ServiceHex ServiceProofs.
From Verif.Props Require Import P_Dvrf P_Onchain P_Contract P_EndToEnd P_Live P_Client P_Services.
From Verif.Props Require Import P_Admin P_NodeEval.
Import ListNotations.
Open Scope Z_scope.
Definition first_name : Z -> bytes := fun _ => str "node".
Notation first_opts := (Opts 3 3 18 101).
Definition first_member : member_key := member_random (fq 5).
Definition first_fs : fs := set demo_fs (member_path (member_name first_name first_opts)) (File (Client.enc (j_member some_json) (of_member first_member))).
Notation with_derive pr := (node_derive live_keccak pr (fun a _ : Fr => a) some_json (fun g (_ : Z) => g) unit unit (fun _ => @nil Z) (fun _ => Ok tt) (fun _ => @nil Z) (fun _ => Ok tt) (fun _ _ => Ok tt) (fun _ _ _ => Ok tt) (fun _ => tt) (fun _ _ _ _ _ => Ok (@nil Z)) (fun _ _ _ _ => true) first_name first_opts).
Example C49_first_meets v : exists pr ig tr s w call s' ev insts, let E := real_env live_keccak ig pr (fun _ _ _ => Ok true) in
  in_g2_ok ig /\ pairing_ok pr /\ Histories.hist v E stall_cfg tr s /\ currentRoundNum s = 1 /\ no_random s 1 /\
  znth (map who (registrations tr)) 0 = Some 101 /\ evals tr 1 = [] /\ good_fs first_fs /\ length insts = 3%nat /\ getPpList s = map (map val_r) insts /\
  cbind (with_derive pr (fun _ => s)) (fun _ => with_client node_submit_eval pr some_json first_opts (fun _ => s) (fr 9)) first_fs = (w, Ok call) /\
  apply v E s (mkTx 101 0 call) = Ok (s', ev) /\ roundSubmissionCount s' 1 = 1.
Proof.
  destruct in_g2_exists as [ig HG]. destruct pairing_exists as [pr HP]. set (h2 := fun (_ : Z) (_ : bytes) (_ : list Z) => Ok true).
  set (poseidon := fun a _ : Fr => a). set (E := real_env live_keccak ig pr h2).
  destruct (C06_dkg_public poseidon _ _ _ stall_honest) as (pps & gpp & D & Gp & _).
  assert (X : pps = map (pp_of poseidon demo_members) stall_dealers) by (rewrite stall_deal in D; congruence).
  assert (W : Forall (fun pp => length (public_shares pp) = 3%nat /\ length (ciphers pp) = 3%nat) pps).
  { rewrite X. apply Forall_map, Forall_forall. intros d _. cbn [pp_of public_shares ciphers]. rewrite !map_length, ?combine_length, ?length_zseq, ?map_length. split; reflexivity. }
  destruct (all_instances (map mk_pk demo_members) pps) as [insts FI]. { eapply Forall_impl; [|exact W]. intros pp [A _]. exact A. }
  assert (LI : length insts = 3%nat) by (rewrite <- (Forall2_len FI), X, map_length; reflexivity). clear X.
  destruct (construct stall_cfg) as [s0| |] eqn:C; try discriminate.
  destruct (honest_setup v live_keccak ig pr h2 poseidon HG HP stall_cfg _ _ _ stall_honest eq_refl pps gpp D Gp s0 [101; 102; 103] insts [[]; []; []]) as (tr & s & H & A & R & O & C0 & Wh & _ & VK & GK & PL); auto.
  { reflexivity. } { repeat constructor; cbn; intuition lia. } { repeat constructor; reflexivity. } { repeat constructor; apply key_neq0; split; reflexivity. }
  { destruct insts as [|i1 [|i2 [|i3 [|]]]]; try discriminate. repeat constructor. }
  destruct (C53_round_opens v live_keccak ig pr h2 live_keccak_ok stall_cfg tr s H R) as (s1 & ev & A1 & C1 & _ & Rr1).
  { rewrite O. split; reflexivity. } { rewrite C0. reflexivity. } { left. exact C0. }
  set (t := mkTx (owner s) 0 InitiateRandom) in *. set (tr1 := tr ++ [mkStep s t (Ok (s1, ev))]). assert (H1 : Histories.hist v E stall_cfg tr1 s1) by (apply hist_ok; auto).
  rewrite C0 in C1. change (0 + 1) with 1 in C1.
  assert (R1 : registrations tr1 = registrations tr) by (unfold tr1; rewrite registrations_app, registrations_one; apply app_nil_r).
  pose proof (inv3 _ _ _ _ _ H) as J3.
  assert (EV : evals tr1 1 = []).
  { unfold tr1. rewrite evals_app, evals_one. cbn [what t]. destruct (evals tr 1) as [|[a e] l] eqn:X; [destruct (currentRoundNum s =? 1); reflexivity|].
    pose proof (m_range _ _ _ _ _ J3 1 a) as Y. rewrite X in Y. specialize (Y (or_introl eq_refl)). pose proof (m_last _ _ _ _ _ J3 a). clear -Y H0 C0. lia. }
  assert (NR : no_random s1 1).
  { apply no_random_iff. rewrite Rr1, (r_last _ _ _ _ _ J3 1). destruct (randoms tr 1) as [|p l] eqn:X; [reflexivity|].
    pose proof (r_range _ _ _ _ _ J3 1) as Y. rewrite X in Y. specialize (Y ltac:(discriminate)). clear -Y C0. lia. }
  assert (PL1 : getPpList s1 = map (map val_r) insts).
  { rewrite <- PL. unfold getPpList. rewrite (k_pp _ _ _ _ _ (inv2 _ _ _ _ _ H1)), (k_pp _ _ _ _ _ (inv2 _ _ _ _ _ H)). unfold tr1. rewrite submissions_app, submissions_one. cbn [what t]. rewrite app_nil_r. reflexivity. }
  assert (HO : options_ok stall_cfg first_opts) by (constructor; cbn [o_threshold o_members o_degree o_me c_threshold c_number stall_cfg]; try lia; split; reflexivity).
  assert (Hm : get demo_members (0 + 1 - 1) = Ok first_member) by reflexivity.
  destruct (C03_share_keys poseidon _ _ _ stall_honest pps gpp D Gp (0 + 1) first_member Hm) as (k & Sk & _ & _ & _ & _ & Sv).
  assert (Dc : mapM (fun x => let* (pp, _) := from_instance (mkConfig 3 3) x in Ok pp) insts = Ok pps).
  { clear -FI W. revert W. induction FI as [|pp inst pps insts A F IH]; intros W; [reflexivity|]. inversion W as [|? ? [W1 W2] W']; subst. cbn [mapM].
    rewrite (C12_round_trip (mkConfig 3 3) pp (map mk_pk demo_members) inst) by first [exact A|exact W1|exact W2|reflexivity]. cbn [bind]. rewrite (IH W'). reflexivity. }
  assert (G : good_fs first_fs).
  { unfold first_fs. assert (Y : member_path (member_name first_name first_opts) = jp MEMBERS_DIR (str "member_node")) by (vm_compute; reflexivity). rewrite Y. apply good_set. exact demo_good. }
  assert (Mf : member_file some_json first_fs (member_name first_name first_opts) first_member) by (apply holds_saved; [apply (ok_member _ some_json_ok)|apply member_round; reflexivity]).
  assert (Rn : 1 <= currentRoundNum s1) by (rewrite C1; clear; lia). assert (NR' : no_random s1 (currentRoundNum s1)) by (rewrite C1; exact NR).
  assert (Zi : znth (map who (registrations tr1)) 0 = Some 101) by (rewrite R1, Wh; reflexivity).
  assert (NI : ~ In 101 (map fst (evals tr1 (currentRoundNum s1)))) by (rewrite C1, EV; intros []).
  assert (NE : insts <> []) by (destruct insts; [discriminate LI|discriminate]).
  destruct (C49_first_evaluation v live_keccak ig pr h2 live_keccak_ok HG HP stall_cfg poseidon some_json some_json_ok (fun g _ => g) unit unit (fun _ => []) (fun _ => Ok tt) (fun _ => []) (fun _ => Ok tt) (fun _ _ => Ok tt) (fun _ _ _ => Ok tt) (fun _ => tt)
    (fun _ _ _ _ _ => Ok []) (fun _ _ _ _ => true) first_name first_opts HO tr1 s1 0 first_fs (fr 9) first_member k insts pps gpp H1 Rn NR' Zi NI G Mf NE PL1 Dc Gp Sk Sv) as (w & call & s' & ev' & Run & Ap & Cn).
  exists pr, ig, tr1, s1, w, call, s', ev', insts. split; [exact HG|]. split; [exact HP|]. split; [exact H1|]. split; [exact C1|]. split; [exact NR|]. split; [exact Zi|]. split; [exact EV|]. split; [exact G|]. split; [exact LI|]. split; [exact PL1|].
  split; [exact Run|]. split; [exact Ap|]. rewrite C1 in Cn. rewrite Cn, (m_cnt _ _ _ _ _ (inv3 _ _ _ _ _ H1) 1), EV. reflexivity.
Qed.
Print Assumptions C49_first_meets.

(** round ten exactly: of the nodes that have not submitted in it, those whose last round is 2 .. 9 stay idle
    (C49_stalls_at_ten) and those that never submitted, or last submitted in round 1, evaluate *)
Theorem C49_at_ten o thr ch : let last := lastSubmittedRound (ch 4%nat) (o_me o) in
  contractPhase (ch 0%nat) = Ready -> nodeAddress (addrToNode (ch 1%nat) (o_me o)) = o_me o -> currentRoundNum (ch 2%nat) = 10 ->
  roundSubmissionCount (ch 3%nat) 10 < thr -> 0 <= last <= 9 ->
  ((exists d, node_poll o thr ch = NEvaluate d) <-> last = 0 \/ last = 1) /\ (node_poll o thr ch = NIdle <-> 2 <= last).
Proof.
  intros last P A R C L. unfold node_poll. rewrite A, Z.eqb_refl, P, R. fold last. rewrite (proj2 (Z.ltb_lt _ _) C). clear -L.
  assert (B : bn_gt 10 last = (last <? 2)).
  { destruct (Z.ltb_spec last 2) as [H|H]; [|apply bn_gt_ten; lia]. assert (E : last = 0 \/ last = 1) by lia. destruct E as [-> | ->]; vm_compute; reflexivity. }
  rewrite B. destruct (Z.ltb_spec last 2) as [H|H]; cbn [andb].
  - split; split; try (intros; lia); try discriminate. intros _. eexists. reflexivity.
  - split; split; try (intros; lia); try reflexivity. intros [d X]. discriminate X.
Qed.
Print Assumptions C49_at_ten.
