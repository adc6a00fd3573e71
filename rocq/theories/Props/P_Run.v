(** C68: a node service over all schedules of polls, inclusions, other people's transactions, crashes and restarts.
    Ranges over both contracts, every environment, history and interleaving, every file system the service starts with,
    every value it draws, every option set that agrees with the contract. *)
From Coq Require Import ZArith String List Bool Lia.
From Verif.Base Require Import Fld Fp EC Primes Curves Group Fermat.
From Verif.Model Require Import Monad Evm Strings Points HashEvm Dkg Lib Serialise Files Cache Client Zkdvrf PairingSol RealEnv Services ServiceRun.
From Verif.Spec Require Import Dvrf Onchain Histories Serial CacheSpec ClientSpec ServiceSpec DemoSpec.
From Verif.Proofs Require Import ZkdvrfStep ZkdvrfInv1 ZkdvrfInv2 ZkdvrfInv3 Forward SerialProofs CacheProofs ClientProofs PipelineProofs PipelineRuns JsonExists DemoFiles ServiceHex ServiceProofs RunFrame RunProofs Stable.
From Verif.Proofs Require Import Setup VerifyProofs HashProofs OnchainProofs DvrfProofs PairingExists HashProofs.
From Verif.Props Require Import P_Dvrf P_Onchain P_Contract P_EndToEnd P_Live P_Client P_Services P_Malicious P_Admin P_Demo.
Import ListNotations.
Open Scope Z_scope.

(** ** what other people do between the moment a member's transaction would be accepted and the moment it is executed *)
Section Stays.
  Variable v : variant.
  Variable E : env.
  Variable c : Zkdvrf.cfg.
  Notation hist := (Histories.hist v E c).
  (** a registration or a dealing that the contract would accept is accepted whenever it is executed, unless the account
      has registered (dealt) meanwhile *)
  Theorem C68_registration_stays tr s later s' a value pk x : hist tr s -> apply v E s (mkTx a value (RegisterNode pk)) = Ok x -> hist (tr ++ later) s' ->
    ~ In a (map who (registrations (tr ++ later))) -> exists x', apply v E s' (mkTx a value (RegisterNode pk)) = Ok x'.
  Proof. exact (stable_register v E c tr s later s' a value pk x). Qed.
  Theorem C68_dealing_stays tr s later s' a pp zk x : hist tr s -> apply v E s (mkTx a 0 (SubmitPublicParams pp zk)) = Ok x -> hist (tr ++ later) s' ->
    ~ In a (map psender (submissions (tr ++ later))) -> exists x', apply v E s' (mkTx a 0 (SubmitPublicParams pp zk)) = Ok x'.
  Proof. exact (stable_dealing v E c tr s later s' a pp zk x). Qed.
  (** an evaluation is accepted as long as the round has no random, unless the account has evaluated meanwhile *)
  Theorem C68_evaluation_stays tr s later s' a e x : hist tr s -> apply v E s (mkTx a 0 (SubmitPartialEval e)) = Ok x -> hist (tr ++ later) s' ->
    let k := currentRoundNum s in currentRoundNum s' = k -> no_random s' k -> ~ In a (map fst (evals (tr ++ later) k)) ->
    exists x', apply v E s' (mkTx a 0 (SubmitPartialEval e)) = Ok x'.
  Proof. intros H A H' k R N NE. apply no_random_iff in N. apply (stable_evaluation v E c tr s later s' a e x H A H' R); rewrite R; assumption. Qed.
  (** .. and refused once it has one, until the next round is opened *)
  Theorem C68_evaluation_late s a e : ~ no_random s (currentRoundNum s) -> forall x, apply v E s (mkTx a 0 (SubmitPartialEval e)) <> Ok x.
  Proof.
    intros N [s' ev] A. apply N, no_random_iff. destruct (apply_ok _ _ _ _ _ _ A) as [_ R]. inversion R; try discriminate. assumption.
  Qed.
End Stays.

Section Run.
  Variable v : variant.
  Variable E : env.
  Variable keccak : bytes -> Z.
  Variable pairing : list (G1 * G2c) -> bool.
  Variable c : Zkdvrf.cfg.
  Notation hist := (Histories.hist v E c).
  Variable poseidon : Fr -> Fr -> Fr.
  Variable J : json.
  Hypothesis HJ : json_ok J.
  Variable lag : list bytes -> Z -> list bytes.
  Variables vkey pkey : Type.
  Variable vk_write : vkey -> bytes.
  Variable vk_read : bytes -> res vkey.
  Variable pk_write : pkey -> bytes.
  Variable pk_read : bytes -> res pkey.
  Variable keygen_vk : kzg -> config -> res vkey.
  Variable keygen_pk : kzg -> vkey -> config -> res pkey.
  Variable get_vk : pkey -> vkey.
  Variable create_proof : kzg -> pkey -> member_params -> list Fr -> Z -> res bytes.
  Variable verify_proof : kzg -> vkey -> bytes -> list Fr -> bool.
  Variable addr_text : Z -> bytes.
  Variable o : options.
  Hypothesis HO : options_ok c o.
  Notation iterate_ := (iterate keccak pairing poseidon J lag vkey pkey vk_write vk_read pk_write pk_read keygen_vk keygen_pk get_vk create_proof verify_proof addr_text o).
  Notation move_ := (move v E c keccak pairing poseidon J lag vkey pkey vk_write vk_read pk_write pk_read keygen_vk keygen_pk get_vk create_proof verify_proof addr_text o).
  Notation runs_ := (ServiceRun.runs v E c keccak pairing poseidon J lag vkey pkey vk_write vk_read pk_write pk_read keygen_vk keygen_pk get_vk create_proof verify_proof addr_text o).
  Notation calm_runs_ := (calm_runs v E c keccak pairing poseidon J lag vkey pkey vk_write vk_read pk_write pk_read keygen_vk keygen_pk get_vk create_proof verify_proof addr_text o).
  Notation me := (o_me o).
  Notation myfile := (member_name addr_text o).

  (** the service of an address that is not registered is about to be started, with any files *)
  Definition begins (w : world) : Prop :=
    hist (w_tr w) (w_st w) /\ ~ In me (map who (registrations (w_tr w))) /\ p_queue (w_proc w) = [] /\ p_life (w_proc w) = Stopped /\ p_since (w_proc w) = w_tr w.
  Lemma begins_good w : begins w -> RunProofs.good v E c J addr_text o w.
  Proof.
    intros (H & N & Q & L & S). constructor; auto.
    - rewrite S. apply prefix_refl.
    - intros x I W. destruct N. apply in_map_iff. eauto.
    - rewrite Q. intros a m [].
    - rewrite L. discriminate.
    - rewrite Q. intros [|] ? ? X; discriminate X.
    - rewrite L. discriminate.
  Qed.
  Lemma calm_good w w' : begins w -> calm_runs_ w w' -> RunProofs.good v E c J addr_text o w'.
  Proof.
    intros B R. exact (RunProofs.good_runs v E keccak pairing c poseidon J HJ lag vkey pkey vk_write vk_read pk_write pk_read keygen_vk keygen_pk get_vk create_proof verify_proof addr_text o HO w w' R (begins_good w B)).
  Qed.

  (** whatever happens, as long as the process is not started while a registration is pending, the key registered for the
      node is the one whose secret is in its member file *)
  Theorem C68_key_kept w w' x : begins w -> calm_runs_ w w' -> In x (registrations (w_tr w')) -> who x = me ->
    exists m, member_file J (p_fs (w_proc w')) myfile m /\ key x = enck (mk_pk m).
  Proof. intros B R I W. exact (gd_file _ _ _ _ _ _ _ (calm_good w w' B R) x I W). Qed.
  (** .. the registrations it has sent and that are not executed yet are at most one, the loop is waiting for it, the node is
      not registered, and, if no deposit is asked for and the drawn key is not the point at infinity, it will be accepted *)
  Theorem C68_registers_once w w' pk m q1 q2 : begins w -> calm_runs_ w w' -> p_queue (w_proc w') = q1 ++ (RegisterNode pk, m) :: q2 ->
    q2 = [] /\ m = Awaited /\ ~ In me (map who (registrations (w_tr w'))) /\
    (contractPhase (w_st w') = Unregistered) /\
    (c_minDeposit c = 0 -> isOnCurve pk = true -> exists x, apply v E (w_st w') (mkTx me 0 (RegisterNode pk)) = Ok x).
  Proof.
    intros B R Q. pose proof (calm_good w w' B R) as G. destruct (gd_queue _ _ _ _ _ _ _ G (RegisterNode pk) m) as (-> & N & Ad & pk' & X & mm & Mf & Pk); [rewrite Q; apply in_or_app; right; left; reflexivity|reflexivity|].
    injection X as <-. pose proof (gd_hist _ _ _ _ _ _ _ G) as H.
    assert (P : contractPhase (w_st w') = Unregistered).
    { destruct (contractPhase (w_st w')) eqn:P; [reflexivity|..]; exfalso; apply N, (all_registered v E c _ _ me H); try exact Ad; rewrite P; discriminate. }
    split; [exact (gd_last _ _ _ _ _ _ _ G _ _ _ Q)|]. split; [reflexivity|]. split; [exact N|]. split; [exact P|]. intros Md Oc.
    destruct (F_register v E c _ _ me pk H P (oo_me _ _ HO)) as (s' & ev & A & _); [rewrite Md; reflexivity|exact Ad|exact N|exact Oc|rewrite Pk; apply enck_u256|].
    rewrite Md in A. eauto.
  Qed.

  Lemma steady tr s : hist tr s -> ServiceRun.reads v E c tr tr (fun _ => tr) (fun _ => s).
  Proof. intros H k. split; [exact H|]. split; [apply prefix_refl|]. split; apply prefix_refl. Qed.
  Lemma runs_one w w' l : move_ l w w' -> runs_ w w'.
  Proof. intros M. eapply runs_step; [apply runs_refl|exact M]. Qed.
  Lemma runs_trans w w' w'' : runs_ w w' -> runs_ w' w'' -> runs_ w w''.
  Proof. intros A B. induction B as [|w1 w2 w3 l B IH M]; [exact A|]. eapply runs_step; [exact (IH A)|exact M]. Qed.
  Lemma others_run tr s p later : forall s', hist tr s -> Forall (fun x => sender (txn x) <> me) later -> hist (tr ++ later) s' -> runs_ (World tr s p) (World (tr ++ later) s' p).
  Proof.
    induction later as [|x later IH] using rev_ind; intros s' H F H'.
    - rewrite app_nil_r in *. rewrite (hist_fun v E c _ _ _ H H'). apply runs_refl.
    - apply Forall_app in F as [F Fx]. rewrite app_assoc in *. inversion H' as [s0 _ C' Eq|tr0 s0 t0 H0 Eq Es]; [destruct (tr ++ later); discriminate Eq|].
      apply app_inj_tail in Eq as [-> Eq]. subst x. eapply runs_step; [exact (IH s0 H F H0)|]. apply m_others. inversion Fx. assumption.
  Qed.

  (** nothing waits for the dealing: polled again before the dealing is executed, the service makes another one, and the end
      of either ends the process, although the first is accepted *)
  Theorem C68_second_dealing tr s fs d1 d2 w1 w2 r2 pp zk x : hist tr s ->
    iterate_ (c_threshold c) d1 (fun _ => s) fs = (w1, Ok (Some (SubmitPublicParams pp zk, Fired))) -> apply v E s (mkTx me 0 (SubmitPublicParams pp zk)) = Ok x ->
    iterate_ (c_threshold c) d2 (fun _ => s) (effects fs w1) = (w2, r2) ->
    exists w', runs_ (World tr s (Proc fs Polling [] tr)) w' /\ p_fs (w_proc w') = effects (effects fs w1) w2 /\
      p_life (w_proc w') = Stopped /\ p_queue (w_proc w') = [] /\ In me (map psender (submissions (w_tr w'))).
  Proof.
    intros H I1 A I2. set (t1 := mkTx me 0 (SubmitPublicParams pp zk)) in *. destruct x as [s1 ev1].
    assert (P : node_poll o (c_threshold c) (fun _ => s) = NSubmitPP).
    { unfold iterate in I1. destruct (node_poll o (c_threshold c) (fun _ => s)) as [| | |dv]; [discriminate I1| |reflexivity|]; exfalso.
      - unfold cbind in I1. destruct (node_register _ _ _ _ _ _ _ _ _ _ _ _ _ _ _ _ _ _ _ fs) as [w [a| |]]; discriminate I1.
      - unfold cbind at 1 in I1. match type of I1 with (let '(_, _) := ?m in _) = _ => destruct m as [w [a| |]] end; [|discriminate I1|discriminate I1].
        unfold cbind in I1. destruct (node_submit_eval _ _ _ _ _ _ _ _ _ _ _ _ _ _ _ _ _ _ _ (effects fs w)) as [w9 [b| |]]; discriminate I1. }
    set (W0 := World tr s (Proc fs Polling [] tr)). set (fs1 := effects fs w1) in *.
    set (W1 := World tr s (Proc fs1 Polling [(SubmitPublicParams pp zk, Fired)] tr)).
    assert (M1 : move_ Iterate W0 W1) by exact (m_iterate v E c keccak pairing poseidon J lag vkey pkey vk_write vk_read pk_write pk_read keygen_vk keygen_pk get_vk create_proof verify_proof addr_text o tr s (Proc fs Polling [] tr) d1 _ _ w1 _ eq_refl (steady tr s H) I1).
    pose proof (m_iterate v E c keccak pairing poseidon J lag vkey pkey vk_write vk_read pk_write pk_read keygen_vk keygen_pk get_vk create_proof verify_proof addr_text o tr s (Proc fs1 Polling [(SubmitPublicParams pp zk, Fired)] tr) d2 _ _ w2 r2 eq_refl (steady tr s H) I2) as M2.
    set (x1 := mkStep s t1 (apply v E s t1)). assert (Hx : hist (tr ++ [x1]) (exec v E s t1)) by (apply hist_tx; exact H).
    assert (S1 : In me (map psender (submissions (tr ++ [x1])))).
    { rewrite submissions_app, map_app. apply in_or_app. right. unfold x1. rewrite A, submissions_one. left. reflexivity. }
    assert (Ax : accepted x1 = true) by (unfold x1, accepted; cbn [outcome]; rewrite A; reflexivity).
    assert (Stops : forall f l q, l = Stopped -> exists w', runs_ (World tr s (Proc f l ((SubmitPublicParams pp zk, Fired) :: q) tr)) w' /\ p_fs (w_proc w') = f /\ p_life (w_proc w') = Stopped /\ p_queue (w_proc w') = q /\ In me (map psender (submissions (w_tr w')))).
    { intros f l q ->. eexists. split; [apply (runs_one _ _ Included); apply m_included|]. cbn [w_proc w_tr p_life p_queue p_fs noticed]. split; [reflexivity|]. split; [reflexivity|]. split; [reflexivity|]. exact S1. }
    assert (W02 : forall w', runs_ (World tr s (after (Proc fs1 Polling [(SubmitPublicParams pp zk, Fired)] tr) w2 r2 tr)) w' -> runs_ W0 w').
    { intros w' X. eapply runs_trans; [eapply runs_step; [exact (runs_one _ _ _ M1)|exact M2]|exact X]. }
    destruct r2 as [[[a2 m2]|]|e|e].
    - (* a second transaction *)
      assert (T2 : m2 = Fired /\ exists pp2 zk2, a2 = SubmitPublicParams pp2 zk2).
      { unfold iterate in I2. rewrite P in I2. unfold cbind in I2. destruct (node_submit_pp _ _ _ _ _ _ _ _ _ _ _ _ _ _ _ _ _ _ _ _ _ fs1) as [w [a| |]] eqn:D; [|discriminate I2|discriminate I2].
        cbn [cret] in I2. injection I2 as _ <- <-. split; [reflexivity|].
        assert (N : noreg (fun a => exists pp2 zk2, a = SubmitPublicParams pp2 zk2) (node_submit_pp keccak pairing poseidon J lag vkey pkey vk_write vk_read pk_write pk_read keygen_vk keygen_pk get_vk create_proof verify_proof o (fun k => s) (d_coeffs d2) (d_r d2) (d_seed d2))).
        { unfold node_submit_pp. repeat (apply noreg_bind; intros ?). apply noreg_lift. intros y X. apply bind_ok in X as (z & _ & X). injection X as <-. eauto. }
        apply (N fs1). rewrite D. reflexivity. }
      destruct T2 as (-> & pp2 & zk2 & ->). cbn [after p_fs p_queue p_life app] in W02. set (fs2 := effects fs1 w2) in *.
      set (t2 := mkTx me 0 (SubmitPublicParams pp2 zk2)). set (x2 := mkStep (exec v E s t1) t2 (apply v E (exec v E s t1) t2)).
      assert (Rf : accepted x2 = false).
      { unfold x2, accepted. cbn [outcome]. destruct (apply v E (exec v E s t1) t2) as [[s2 ev2]| |] eqn:A2; [|reflexivity|reflexivity]. exfalso.
        destruct (C28_accepted_vector v E c _ _ t2 s2 ev2 pp2 zk2 Hx A2 eq_refl) as (_ & _ & Ns & _). exact (Ns S1). }
      eexists. split; [apply W02; eapply runs_step; [apply (runs_one _ _ Included); apply m_included|apply m_included]|].
      fold t1. fold x1. fold t2. fold x2. rewrite Ax, Rf. cbn [w_proc w_tr p_life p_queue p_fs noticed]. split; [reflexivity|]. split; [reflexivity|]. split; [reflexivity|].
      rewrite submissions_app, map_app. apply in_or_app. left. exact S1.
    - exfalso. unfold iterate in I2. rewrite P in I2. unfold cbind in I2. destruct (node_submit_pp _ _ _ _ _ _ _ _ _ _ _ _ _ _ _ _ _ _ _ _ _ fs1) as [w [a| |]]; discriminate I2.
    - destruct (Stops (effects fs1 w2) Stopped [] eq_refl) as (w' & X & Y). exists w'. split; [apply W02; exact X|exact Y].
    - destruct (Stops (effects fs1 w2) Stopped [] eq_refl) as (w' & X & Y). exists w'. split; [apply W02; exact X|exact Y].
  Qed.

  (** an evaluation the contract would have accepted when it was made: if nobody has finished the round when it is executed,
      it is accepted and the service goes on; if the random is already there, the service ends *)
  Theorem C68_evaluation_race tr s fs d w1 e x later s' : hist tr s ->
    iterate_ (c_threshold c) d (fun _ => s) fs = (w1, Ok (Some (SubmitPartialEval e, Awaited))) -> apply v E s (mkTx me 0 (SubmitPartialEval e)) = Ok x ->
    hist (tr ++ later) s' -> Forall (fun y => sender (txn y) <> me) later -> currentRoundNum s' = currentRoundNum s ->
    exists w', runs_ (World tr s (Proc fs Polling [] tr)) w' /\ p_queue (w_proc w') = [] /\ p_fs (w_proc w') = effects fs w1 /\
      ((no_random s' (currentRoundNum s') /\ p_life (w_proc w') = Polling /\ In (me, e) (evals (w_tr w') (currentRoundNum s'))) \/
       (~ no_random s' (currentRoundNum s') /\ p_life (w_proc w') = Stopped /\ w_st w' = s')).
  Proof.
    intros H I1 A H' F Rn. set (t := mkTx me 0 (SubmitPartialEval e)) in *.
    pose proof (m_iterate v E c keccak pairing poseidon J lag vkey pkey vk_write vk_read pk_write pk_read keygen_vk keygen_pk get_vk create_proof verify_proof addr_text o tr s (Proc fs Polling [] tr) d _ _ w1 _ eq_refl (steady tr s H) I1) as M1.
    cbn [after p_fs p_queue app] in M1. pose proof (others_run tr s (Proc (effects fs w1) Waiting [(SubmitPartialEval e, Awaited)] tr) later s' H F H') as R1.
    assert (Ne : ~ In me (map fst (evals (tr ++ later) (currentRoundNum s)))).
    { rewrite evals_app, map_app. intros I. apply in_app_or in I as [I|I].
      - destruct x as [s1 ev1]. destruct (C32_accept_conditions v E c _ _ t s1 ev1 e H A eq_refl) as (_ & _ & N & _). exact (N I).
      - clear -I F. apply in_map_iff in I as ([a e0] & X & I). cbn [fst] in X. subst a. unfold evals in I. apply in_flat_map in I as (y & Iy & I).
        rewrite Forall_forall in F. specialize (F y Iy). destruct (accepted y && _); [|destruct I]. destruct (what (txn y)); try (destruct I; fail). destruct I as [I|[]]. injection I as I _. congruence. }
    assert (D : no_random s' (currentRoundNum s') \/ ~ no_random s' (currentRoundNum s')).
    { destruct (Z.eq_dec (rvalue (roundToRandom s' (currentRoundNum s'))) 0) as [Z0|Z0]; [left; apply no_random_iff; exact Z0|right; intros X; apply no_random_iff in X; exact (Z0 X)]. }
    set (x1 := mkStep s' t (apply v E s' t)).
    eexists. split; [eapply runs_step; [eapply runs_trans; [exact (runs_one _ _ _ M1)|exact R1]|apply m_included]|]. fold t. fold x1. cbn [w_proc w_tr w_st p_queue p_fs p_life noticed].
    split; [reflexivity|]. split; [reflexivity|]. destruct D as [D|D]; [left|right]; (split; [exact D|]).
    - destruct (C68_evaluation_stays v E c tr s later s' me e x H A H' Rn) as [y Ay]; [rewrite <- Rn; exact D|exact Ne|]. fold t in Ay.
      assert (Ax : accepted x1 = true) by (unfold x1, accepted; cbn [outcome]; rewrite Ay; reflexivity). rewrite Ax. split; [reflexivity|].
      rewrite evals_app. apply in_or_app. right. unfold evals. cbn [flat_map]. rewrite Ax. cbn [before x1 txn what t andb sender]. rewrite Z.eqb_refl. left. reflexivity.
    - pose proof (C68_evaluation_late v E s' me e D) as Rf. fold t in Rf. assert (Ax : accepted x1 = false).
      { unfold x1, accepted. cbn [outcome]. destruct (apply v E s' t) as [y| |] eqn:Ay; [destruct (Rf y eq_refl)|reflexivity|reflexivity]. }
      rewrite Ax. split; [reflexivity|]. unfold exec. destruct (apply v E s' t) as [[]| |] eqn:Ay; [destruct (Rf _ eq_refl)|reflexivity|reflexivity].
  Qed.
End Run.

(** ** a service that is started again while its registration is pending *)
Section Lost.
  Variable v : variant.
  Variable keccak : bytes -> Z.
  Variable in_g2 : G2c -> bool.
  Variable pairing : list (G1 * G2c) -> bool.
  Variable halo2 : Z -> bytes -> list Z -> res bool.
  Variable c : Zkdvrf.cfg.
  Notation E := (real_env keccak in_g2 pairing halo2).
  Notation hist := (Histories.hist v E c).
  Variable poseidon : Fr -> Fr -> Fr.
  Variable J : json.
  Hypothesis HJ : json_ok J.
  Variable lag : list bytes -> Z -> list bytes.
  Variables vkey pkey : Type.
  Variable vk_write : vkey -> bytes.
  Variable vk_read : bytes -> res vkey.
  Variable pk_write : pkey -> bytes.
  Variable pk_read : bytes -> res pkey.
  Variable keygen_vk : kzg -> config -> res vkey.
  Variable keygen_pk : kzg -> vkey -> config -> res pkey.
  Variable get_vk : pkey -> vkey.
  Variable create_proof : kzg -> pkey -> member_params -> list Fr -> Z -> res bytes.
  Variable verify_proof : kzg -> vkey -> bytes -> list Fr -> bool.
  Variable addr_text : Z -> bytes.
  Variable o : options.
  Hypothesis HO : options_ok c o.
  Notation iterate_ := (iterate keccak pairing poseidon J lag vkey pkey vk_write vk_read pk_write pk_read keygen_vk keygen_pk get_vk create_proof verify_proof addr_text o).
  Notation move_ := (move v E c keccak pairing poseidon J lag vkey pkey vk_write vk_read pk_write pk_read keygen_vk keygen_pk get_vk create_proof verify_proof addr_text o).
  Notation runs_ := (ServiceRun.runs v E c keccak pairing poseidon J lag vkey pkey vk_write vk_read pk_write pk_read keygen_vk keygen_pk get_vk create_proof verify_proof addr_text o).
  Notation calm_runs_ := (calm_runs v E c keccak pairing poseidon J lag vkey pkey vk_write vk_read pk_write pk_read keygen_vk keygen_pk get_vk create_proof verify_proof addr_text o).
  Notation me := (o_me o).
  Notation myfile := (member_name addr_text o).

  (** the whole course of the first registration: a node that the owner added and that is not registered, no deposit *)
  Definition ready_to_register (tr : list step) (s : st) (fs : fs) : Prop :=
    hist tr s /\ contractPhase s = Unregistered /\ c_minDeposit c = 0 /\ In me (added tr) /\ ~ In me (map who (registrations tr)) /\ good_fs fs /\ ~ In 47 (addr_text me).
  Lemma poll_register tr s : hist tr s -> contractPhase s = Unregistered -> In me (added tr) -> ~ In me (map who (registrations tr)) -> node_poll o (c_threshold c) (fun _ => s) = NRegister.
  Proof.
    intros H P Ad N. pose proof (inv1 _ _ _ _ _ H) as J1. unfold node_poll. rewrite (j_in _ _ _ _ J1 me Ad), Z.eqb_refl, P. destruct (j_nreg _ _ _ _ J1 me N) as (-> & _). reflexivity.
  Qed.
  Notation writes k := [(member_path myfile, Client.enc (j_member J) (of_member (member_random k)))].
  Notation pk_of k := (enck (mk_pk (member_random k))).
  Lemma register_step tr s fs d : ready_to_register tr s fs -> mk_pk (member_random (d_secret d)) <> g0 ->
    iterate_ (c_threshold c) d (fun _ => s) fs = (writes (d_secret d), Ok (Some (RegisterNode (pk_of (d_secret d)), Awaited))) /\
    (exists x, apply v E s (mkTx me 0 (RegisterNode (pk_of (d_secret d)))) = Ok x) /\ member_file J (effects fs (writes (d_secret d))) myfile (member_random (d_secret d)) /\ good_fs (effects fs (writes (d_secret d))).
  Proof.
    intros (H & P & Md & Ad & N & G & N47) NZ.
    destruct (registers v keccak in_g2 pairing halo2 c poseidon J HJ lag vkey pkey vk_write vk_read pk_write pk_read keygen_vk keygen_pk get_vk create_proof verify_proof addr_text o HO tr s fs (d_secret d) H P Md Ad N G N47 NZ) as (s' & ev & X).
    cbv zeta in X. destruct X as (X1 & X2 & _ & _ & X5). split; [|split; [eauto|split; [exact X5|]]].
    - unfold iterate. rewrite (poll_register tr s H P Ad N). unfold cbind. rewrite X1. cbn [cret]. rewrite app_nil_r. reflexivity.
    - apply good_effects; [|exact G]. constructor; [|constructor]. cbn [fst].
      exists MEMBERS_DIR, (str "member_" ++ addr_text me). split; [|split; [apply (in_dirs_nth 1); lia|apply in_app47; [no47|exact N47]]].
      unfold member_path, member_name, jp, join. cbn [concat]. rewrite !app_nil_r. reflexivity.
  Qed.
  Lemma regs_one tr s a pk x : apply v E s (mkTx a 0 (RegisterNode pk)) = Ok x -> In (a, pk, 0) (registrations (tr ++ [mkStep s (mkTx a 0 (RegisterNode pk)) (apply v E s (mkTx a 0 (RegisterNode pk)))])).
  Proof. intros A. apply regs_in. right. apply regs_step. rewrite A. split; [eauto|]. eexists. split; reflexivity. Qed.
  (** undisturbed, the node is registered under the key of its member file and goes on *)
  Theorem C68_registers_undisturbed tr s fs d : ready_to_register tr s fs -> mk_pk (member_random (d_secret d)) <> g0 ->
    exists w', calm_runs_ (World tr s (Proc fs Stopped [] tr)) w' /\ In (me, pk_of (d_secret d), 0) (registrations (w_tr w')) /\
      member_file J (p_fs (w_proc w')) myfile (member_random (d_secret d)) /\ p_life (w_proc w') = Polling /\ p_queue (w_proc w') = [].
  Proof.
    intros Rd NZ. destruct (register_step tr s fs d Rd NZ) as (I1 & [x A] & Mf & _). destruct Rd as (H & P & Md & Ad & N & G & N47). pose proof (inv0 _ _ _ _ _ H) as J0.
    assert (Cf : is_ok (check_config o s) = true).
    { unfold check_config. rewrite (i_t _ _ J0), (i_n _ _ J0), <- (oo_t _ _ HO), <- (oo_n _ _ HO), !Z.eqb_refl. reflexivity. }
    pose proof (m_restart v E c keccak pairing poseidon J lag vkey pkey vk_write vk_read pk_write pk_read keygen_vk keygen_pk get_vk create_proof verify_proof addr_text o tr s (Proc fs Stopped [] tr)) as M0. cbn [p_fs p_queue map] in M0. rewrite Cf in M0.
    pose proof (m_iterate v E c keccak pairing poseidon J lag vkey pkey vk_write vk_read pk_write pk_read keygen_vk keygen_pk get_vk create_proof verify_proof addr_text o tr s (Proc fs Polling [] tr) d _ _ _ _ eq_refl (steady v E c tr s H) I1) as M1.
    cbn [after p_fs p_queue app] in M1.
    eexists. split.
    - eapply calm_step; [eapply calm_step; [eapply calm_step; [apply calm_refl|exact M0|]|exact M1|discriminate]|apply m_included|discriminate].
      intros _ (a & m & I & _). destruct I.
    - cbn [w_proc w_tr p_life p_queue p_fs]. split; [apply (regs_one tr s me _ x A)|]. split; [exact Mf|]. split; [|reflexivity].
      unfold accepted. cbn [outcome]. rewrite A. reflexivity.
  Qed.
  (** started again while the registration is pending, it draws a second key: the contract has the first one, the member
      file the second, and the service ends *)
  Theorem C68_restart_loses_key tr s fs d1 d2 : ready_to_register tr s fs -> d_secret d1 <> d_secret d2 ->
    mk_pk (member_random (d_secret d1)) <> g0 -> mk_pk (member_random (d_secret d2)) <> g0 ->
    exists w' m, runs_ (World tr s (Proc fs Polling [] tr)) w' /\ In (me, pk_of (d_secret d1), 0) (registrations (w_tr w')) /\
      member_file J (p_fs (w_proc w')) myfile m /\ enck (mk_pk m) <> pk_of (d_secret d1) /\ p_life (w_proc w') = Stopped /\ p_queue (w_proc w') = [].
  Proof.
    intros Rd Nd NZ1 NZ2. destruct (register_step tr s fs d1 Rd NZ1) as (I1 & [x A] & _ & G1'). set (fs1 := effects fs (writes (d_secret d1))) in *.
    assert (Rd1 : ready_to_register tr s fs1) by (destruct Rd as (R1 & R2 & R3 & R4 & R5 & R6 & R7); repeat (split; [assumption|]); assumption).
    destruct (register_step tr s fs1 d2 Rd1 NZ2) as (I2 & _ & Mf & _). destruct Rd as (H & P & Md & Ad & N & G & N47). pose proof (inv0 _ _ _ _ _ H) as J0.
    assert (Cf : is_ok (check_config o s) = true).
    { unfold check_config. rewrite (i_t _ _ J0), (i_n _ _ J0), <- (oo_t _ _ HO), <- (oo_n _ _ HO), !Z.eqb_refl. reflexivity. }
    pose proof (m_iterate v E c keccak pairing poseidon J lag vkey pkey vk_write vk_read pk_write pk_read keygen_vk keygen_pk get_vk create_proof verify_proof addr_text o tr s (Proc fs Polling [] tr) d1 _ _ _ _ eq_refl (steady v E c tr s H) I1) as M1.
    cbn [after p_fs p_queue app] in M1. fold fs1 in M1.
    pose proof (m_restart v E c keccak pairing poseidon J lag vkey pkey vk_write vk_read pk_write pk_read keygen_vk keygen_pk get_vk create_proof verify_proof addr_text o tr s (Proc fs1 Waiting [(RegisterNode (pk_of (d_secret d1)), Awaited)] tr)) as M2. cbn [p_fs p_queue map fst] in M2. rewrite Cf in M2.
    pose proof (m_iterate v E c keccak pairing poseidon J lag vkey pkey vk_write vk_read pk_write pk_read keygen_vk keygen_pk get_vk create_proof verify_proof addr_text o tr s (Proc fs1 Polling [(RegisterNode (pk_of (d_secret d1)), Orphan)] tr) d2 _ _ _ _ eq_refl (steady v E c tr s H) I2) as M3.
    cbn [after p_fs p_queue app] in M3. set (fs2 := effects fs1 (writes (d_secret d2))) in *.
    set (t1 := mkTx me 0 (RegisterNode (pk_of (d_secret d1)))) in *. set (t2 := mkTx me 0 (RegisterNode (pk_of (d_secret d2)))).
    set (x1 := mkStep s t1 (apply v E s t1)). set (s1 := exec v E s t1). set (x2 := mkStep s1 t2 (apply v E s1 t2)).
    pose proof (regs_one tr s me _ x A) as Rg. fold t1 in Rg. fold x1 in Rg. assert (Hx : hist (tr ++ [x1]) s1) by (apply hist_tx; exact H).
    assert (Rf : accepted x2 = false).
    { unfold x2, accepted. cbn [outcome]. destruct (apply v E s1 t2) as [[s2 ev2]| |] eqn:A2; [|reflexivity|reflexivity]. exfalso.
      destruct (C27_who_may v E c _ _ t2 s2 ev2 Hx A2) as [_ W]. destruct (W _ eq_refl) as (_ & Nr & _). apply Nr. apply in_map_iff. exists (me, pk_of (d_secret d1), 0). split; [reflexivity|exact Rg]. }
    eexists _, (member_random (d_secret d2)). split.
    - eapply runs_step; [eapply runs_step; [eapply runs_step; [eapply runs_step; [eapply runs_step; [apply runs_refl|exact M1]|exact M2]|exact M3]|apply m_included]|apply m_included].
    - fold t1. fold s1. fold x1. fold t2. fold x2. rewrite Rf. cbn [w_proc w_tr p_life p_queue p_fs noticed].
      split; [apply regs_in; left; exact Rg|]. split; [exact Mf|]. split; [|split; reflexivity].
      intros X. apply enck_inj in X. apply Nd. symmetry. exact (smul_inj Gk q_mod q_prime Gk_exponent (d_secret d2) (d_secret d1) gk gk_neq0 X).
  Qed.
End Lost.

(** ** instances: a 2-of-3 contract without deposit and a 3-of-3 one, three members, a client that proves *)
Notation run_of X v c ig pr o := (X v (real_env live_keccak ig pr (fun _ _ _ => Ok true)) c live_keccak pr (fun a _ : Fr => a) some_json (fun g (_ : Z) => g) unit unit
  (fun _ => @nil Z) (fun _ => Ok tt) (fun _ => @nil Z) (fun _ => Ok tt) (fun _ _ => Ok tt) (fun _ _ _ => Ok tt) (fun _ => tt) (fun _ _ _ _ _ => Ok (@nil Z)) (fun _ _ _ _ => true) (fun _ => str "0x65") o).
Notation iterate_of pr o := (iterate live_keccak pr (fun a _ : Fr => a) some_json (fun g (_ : Z) => g) unit unit
  (fun _ => @nil Z) (fun _ => Ok tt) (fun _ => @nil Z) (fun _ => Ok tt) (fun _ _ => Ok tt) (fun _ _ _ => Ok tt) (fun _ => tt) (fun _ _ _ _ _ => Ok (@nil Z)) (fun _ _ _ _ => true) (fun _ => str "0x65") o).
Definition a_draw (k : Z) : draws := Draws (fq k) [fr 11; fr 12] (fr 13) 1 (fr 9).
Lemma key_ok k : 0 < k < 8 -> mk_pk (member_random (fq k)) <> g0.
Proof. intros B. apply key_neq0. assert (8 < q_mod) by reflexivity. lia. Qed.
Lemma fq_56 : fq 5 <> fq 6.
Proof. intros X. apply of_Z_inj_mod in X. revert X. vm_compute. discriminate. Qed.
Lemma me_ok : options_ok d_cfg (Opts 2 3 1 101).
Proof. constructor; cbn [o_threshold o_members o_degree o_me c_threshold c_number d_cfg]; try lia; split; reflexivity. Qed.
Lemma ready_exists v ig pr : exists tr s, ready_to_register v live_keccak ig pr (fun _ _ _ => Ok true) d_cfg (fun _ => str "0x65") (Opts 2 3 1 101) tr s demo_fs.
Proof.
  assert (exists s0, construct d_cfg = Ok s0) as [s0 C0] by (eexists; reflexivity). set (E := real_env live_keccak ig pr (fun _ _ _ => Ok true)).
  pose proof (construct_ok d_cfg s0 C0) as (_ & _ & E0). assert (H0 : Histories.hist v E d_cfg [] s0) by (constructor; [reflexivity|exact C0]).
  assert (O0 : owner s0 = 77) by (rewrite E0; reflexivity). assert (P0 : contractPhase s0 = Unregistered) by (rewrite E0; reflexivity).
  destruct (F_add v E d_cfg [] s0 101 H0) as (s1 & A & O1 & P1); [rewrite O0; split; reflexivity|split; reflexivity|cbn; lia|intros []|].
  exists ([] ++ [mkStep s0 (mkTx (owner s0) 0 (AddPermissionedNodes 101)) (Ok (s1, []))]), s1. unfold ready_to_register.
  split; [apply hist_ok; auto|]. split; [congruence|]. split; [reflexivity|]. split; [left; reflexivity|]. split; [intros []|]. split; [exact demo_good|].
  vm_compute. intuition discriminate.
Qed.
(** a registration that goes well, and one lost by a restart *)
Example C68_meets_registration v ig pr : exists tr s w1 w2 m, Histories.hist v (real_env live_keccak ig pr (fun _ _ _ => Ok true)) d_cfg tr s /\
  run_of calm_runs v d_cfg ig pr (Opts 2 3 1 101) (World tr s (Proc demo_fs Stopped [] tr)) w1 /\ In (101, enck (mk_pk (member_random (fq 5))), 0) (registrations (w_tr w1)) /\
  run_of ServiceRun.runs v d_cfg ig pr (Opts 2 3 1 101) (World tr s (Proc demo_fs Polling [] tr)) w2 /\ In (101, enck (mk_pk (member_random (fq 5))), 0) (registrations (w_tr w2)) /\
  member_file some_json (p_fs (w_proc w2)) (member_name (fun _ => str "0x65") (Opts 2 3 1 101)) m /\ enck (mk_pk m) <> enck (mk_pk (member_random (fq 5))) /\ p_life (w_proc w2) = Stopped.
Proof.
  destruct (ready_exists v ig pr) as (tr & s & R). pose proof (proj1 R) as H.
  destruct (C68_registers_undisturbed v live_keccak ig pr (fun _ _ _ => Ok true) d_cfg (fun a _ : Fr => a) some_json some_json_ok (fun g (_ : Z) => g) unit unit (fun _ => @nil Z) (fun _ => Ok tt) (fun _ => @nil Z) (fun _ => Ok tt)
    (fun _ _ => Ok tt) (fun _ _ _ => Ok tt) (fun _ => tt) (fun _ _ _ _ _ => Ok []) (fun _ _ _ _ => true) (fun _ => str "0x65") (Opts 2 3 1 101) me_ok tr s demo_fs (a_draw 5) R (key_ok 5 ltac:(lia))) as (w1 & R1 & I1 & _).
  destruct (C68_restart_loses_key v live_keccak ig pr (fun _ _ _ => Ok true) d_cfg (fun a _ : Fr => a) some_json some_json_ok (fun g (_ : Z) => g) unit unit (fun _ => @nil Z) (fun _ => Ok tt) (fun _ => @nil Z) (fun _ => Ok tt)
    (fun _ _ => Ok tt) (fun _ _ _ => Ok tt) (fun _ => tt) (fun _ _ _ _ _ => Ok []) (fun _ _ _ _ => true) (fun _ => str "0x65") (Opts 2 3 1 101) me_ok tr s demo_fs (a_draw 5) (a_draw 6) R fq_56 (key_ok 5 ltac:(lia)) (key_ok 6 ltac:(lia))) as (w2 & m & R2 & I2 & M2 & N2 & L2 & _).
  exists tr, s, w1, w2, m. split; [exact H|]. split; [exact R1|]. split; [exact I1|]. split; [exact R2|]. split; [exact I2|]. split; [exact M2|]. split; [exact N2|exact L2].
Qed.
(** a contract in Nidkg *)
Lemma dealing_exists v ig pr : exists tr s, let E := real_env live_keccak ig pr (fun _ _ _ => Ok true) in Histories.hist v E d_cfg tr s /\ contractPhase s = Nidkg /\
  map who (registrations tr) = [101; 102; 103] /\ submissions tr = [] /\ getPkList s = map enck (map mk_pk demo_members).
Proof.
  assert (exists s0, construct d_cfg = Ok s0) as [s0 C0] by (eexists; reflexivity). set (E := real_env live_keccak ig pr (fun _ _ _ => Ok true)). cbv zeta.
  pose proof (construct_ok d_cfg s0 C0) as (_ & _ & E0). set (ks := [enck (mk_pk (member_random (fq 5))); enck (mk_pk (member_random (fq 6))); enck (mk_pk (member_random (fq 7)))]).
  assert (own : addr (c_owner d_cfg)) by (split; reflexivity). assert (dep : is_u256 (c_minDeposit d_cfg) = true) by reflexivity. assert (pos : 0 < c_number d_cfg) by (cbn; lia).
  assert (G0 : Setup.good v E d_cfg [] s0) by (constructor; [constructor; [reflexivity|exact C0]|reflexivity|rewrite E0; reflexivity|reflexivity]). assert (P0 : contractPhase s0 = Unregistered) by (rewrite E0; reflexivity).
  assert (Fa : Forall addr [101; 102; 103]) by (repeat apply Forall_cons; try apply Forall_nil; split; reflexivity).
  assert (ND : NoDup [101; 102; 103]) by (repeat constructor; cbn; intuition lia).
  destruct (add_all v E d_cfg own [101; 102; 103] [] s0 G0 P0 eq_refl eq_refl Fa ND) as (tr1 & s1 & G1 & P1 & A1 & R1 & S1); [cbn; lia|]. cbn [app added flat_map] in A1.
  assert (F : Forall (fun '(a, p) => addr a /\ isOnCurve p = true /\ pt_ok256 p = true) (combine [101; 102; 103] ks)).
  { unfold ks. cbn [combine]. repeat apply Forall_cons; try apply Forall_nil; (split; [split; reflexivity|]); (split; [apply enck_on_curve, key_ok; lia|apply enck_u256]). }
  destruct (register_all v E d_cfg dep (combine [101; 102; 103] ks) tr1 s1 G1 P1 S1 F) as (tr2 & s2 & G2 & P2 & A2 & R2 & S2).
  { discriminate. } { rewrite A1. apply incl_refl. } { rewrite R1. exact ND. } { rewrite R1. reflexivity. }
  rewrite R1 in R2. cbn [app] in R2.
  destruct (F_start v E d_cfg tr2 s2 (g_hist _ _ _ _ _ G2)) as (s3 & ev & X & O & P3); auto.
  { rewrite (g_own _ _ _ _ _ G2). exact own. } { rewrite R2. reflexivity. }
  set (t := mkTx (owner s2) 0 StartNidkg) in *. exists (tr2 ++ [mkStep s2 t (Ok (s3, ev))]), s3.
  assert (H3 : Histories.hist v E d_cfg (tr2 ++ [mkStep s2 t (Ok (s3, ev))]) s3) by (apply hist_ok; [exact (g_hist _ _ _ _ _ G2)|exact X]).
  assert (R3 : registrations (tr2 ++ [mkStep s2 t (Ok (s3, ev))]) = registrations tr2) by (rewrite registrations_app, registrations_one; apply app_nil_r).
  split; [exact H3|]. split; [exact P3|]. split; [rewrite R3, R2; reflexivity|]. split; [rewrite submissions_app, submissions_one, S2; reflexivity|].
  unfold getPkList. rewrite (j_pk _ _ _ _ (inv1 _ _ _ _ _ H3)), R3, R2. reflexivity.
Qed.
(** two dealings *)
Example C68_meets_dealing v : exists ig pr tr s w', Histories.hist v (real_env live_keccak ig pr (fun _ _ _ => Ok true)) d_cfg tr s /\
  run_of ServiceRun.runs v d_cfg ig pr (Opts 2 3 1 101) (World tr s (Proc d_fs Polling [] tr)) w' /\
  p_life (w_proc w') = Stopped /\ p_queue (w_proc w') = [] /\ In 101 (map psender (submissions (w_tr w'))).
Proof.
  destruct in_g2_exists as [ig HG]. destruct pairing_exists as [pr HP]. destruct (dealing_exists v ig pr) as (tr & s & H & P & Wh & S & Pk). cbv zeta in *. exists ig, pr, tr, s.
  destruct (C11_member_instance (fun a _ : Fr => a) (mkConfig 2 3) (map mk_pk demo_members) [fr 11; fr 12] (fr 13)) as (mp & inst & Mp & _); [reflexivity|reflexivity|discriminate|].
  destruct (C49_submits v live_keccak ig pr (fun _ _ _ => Ok true) d_cfg (fun a _ : Fr => a) some_json some_json_ok (fun g (_ : Z) => g) unit unit (fun _ => @nil Z) (fun _ => Ok tt) (fun _ => @nil Z) (fun _ => Ok tt)
    (fun _ _ => Ok tt) (fun _ _ _ => Ok tt) (fun _ => tt) (fun _ _ _ _ _ => Ok []) (fun _ _ _ _ => true) (Opts 2 3 1 101) me_ok d_srs tt tt ltac:(cbn [o_degree]; lia) d_kzg) with
    (tr := tr) (s := s) (fs := d_fs) (keys := map mk_pk demo_members) (i := 0) (coeffs := [fr 11; fr 12]) (r := fr 13) (seed := 1) (mp := mp) as (w1 & pp & zk & s1 & ev & Sub & A & _).
  { intros pks coeffs r mp0 inst0 seed _ _ _ _. exists []. repeat split. } { exact H. } { exact P. } { rewrite Wh. reflexivity. } { rewrite S. intros []. } { exact Pk. } { reflexivity. } { exact Mp. } { exact d_prepared. }
  assert (NP : node_poll (Opts 2 3 1 101) (c_threshold d_cfg) (fun _ => s) = NSubmitPP).
  { assert (I : In 101 (map who (registrations tr))) by (rewrite Wh; left; reflexivity). pose proof (inv1 _ _ _ _ _ H) as J1.
    unfold node_poll. cbn [o_me]. rewrite (j_in _ _ _ _ J1 101 (j_rin _ _ _ _ J1 _ I)), Z.eqb_refl, P.
    destruct (statusPP (addrToNode s 101)) eqn:X; [|reflexivity]. exfalso. apply (k_st _ _ _ _ _ (inv2 _ _ _ _ _ H)) in X. rewrite S in X. exact X. }
  assert (I1 : iterate_of pr (Opts 2 3 1 101) (c_threshold d_cfg) (a_draw 5) (fun _ => s) d_fs = (w1 ++ [], Ok (Some (SubmitPublicParams pp zk, Fired)))).
  { unfold iterate. rewrite NP. unfold cbind at 1. cbn [d_coeffs d_r d_seed a_draw]. rewrite Sub. reflexivity. }
  match type of I1 with ?f _ (a_draw 5) _ _ = _ => destruct (f (c_threshold d_cfg) (a_draw 5) (fun _ => s) (effects d_fs (w1 ++ []))) as [w2 r2] eqn:I2 end.
  destruct (C68_second_dealing v (real_env live_keccak ig pr (fun _ _ _ => Ok true)) live_keccak pr d_cfg (fun a _ : Fr => a) some_json (fun g (_ : Z) => g) unit unit (fun _ => @nil Z) (fun _ => Ok tt) (fun _ => @nil Z) (fun _ => Ok tt)
    (fun _ _ => Ok tt) (fun _ _ _ => Ok tt) (fun _ => tt) (fun _ _ _ _ _ => Ok []) (fun _ _ _ _ => true) (fun _ => str "0x65") (Opts 2 3 1 101) tr s d_fs (a_draw 5) (a_draw 5) (w1 ++ []) w2 r2 pp zk _ H I1 A I2) as (w' & R & _ & L & Q & Sb).
  exists w'. split; [exact H|]. split; [exact R|]. split; [exact L|]. split; [exact Q|exact Sb].
Qed.
(** the second round of a 3-of-3 contract is open, everybody has taken part in the first *)
Lemma second_open v ig pr : in_g2_ok ig -> pairing_ok pr -> let E := real_env live_keccak ig pr (fun _ _ _ => Ok true) in
  exists tr s, Histories.hist v E stall_cfg tr s /\ contractPhase s = Ready /\ currentRoundNum s = 2 /\ no_random s 2 /\ owner s = 77 /\ getGpk s = enc2 (g2mul g2 (group_secret stall_dealers)) /\
    getVkList s = map enc (map (fun i => g1mul g1 (total stall_dealers (fr i))) (zseq 3)) /\ map who (registrations tr) = [101; 102; 103] /\ evals tr 2 = [] /\ lastSubmittedRound s 101 = 1.
Proof.
  intros HG HP E. set (gpp := mkGPP (g1mul g1 (group_secret stall_dealers)) (g2mul g2 (group_secret stall_dealers)) (map (fun i => g1mul g1 (total stall_dealers (fr i))) (zseq 3))).
  assert (D : deal_all (fun a _ => a) (mkConfig 3 3) demo_members stall_dealers = Ok (map (pp_of (fun a _ => a) demo_members) stall_dealers)) by apply stall_deal.
  assert (Gp : dkg_global_public_params (map (pp_of (fun a _ => a) demo_members) stall_dealers) = Ok gpp).
  { destruct stall_honest as [_ HL Hk Hd Hc]. apply (global_honest (fun a _ => a) (mkConfig 3 3) demo_members stall_dealers); auto. }
  destruct (ongoing_n v (fun a _ => a) ig pr HG HP _ gpp D Gp 1) as (tr & s & [H R O Wh VK GK Rd Dn La]); [reflexivity|]. change (Z.of_nat 1) with 1 in *.
  destruct (C53_round_opens v live_keccak ig pr (fun _ _ _ => Ok true) live_keccak_ok stall_cfg tr s H R) as (s1 & ev & A & C1 & (S1 & S2 & S3 & S4 & S5) & Rr1).
  { rewrite O. split; reflexivity. } { rewrite Rd. reflexivity. } { rewrite Rd. exact Dn. }
  set (t := mkTx (owner s) 0 InitiateRandom) in *. set (tr1 := tr ++ [mkStep s t (Ok (s1, ev))]). assert (H1 : Histories.hist v E stall_cfg tr1 s1) by (apply hist_ok; auto).
  rewrite Rd in C1. change (1 + 1) with 2 in C1.
  assert (R1 : registrations tr1 = registrations tr) by (unfold tr1; rewrite registrations_app, registrations_one; apply app_nil_r).
  pose proof (inv3 _ _ _ _ _ H) as J3.
  assert (EV : evals tr1 2 = []).
  { unfold tr1. rewrite evals_app, evals_one. cbn [what t]. destruct (evals tr 2) as [|[a e] l] eqn:X; [destruct (currentRoundNum s =? 2); reflexivity|].
    pose proof (m_range _ _ _ _ _ J3 2 a) as Y. rewrite X in Y. specialize (Y (or_introl eq_refl)). pose proof (m_last _ _ _ _ _ J3 a). lia. }
  assert (NR : no_random s1 2).
  { apply no_random_iff. rewrite Rr1, (r_last _ _ _ _ _ J3 2). destruct (randoms tr 2) as [|p l] eqn:X; [reflexivity|].
    pose proof (r_range _ _ _ _ _ J3 2) as Y. rewrite X in Y. specialize (Y ltac:(discriminate)). lia. }
  assert (L1 : lastSubmittedRound s1 101 = 1).
  { specialize (La 101 (or_introl eq_refl)). pose proof (m_last _ _ _ _ _ (inv3 _ _ _ _ _ H1) 101) as M. pose proof (m_lastin _ _ _ _ _ (inv3 _ _ _ _ _ H1) 101) as M2.
    pose proof (m_lastin _ _ _ _ _ J3 101 ltac:(lia)) as M3. rewrite La in M3.
    assert (I : In 101 (map fst (evals tr1 1))) by (unfold tr1; rewrite evals_app, map_app; apply in_or_app; left; exact M3).
    pose proof (m_range _ _ _ _ _ (inv3 _ _ _ _ _ H1) 1 101 I) as Y. destruct (Z.eq_dec (lastSubmittedRound s1 101) 2) as [X|X]; [|lia]. specialize (M2 ltac:(lia)). rewrite X, EV in M2. destruct M2. }
  exists tr1, s1. split; [exact H1|]. split; [congruence|]. split; [exact C1|]. split; [exact NR|]. split; [congruence|]. split; [rewrite S4; exact GK|]. split; [rewrite S3; exact VK|]. split; [rewrite R1; exact Wh|]. split; [exact EV|exact L1].
Qed.
(** an evaluation executed at once, and one that comes after the random of its round *)
Lemma race_exists ig pr : in_g2_ok ig -> pairing_ok pr -> let E := real_env live_keccak ig pr (fun _ _ _ => Ok true) in
  exists tr s fs w e x later s2, Histories.hist Plain E stall_cfg tr s /\
    iterate_of pr (Opts 3 3 18 101) (c_threshold stall_cfg) (a_draw 5) (fun _ => s) fs = (w, Ok (Some (SubmitPartialEval e, Awaited))) /\
    apply Plain E s (mkTx 101 0 (SubmitPartialEval e)) = Ok x /\ no_random s (currentRoundNum s) /\
    Histories.hist Plain E stall_cfg (tr ++ later) s2 /\ Forall (fun y => sender (txn y) <> 101) later /\ currentRoundNum s2 = currentRoundNum s /\ ~ no_random s2 (currentRoundNum s2).
Proof.
  intros HG HP E. destruct (second_open Plain ig pr HG HP) as (tr & s & H & R & C & NR & O & GK & VK & Wh & EV & La). set (vks := map (fun i => g1mul g1 (total stall_dealers (fr i))) (zseq 3)) in *.
  set (k := mkShareKey 1 (total stall_dealers (fr 1)) (g1mul g1 (total stall_dealers (fr 1)))).
  set (fs1 := set demo_fs (share_path 1) (File (Client.enc (j_share some_json) (of_share k)))). set (fs := set fs1 vks_path (File (Client.enc (j_points some_json) (map of_g1 vks)))).
  assert (G1' : good_fs fs1) by (unfold fs1; rewrite share_path_jp; apply good_set; exact demo_good).
  assert (G : good_fs fs) by (unfold fs; rewrite vks_jp; apply good_set; exact G1').
  assert (Ng : share_path 1 <> vks_path) by (apply (neq_at 11); vm_compute; discriminate).
  assert (HO : options_ok stall_cfg (Opts 3 3 18 101)) by (constructor; cbn [o_threshold o_members o_degree o_me c_threshold c_number stall_cfg]; try lia; split; reflexivity).
  assert (Sf : share_file some_json fs (0 + 1) k) by (unfold fs; apply holds_other; [exact Ng|]; apply holds_saved; [apply (ok_share _ some_json_ok)|apply share_round; reflexivity]).
  assert (Vf : vks_file some_json fs vks) by (apply holds_saved; [apply (ok_points _ some_json_ok)|]; exact (map_round of_g1 to_g1 _ g1_round)).
  assert (R1 : 1 <= currentRoundNum s) by (rewrite C; lia). assert (NR' : no_random s (currentRoundNum s)) by (rewrite C; exact NR).
  assert (Zi : znth (map who (registrations tr)) 0 = Some 101) by (rewrite Wh; reflexivity).
  assert (NI : ~ In 101 (map fst (evals tr (currentRoundNum s)))) by (rewrite C, EV; intros []).
  assert (Zv : znth vks 0 = Some (vk k)) by reflexivity.
  destruct (C49_evaluation_accepted Plain live_keccak ig pr (fun _ _ _ => Ok true) live_keccak_ok stall_cfg (fun a _ => a) some_json some_json_ok (fun g _ => g) unit unit (fun _ => []) (fun _ => Ok tt) (fun _ => []) (fun _ => Ok tt) (fun _ _ => Ok tt) (fun _ _ _ => Ok tt) (fun _ => tt)
              (fun _ _ _ _ _ => Ok []) (fun _ _ _ _ => true) (Opts 3 3 18 101) HO tr s 0 fs (fr 9) k vks H R1 NR' Zi NI G Sf Vf VK eq_refl eq_refl Zv) as (w & call & s' & ev & Cr & A & Cn).
  assert (NP : node_poll (Opts 3 3 18 101) (c_threshold stall_cfg) (fun _ => s) = NEvaluate false).
  { assert (I : In 101 (map who (registrations tr))) by (rewrite Wh; left; reflexivity). pose proof (inv1 _ _ _ _ _ H) as J1.
    unfold node_poll. cbn [o_me]. rewrite (j_in _ _ _ _ J1 101 (j_rin _ _ _ _ J1 _ I)), Z.eqb_refl, R, C, La, (m_cnt _ _ _ _ _ (inv3 _ _ _ _ _ H) 2), EV. reflexivity. }
  assert (exists e, call = SubmitPartialEval e) as [e ->].
  { match type of Cr with ?f _ = _ => assert (Nr : noreg (fun a => exists e, a = SubmitPartialEval e) f) end.
    { unfold node_submit_eval. repeat (apply noreg_bind; intros ?). apply noreg_lift. intros y X. apply bind_ok in X as (z1 & _ & X). apply bind_ok in X as (z2 & _ & X). apply bind_ok in X as (z3 & _ & X). injection X as <-. eexists. reflexivity. }
    apply (Nr fs). rewrite Cr. reflexivity. }
  destruct (hash_to_curve_ok live_keccak EVAL_PREFIX (round_input 2)) as [h Hh]. set (sec := group_secret stall_dealers) in *.
  set (val := live_keccak (word (fst (enc (g1mul h sec))) ++ word (snd (enc (g1mul h sec))))).
  assert (Bv : 0 < val < 2 ^ 256).
  { unfold val, live_keccak. match goal with |- context [1 + ?m mod 2] => pose proof (Z.mod_pos_bound m 2 eq_refl) end. assert (3 < 2 ^ 256) by reflexivity. lia. }
  set (rd := mkPseudoRandom (g1mul h sec) (be_bytes 32 val)).
  assert (Vr : pr_verify live_keccak pr rd (round_input 2) (g2mul g2 sec) = Ok tt).
  { apply (pr_verify_iff live_keccak pr HP rd (round_input 2) sec h Hh). split; [reflexivity|]. unfold rd. cbn [pr_value pr_proof]. rewrite prf_value_word. reflexivity. }
  destruct (C53_random_accepted Plain live_keccak ig pr (fun _ _ _ => Ok true) live_keccak_ok HG stall_cfg tr s 2 sec rd val H (eq_sym C) ltac:(lia) NR) as (s2 & ev2 & A2 & GR & _ & C2).
  { rewrite O. split; reflexivity. } { discriminate. } { exact GK. } { exact Bv. } { reflexivity. } { exact Vr. }
  match type of A2 with apply _ _ _ ?t0 = _ => set (t2 := t0) in * end.
  exists tr, s, fs, (w ++ []), e, (s', ev), [mkStep s t2 (Ok (s2, ev2))], s2. split; [exact H|]. split; [|split; [exact A|split; [exact NR'|split; [apply hist_ok; [exact H|exact A2]|]]]].
  - unfold iterate. rewrite NP. unfold cbind at 1, cret at 1. cbn [effects fold_left d_nonce a_draw]. unfold cbind at 1. rewrite Cr. reflexivity.
  - split; [constructor; [cbn [txn t2 sender]; rewrite O; discriminate|constructor]|]. split; [exact C2|]. rewrite C2, C. unfold no_random. rewrite GR. discriminate.
Qed.
Example C68_meets_evaluation : exists ig pr tr s fs later s2 w1 w2, let E := real_env live_keccak ig pr (fun _ _ _ => Ok true) in
  Histories.hist Plain E stall_cfg tr s /\ Histories.hist Plain E stall_cfg (tr ++ later) s2 /\
  run_of ServiceRun.runs Plain stall_cfg ig pr (Opts 3 3 18 101) (World tr s (Proc fs Polling [] tr)) w1 /\ p_life (w_proc w1) = Polling /\ In 101 (map fst (evals (w_tr w1) (currentRoundNum s))) /\
  run_of ServiceRun.runs Plain stall_cfg ig pr (Opts 3 3 18 101) (World tr s (Proc fs Polling [] tr)) w2 /\ p_life (w_proc w2) = Stopped /\ w_st w2 = s2.
Proof.
  destruct in_g2_exists as [ig HG]. destruct pairing_exists as [pr HP]. destruct (race_exists ig pr HG HP) as (tr & s & fs & w & e & x & later & s2 & H & I & A & N & H2 & F & C2 & N2).
  exists ig, pr, tr, s, fs, later, s2.
  pose proof (C68_evaluation_race Plain (real_env live_keccak ig pr (fun _ _ _ => Ok true)) live_keccak pr stall_cfg (fun a _ : Fr => a) some_json (fun g (_ : Z) => g) unit unit (fun _ => @nil Z) (fun _ => Ok tt) (fun _ => @nil Z) (fun _ => Ok tt)
    (fun _ _ => Ok tt) (fun _ _ _ => Ok tt) (fun _ => tt) (fun _ _ _ _ _ => Ok []) (fun _ _ _ _ => true) (fun _ => str "0x65") (Opts 3 3 18 101) tr s fs (a_draw 5) w e x) as R.
  destruct (R [] s H I A) as (w1 & R1 & _ & _ & [(_ & L1 & J1)|(X & _)]); [rewrite app_nil_r; exact H|constructor|reflexivity| |destruct (X N)].
  destruct (R later s2 H I A H2 F C2) as (w2 & R2 & _ & _ & [(X & _)|(_ & L2 & S2)]); [destruct (N2 X)|].
  exists w1, w2. cbv zeta. split; [exact H|]. split; [exact H2|]. split; [exact R1|]. split; [exact L1|]. split; [exact (in_map fst _ _ J1)|]. split; [exact R2|]. split; [exact L2|exact S2].
Qed.
Print Assumptions C68_registration_stays.
Print Assumptions C68_dealing_stays.
Print Assumptions C68_evaluation_stays.
Print Assumptions C68_evaluation_late.
Print Assumptions C68_key_kept.
Print Assumptions C68_registers_once.
Print Assumptions C68_second_dealing.
Print Assumptions C68_evaluation_race.
Print Assumptions C68_registers_undisturbed.
Print Assumptions C68_restart_loses_key.
