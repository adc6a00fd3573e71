(** C26-C38: the on-chain state machine (zkdvrf.sol = [Plain], zkdvrf_pre.sol = [Pre]).
    Every theorem ranges over both variants (unless it says otherwise), every environment of external contracts, every
    constructor argument and every finite history of transactions, accepted or reverted. *)
From Coq Require Import ZArith String List Bool Lia.
From Verif.Model Require Import Monad Evm Strings Zkdvrf.
From Verif.Spec Require Import Histories.
From Verif.Proofs Require Import ZkdvrfStep ZkdvrfInv1 ZkdvrfInv2 ZkdvrfInv3 ZkdvrfThms DecimalProofs.
Import ListNotations.
Open Scope Z_scope.

Section Contract.
  Variable v : variant.
  Variable E : env.
  Variable c : cfg.
  Notation hist := (Histories.hist v E c).
  Let n := c_number c.

  (** C26 *)
  Theorem C26_phase_transitions tr s t : hist tr s ->
    let s' := exec v E s t in
    let tr' := tr ++ [mkStep s t (apply v E s t)] in
    phase_rank (contractPhase s) <= phase_rank (contractPhase s') /\
    (contractPhase s' <> contractPhase s ->
      (v = Pre /\ contractPhase s = Unregistered /\ contractPhase s' = Registered /\ (exists k, what t = RegisterNode k) /\
         Z.of_nat (length (registrations tr')) = n) \/
      (contractPhase s = (if is_pre v then Registered else Unregistered) /\ contractPhase s' = Nidkg /\ what t = StartNidkg /\
         sender t = owner s /\ Z.of_nat (length (registrations tr)) = n) \/
      (contractPhase s = Nidkg /\ contractPhase s' = NidkgComplete /\ (exists pp zk, what t = SubmitPublicParams pp zk) /\
         Z.of_nat (length (submissions tr')) = n) \/
      (contractPhase s = NidkgComplete /\ contractPhase s' = Ready /\ exists g, what t = ComputeVk g)).
  Proof.
    intros Hh s' tr'. unfold s', tr'. split; [apply phase_mono|].
    pose proof (inv0 _ _ _ _ _ Hh) as C. pose proof (inv1 _ _ _ _ _ Hh) as J. pose proof (inv2 _ _ _ _ _ Hh) as K.
    destruct (exec_cases v E s t) as [[_ ->]|(sx & ev & -> & -> & Ht & R)]; [congruence|].
    destruct R as [a W|pk s1 s2 ev0 W|W|pp zk s1 s2 ev0 W|gpk gr vk W|s1 s2 W|e vk ev0 W|p W|a W|W|W]; subst; cbn; try congruence.
    - destruct v; cbn [is_pre andb]; [cbn; congruence|].
      destruct (Z.eqb_spec (registeredCount s + 1) (memberCount s)) as [Eq|]; [|cbn; congruence]. intros _. left.
      autorewrite with tr. rewrite W, app_length. cbn. destruct C, J. unfold n. repeat split; eauto. lia.
    - intros _. right; left. repeat split; auto. destruct C, J. unfold n.
      destruct (is_pre v) eqn:P; [apply j_phase; rewrite H1; discriminate|]. specialize (H2 eq_refl). lia.
    - destruct (Z.eqb_spec (ppSubmissionCount s + 1) (memberCount s)) as [Eq|].
      + intros _. right; right; left. autorewrite with tr. rewrite W, app_length. destruct C, K. unfold n.
        split; [auto|]. split; [destruct (is_pre v); reflexivity|]. split; [eauto|]. cbn. lia.
      + destruct (is_pre v); cbn; congruence.
    - intros _. right; right; right. eauto.
    - destruct (is_pre v); [destruct H5 as (h & _ & ->)|subst]; cbn; congruence.
  Qed.

  (** C27: addition *)
  Theorem C27_added_members tr s : hist tr s ->
    NoDup (added tr) /\ ~ In 0 (added tr) /\ Z.of_nat (length (added tr)) <= n /\ currentIndex s = Z.of_nat (length (added tr)) /\
    (forall a, In a (added tr) <-> nodeAddress (addrToNode s a) = a /\ a <> 0).
  Proof.
    intros Hh. pose proof (inv1 _ _ _ _ _ Hh) as J. destruct J. repeat split; auto.
    - intros ->. contradiction.
    - intros [H N]. destruct (in_dec Z.eq_dec a (added tr)) as [|Na]; auto. rewrite (j_out _ Na) in H. cbn in H. congruence.
  Qed.
  (** C27: registration.  Slot [i] (0-based, as reported by the contract's pkIndex) belongs to the (i+1)-th registrant. *)
  Theorem C27_registered_members tr s : hist tr s ->
    let R := registrations tr in
    NoDup (map who R) /\ (forall a, In a (map who R) -> In a (added tr)) /\
    getPkList s = map key R /\
    (forall x, In x R -> c_minDeposit c <= dep x /\ isOnCurve (key x) = true) /\
    (forall i x, znth R i = Some x -> nodes s i = who x /\ pkIndex (addrToNode s (who x)) = i /\ status (addrToNode s (who x)) = true /\
        deposit (addrToNode s (who x)) = dep x /\ znth (getPkList s) i = Some (key x) /\
        (0 <= i < n -> getIndexPlus s (who x) = Ok (i + 1))) /\
    (forall a, status (addrToNode s a) = true <-> In a (map who R)).
  Proof.
    intros Hh R. pose proof (inv1 _ _ _ _ _ Hh) as J. pose proof (inv0 _ _ _ _ _ Hh) as C. unfold R, getPkList.
    split; [apply J|]. split; [apply J|]. split; [apply J|]. split; [|split].
    - intros x I. apply in_znth in I as [i I]. apply (j_reg _ _ _ _ J) in I. tauto.
    - intros i x Hx. pose proof (j_reg _ _ _ _ J _ _ Hx) as (A1 & A2 & A3 & A4 & A5).
      rewrite (j_nodes _ _ _ _ J), Hx, (j_pk _ _ _ _ J), znth_map, Hx. repeat split; auto.
      intros Hi. unfold getIndexPlus, add32, chk. rewrite A2. destruct C. unfold n in Hi.
      destruct (Z.leb_spec 0 (i + 1)), (Z.ltb_spec (i + 1) M32); auto; lia.
    - intros a. split.
      + intros S. destruct (in_dec Z.eq_dec a (map who (registrations tr))) as [|N]; auto.
        apply (j_nreg _ _ _ _ J) in N. destruct N. congruence.
      + intros I. apply in_map_iff in I as (x & <- & I). apply in_znth in I as [i I]. apply (j_reg _ _ _ _ J) in I. tauto.
  Qed.
  (** C27: only the owner adds; a registration pays the deposit, happens once and only in the registration phase *)
  Theorem C27_who_may tr s t s' ev : hist tr s -> apply v E s t = Ok (s', ev) ->
    (forall a, what t = AddPermissionedNodes a -> sender t = owner s /\ a <> 0 /\ ~ In a (added tr) /\ Z.of_nat (length (added tr)) < n) /\
    (forall k, what t = RegisterNode k -> In (sender t) (added tr) /\ ~ In (sender t) (map who (registrations tr)) /\
       c_minDeposit c <= tvalue t /\ isOnCurve k = true /\ contractPhase s = Unregistered).
  Proof.
    intros Hh A. pose proof (inv1 _ _ _ _ _ Hh) as J. pose proof (inv0 _ _ _ _ _ Hh) as C.
    destruct (apply_ok _ _ _ _ _ _ A) as [Ht R].
    destruct R as [a W|pk s1 s2 ev0 W|W|pp zk s1 s2 ev0 W|gpk gr vk W|s1 s2 W|e vk ev0 W|p W|a W|W|W]; split; intros ? W'; rewrite W in W'; try discriminate.
    - injection W' as <-. destruct J, C. repeat split; auto; [|unfold n; lia]. intros I. rewrite (j_in _ I) in H3. contradiction.
    - injection W' as <-. split; [eapply sender_member; eauto|]. split; [|destruct C; repeat split; auto; lia].
      intros I. apply in_map_iff in I as (x & Ex & I). apply in_znth in I as [i I]. apply (j_reg _ _ _ _ J) in I as [I _]. rewrite Ex in I. congruence.
  Qed.

  (** C28 *)
  Theorem C28_public_params tr s : hist tr s ->
    let S := submissions tr in
    getPpList s = map pvec S /\ NoDup (map psender S) /\ (forall a, In a (map psender S) -> In a (added tr)) /\
    (0 < n -> (3 <= phase_rank (contractPhase s) <-> Z.of_nat (length S) = n)) /\ Z.of_nat (length S) <= n.
  Proof.
    intros Hh S. unfold S, getPpList. pose proof (inv2 _ _ _ _ _ Hh) as K. pose proof (inv1 _ _ _ _ _ Hh) as J. pose proof (inv0 _ _ _ _ _ Hh) as C.
    pose proof (incl_length_nodup _ _ (k_nd _ _ _ _ _ K) (k_in _ _ _ _ _ K)) as LE. rewrite map_length in LE.
    destruct K, J, C. unfold n. repeat split; auto; try lia.
    intros L. destruct (contractPhase s) eqn:P; cbn; try lia.
    - rewrite k_none in L by (cbn; lia). cbn in L. lia.
    - rewrite k_none in L by (cbn; lia). cbn in L. lia.
    - specialize (k_lt eq_refl). lia.
  Qed.
  Theorem C28_accepted_vector tr s t s' ev pp zk : hist tr s -> apply v E s t = Ok (s', ev) -> what t = SubmitPublicParams pp zk ->
    contractPhase s = Nidkg /\ In (sender t) (added tr) /\ ~ In (sender t) (map psender (submissions tr)) /\
    verify_proof E (c_vk c) zk pp = Ok true /\
    Z.of_nat (length pp) = 7 * n + 14 /\ skipn (Z.to_nat (5 * n + 14)) pp = flat (map key (registrations tr)).
  Proof.
    intros Hh A W'. pose proof (inv2 _ _ _ _ _ Hh) as K. pose proof (inv1 _ _ _ _ _ Hh) as J. pose proof (inv0 _ _ _ _ _ Hh) as C.
    destruct (apply_ok _ _ _ _ _ _ A) as [Ht R].
    destruct R as [a W|pk s1 s2 ev0 W|W|pp' zk' s1 s2 ev0 W|gpk gr vk W|s1 s2 W|e vk ev0 W|p W|a W|W|W]; rewrite W in W'; try discriminate.
    injection W' as -> ->. split; auto. split; [eapply sender_member; eauto|]. split.
    - intros I. apply (k_st _ _ _ _ _ K) in I. congruence.
    - rewrite (checkPublicParams_ok c) in H3 by auto. rewrite (j_pk _ _ _ _ J) in H3. destruct C. rewrite i_vk in H4. unfold n. tauto.
  Qed.

  (** C29 *)
  Theorem C29_keys_set_once tr s : hist tr s ->
    (contractPhase s <> Ready -> getVkList s = [] /\ getGpk s = g2zero) /\
    (contractPhase s = Ready -> exists gpk, create_gpp E n gpk (getPpList s) = Ok (getGpk s, getVkList s) /\
       forall l, contractPhase (run v E s l) = Ready /\ getVkList (run v E s l) = getVkList s /\ getGpk (run v E s l) = getGpk s /\
                 getPkList (run v E s l) = getPkList s /\ getPpList (run v E s l) = getPpList s).
  Proof.
    intros Hh. pose proof (inv2 _ _ _ _ _ Hh) as K. split.
    - intros P. apply (k_vk _ _ _ _ _ K) in P. unfold getVkList, getGpk. tauto.
    - intros P. destruct (k_ready _ _ _ _ _ K P) as (g & _ & H). exists g. split; [exact H|].
      intros l. apply (ready_frozen_run v E s l P).
  Qed.

  (** C30 *)
  Theorem C30_random_write_once s k p l : getRandomAtRound s k = Ok p -> getRandomAtRound (run v E s l) k = Ok p.
  Proof.
    unfold getRandomAtRound. destruct (Z.eqb_spec (rvalue (roundToRandom s k)) 0) as [|N]; cbn; [discriminate|].
    intros H. injection H as <-. rewrite (random_once_run v E s l k N). destruct (Z.eqb_spec (rvalue (roundToRandom s k)) 0); [contradiction|]. reflexivity.
  Qed.
  Theorem C30_random_is_verified tr s k p : hist tr s -> getRandomAtRound s k = Ok p -> k <> 0 ->
    1 <= k <= currentRoundNum s /\ In p (randoms tr k) /\
    rvalue p = keccak E (word (fst (rproof p)) ++ word (snd (rproof p))) /\
    (v = Plain -> verify_pseudo_rand E (round_input k) (rproof p) (getGpk s) = Ok true) /\
    (v = Pre -> exists h, hash_to_g1 E (round_input k) = Ok h /\ verify_pseudo_rand_fast E h (rproof p) (getGpk s) = Ok true).
  Proof.
    intros Hh H Nk. pose proof (inv3 _ _ _ _ _ Hh) as M. pose proof (inv2 _ _ _ _ _ Hh) as K.
    unfold getRandomAtRound in H. destruct (Z.eqb_spec (rvalue (roundToRandom s k)) 0) as [|N]; cbn in H; [discriminate|].
    injection H as <-. rewrite (r_last _ _ _ _ _ M) in *.
    assert (NE : randoms tr k <> []) by (intros Z1; rewrite Z1 in N; apply N; reflexivity).
    pose proof (r_range _ _ _ _ _ M _ NE) as Rg.
    destruct (exists_last NE) as (l' & q & El). rewrite El in *. rewrite last_snoc in *.
    assert (I : In q (randoms tr k)) by (rewrite El; apply in_or_app; cbn; auto).
    destruct (r_ok _ _ _ _ _ M _ _ I) as (P1 & g & P2 & P3). specialize (P3 Nk). subst g.
    split; [lia|]. split; [rewrite <- El; auto|]. split; [auto|].
    pose proof (k_input _ _ _ _ _ K k) as Ki. pose proof (k_hash _ _ _ _ _ K k) as Kh.
    assert (B : (1 <=? k) && (k <=? currentRoundNum s) = true) by (apply andb_true_intro; split; apply Z.leb_le; lia).
    rewrite B in Ki. unfold rand_ok in P2. split; intros ->; cbn in P2, Kh.
    - rewrite Ki in P2. exact P2.
    - cbn in B. rewrite B in Kh. exists (roundHash s k). auto.
  Qed.

  (** C31 *)
  Theorem C31_rounds_step s t :
    currentRoundNum (exec v E s t) = currentRoundNum s \/
    (currentRoundNum (exec v E s t) = currentRoundNum s + 1 /\ what t = InitiateRandom /\ sender t = owner s /\ contractPhase s = Ready /\
     (currentRoundNum s <> 0 -> exists p, getRandomAtRound s (currentRoundNum s) = Ok p)).
  Proof.
    destruct (round_step v E s t) as [|(A1 & A2 & A3 & A4 & A5)]; auto. right. repeat split; auto.
    intros N. apply A5 in N. unfold getRandomAtRound. destruct (Z.eqb_spec (rvalue (roundToRandom s (currentRoundNum s))) 0); [contradiction|]. cbn. eauto.
  Qed.
  Theorem C31_rounds tr s : hist tr s ->
    let k := currentRoundNum s in
    k = Z.of_nat (length (initiations tr)) /\ (0 < k -> contractPhase s = Ready) /\
    (forall j, 1 <= j < k -> exists p, getRandomAtRound s j = Ok p) /\
    (forall j, j < 0 \/ k < j -> getRandomAtRound s j = Err "Answer does not exist for the round yet") /\
    (forall j, 1 <= j <= k -> roundInput s j = ascii_bytes "zkRand-v1-2024:" ++ to_dec j) /\
    (forall j, j < 1 \/ k < j -> roundInput s j = []).
  Proof.
    intros Hh k. unfold k. pose proof (inv3 _ _ _ _ _ Hh) as M. pose proof (inv2 _ _ _ _ _ Hh) as K.
    split; [apply K|]. split; [intros; apply K; lia|]. split; [|split; [|split]].
    - intros j Hj. apply (r_done _ _ _ _ _ M) in Hj. unfold getRandomAtRound.
      destruct (Z.eqb_spec (rvalue (roundToRandom s j)) 0); [contradiction|]. cbn. eauto.
    - intros j Hj. unfold getRandomAtRound. rewrite (r_last _ _ _ _ _ M).
      destruct (randoms tr j) eqn:Er; [reflexivity|]. assert (N : randoms tr j <> []) by congruence.
      apply (r_range _ _ _ _ _ M) in N. lia.
    - intros j Hj. rewrite (k_input _ _ _ _ _ K). destruct (Z.leb_spec 1 j), (Z.leb_spec j (currentRoundNum s)); try lia. reflexivity.
    - intros j Hj. rewrite (k_input _ _ _ _ _ K). destruct (Z.leb_spec 1 j), (Z.leb_spec j (currentRoundNum s)); cbn; auto; lia.
  Qed.
  Theorem C31_inputs_differ i j : 0 <= i < 2 ^ 256 -> 0 <= j < 2 ^ 256 -> round_input i = round_input j -> i = j.
  Proof. intros Hi Hj H. unfold round_input in H. apply app_inv_head in H. apply to_dec_inj; auto. Qed.

  (** C32 *)
  Theorem C32_submissions tr s k : hist tr s ->
    roundSubmissionCount s k = Z.of_nat (length (evals tr k)) /\ NoDup (map fst (evals tr k)) /\
    (forall a e, In (a, e) (evals tr k) -> 1 <= k <= currentRoundNum s /\
      exists i vk, znth (map who (registrations tr)) i = Some a /\ indexPlus e = i + 1 /\ znth (getVkList s) i = Some vk /\
        roundToEval s k i = e /\
        (v = Plain -> verify_partial_eval E (round_input k) (evalue e) (proof_z e) (proof_c e) vk = Ok true) /\
        (v = Pre -> exists h, hash_to_g1 E (round_input k) = Ok h /\
                     verify_partial_eval_fast E h (evalue e) (proof_z e) (proof_c e) vk = Ok true)) /\
    (forall i, (forall a e, In (a, e) (evals tr k) -> indexPlus e <> i + 1) -> roundToEval s k i = peval0).
  Proof.
    intros Hh. pose proof (inv3 _ _ _ _ _ Hh) as M. pose proof (inv2 _ _ _ _ _ Hh) as K.
    split; [apply M|]. split; [apply M|]. split; [|apply M]. intros a e I.
    assert (1 <= k <= currentRoundNum s).
    { pose proof (m_range _ _ _ _ _ M k a ltac:(apply (in_map fst) in I; exact I)). pose proof (m_last _ _ _ _ _ M a). lia. }
    split; [auto|]. destruct (m_ev _ _ _ _ _ M _ _ _ I) as (i & vk & P1 & P2 & P3 & P4 & P5). exists i, vk. repeat split; auto.
    - intros ->. unfold eval_ok in P4. cbn in P4. rewrite (k_input _ _ _ _ _ K) in P4.
      destruct (Z.leb_spec 1 k), (Z.leb_spec k (currentRoundNum s)); try lia. exact P4.
    - intros ->. unfold eval_ok in P4. cbn in P4. exists (roundHash s k). split; auto. pose proof (k_hash _ _ _ _ _ K k) as Kh. cbn in Kh.
      destruct (Z.leb_spec 1 k), (Z.leb_spec k (currentRoundNum s)); try lia. exact Kh.
  Qed.
  Theorem C32_accept_conditions tr s t s' ev e : hist tr s -> apply v E s t = Ok (s', ev) -> what t = SubmitPartialEval e ->
    1 <= currentRoundNum s /\ In (sender t) (added tr) /\ ~ In (sender t) (map fst (evals tr (currentRoundNum s))) /\
    getRandomAtRound s (currentRoundNum s) = Err "Answer does not exist for the round yet" /\
    getIndexPlus s (sender t) = Ok (indexPlus e).
  Proof.
    intros Hh A W'. pose proof (inv3 _ _ _ _ _ Hh) as M.
    destruct (apply_ok _ _ _ _ _ _ A) as [Ht R].
    destruct R as [a W|pk s1 s2 ev0 W|W|pp' zk' s1 s2 ev0 W|gpk gr vk W|s1 s2 W|e' vk ev0 W|p W|a W|W|W]; rewrite W in W'; try discriminate.
    injection W' as ->. pose proof (m_last _ _ _ _ _ M (sender t)). split; [lia|]. split; [eapply sender_member; eauto|]. split; [|split].
    - intros I. apply (m_range _ _ _ _ _ M) in I. lia.
    - unfold getRandomAtRound. rewrite H1. reflexivity.
    - unfold getIndexPlus, add32, chk. rewrite H4. destruct (Z.leb_spec 0 (pkIndex (addrToNode s (sender t)) + 1)), (Z.ltb_spec (pkIndex (addrToNode s (sender t)) + 1) M32); auto; lia.
  Qed.

  (** C33 *)
  Theorem C33_threshold_event_once tr s k : hist tr s -> 0 < c_threshold c ->
    filter (is_thr k) (log tr) =
      if c_threshold c <=? Z.of_nat (length (evals tr k)) then [RandomThresholdReached k (round_input k)] else [].
  Proof.
    intros Hh Ht. rewrite (e_thr _ _ _ _ _ (inv3 _ _ _ _ _ Hh)). destruct (Z.leb_spec 1 (c_threshold c)); [reflexivity|lia].
  Qed.
  Theorem C33_threshold_event_when tr s t k : hist tr s ->
    (exists inp, In (RandomThresholdReached k inp) (emitted (mkStep s t (apply v E s t)))) <->
    (exists e, is_ok (apply v E s t) = true /\ what t = SubmitPartialEval e /\ currentRoundNum s = k /\
               Z.of_nat (length (evals (tr ++ [mkStep s t (apply v E s t)]) k)) = c_threshold c).
  Proof.
    intros Hh. pose proof (inv3 _ _ _ _ _ Hh) as M. pose proof (inv0 _ _ _ _ _ Hh) as C.
    unfold emitted. cbn [outcome]. destruct (apply v E s t) as [[s' ev]|m|m] eqn:A.
    2,3: split; [intros [? []]|intros (? & H & _); discriminate H].
    destruct (apply_ok _ _ _ _ _ _ A) as [Ht R]. cbn [is_ok].
    destruct R as [a W|pk s1 s2 ev0 W|W|pp zk s1 s2 ev0 W|gpk gr vk W|s1 s2 W|e vk ev0 W|p W|a W|W|W]; subst.
    all: try (split; [intros [inp I]|intros (? & _ & W' & _); rewrite W in W'; discriminate W']).
    all: try (repeat match type of I with context [if ?b then _ else _] => destruct b end; cbn in I; intuition congruence).
    destruct C as [C1 C2 C3 C4 C5 C6 C7].
    autorewrite with tr. rewrite W, app_length.
    rewrite (m_cnt _ _ _ _ _ M), C2.
    destruct (Z.eqb_spec (Z.of_nat (length (evals tr (currentRoundNum s))) + 1) (c_threshold c)) as [Eq|Ne].
    - split.
      + intros [inp [I|[]]]. injection I as <- <-. exists e. rewrite Z.eqb_refl. cbn. repeat split; auto. lia.
      + intros (e' & _ & _ & <- & _). eexists. left. reflexivity.
    - split; [intros [inp []]|]. intros (e' & _ & _ & <- & L). rewrite Z.eqb_refl in L. cbn in L. lia.
  Qed.

  (** C34 *)
  Theorem C34_readers tr s p : hist tr s ->
    (getLatestRandom s = Ok p <->
      (getRandomAtRound s (currentRoundNum s) = Ok p \/
       (getRandomAtRound s (currentRoundNum s) = Err "Answer does not exist for the round yet" /\ 2 <= currentRoundNum s /\
        getRandomAtRound s (currentRoundNum s - 1) = Ok p))) /\
    (getLatestRandom s = Ok p -> rvalue p <> 0).
  Proof.
    intros Hh. pose proof (inv3 _ _ _ _ _ Hh) as M. pose proof (inv2 _ _ _ _ _ Hh) as K.
    unfold getLatestRandom, getRandomAtRound.
    destruct (Z.eqb_spec (rvalue (roundToRandom s (currentRoundNum s))) 0) as [Z0|N0]; cbn [negb].
    - assert (0 <= currentRoundNum s) by (rewrite (k_cur _ _ _ _ _ K); lia).
      destruct (Z.eqb_spec (currentRoundNum s) 1) as [E1|N1].
      + split; [|discriminate]. split; [discriminate|]. intros [H1|(_ & H1 & _)]; [discriminate|lia].
      + unfold sub256, chk. destruct (Z.leb_spec 0 (currentRoundNum s - 1)); cbn [andb].
        * destruct (Z.ltb_spec (currentRoundNum s - 1) M256) as [L|L]; cbn [bind].
          -- assert (D : rvalue (roundToRandom s (currentRoundNum s - 1)) <> 0) by (apply (r_done _ _ _ _ _ M); lia).
             destruct (Z.eqb_spec (rvalue (roundToRandom s (currentRoundNum s - 1))) 0); [contradiction|]. cbn [negb].
             split; [|intros H2; injection H2 as <-; auto].
             split; [intros H2; right; repeat split; auto; lia|]. intros [H2|(_ & _ & H2)]; [discriminate|exact H2].
          -- exfalso. assert (currentRoundNum s < M256); [|lia]. clear -Hh.
             induction Hh as [s0 Hc Hs|tr0 s0 t0 Hh IH]; [apply construct_ok in Hs as (_ & ? & ->); cbn; pose proof M32_M256; lia|].
             destruct (exec_cases v E s0 t0) as [[_ ->]|(sx & ev & _ & -> & Ht & R)]; auto.
             destruct R as [a W|pk s1 s2 ev0 W|W|pp zk s1 s2 ev0 W|gpk gr vk W|s1 s2 W|e vk ev0 W|p W|a W|W|W]; subst;
               repeat match goal with |- context [if ?b then _ else _] => destruct b end; cbn; auto.
             destruct (is_pre v); [destruct H5 as (h & _ & ->)|subst]; cbn; lia.
        * split; [|discriminate]. split; [discriminate|]. intros [H1|(_ & H1 & _)]; [discriminate|lia].
    - split; [|intros H; injection H as <-; auto]. split; [auto|]. intros [H|(H & _)]; [auto|discriminate].
  Qed.
  Theorem C34_latest_fails_without_random tr s : hist tr s ->
    (forall j p, getRandomAtRound s j <> Ok p) -> forall p, getLatestRandom s <> Ok p.
  Proof.
    intros Hh H p L. apply (proj1 (C34_readers _ _ p Hh)) in L as [L|(_ & _ & L)]; eapply H; eauto.
  Qed.

  (** C35 *)
  Theorem C35_failed_calls_change_nothing s t : is_ok (apply v E s t) = false -> exec v E s t = s.
  Proof. unfold exec. destruct (apply v E s t) as [[]| |]; cbn; congruence. Qed.
  Theorem C35_owner_calls s t : owner_call (what t) = true -> sender t <> owner s ->
    is_ok (apply v E s t) = false /\ exec v E s t = s.
  Proof. intros O N. pose proof (owner_call_rejected v E s t O N). split; auto. apply C35_failed_calls_change_nothing; auto. Qed.
  Theorem C35_member_calls tr s t : hist tr s -> member_call (what t) = true -> ~ In (sender t) (added tr) ->
    is_ok (apply v E s t) = false /\ exec v E s t = s.
  Proof. intros Hh O N. pose proof (member_call_rejected v E _ _ _ _ Hh O N). split; auto. apply C35_failed_calls_change_nothing; auto. Qed.
  Theorem C35_non_owner_effects s t : sender t <> owner s ->
    let s' := exec v E s t in
    owner s' = owner s /\ currentRoundNum s' = currentRoundNum s /\ currentIndex s' = currentIndex s /\
    (forall a, nodeAddress (addrToNode s' a) = nodeAddress (addrToNode s a)) /\
    roundToRandom s' = roundToRandom s /\ (contractPhase s' = Nidkg -> contractPhase s = Nidkg).
  Proof. exact (owner_only v E s t). Qed.

  (** C36 *)
  Theorem C36_deposits tr s : hist tr s ->
    balance s = zsum (map (fun a => deposit (addrToNode s a)) (map who (registrations tr))) + zsum (forced tr) /\
    (forall a, In a (map who (registrations tr)) -> c_minDeposit c <= deposit (addrToNode s a)) /\
    (forall a, ~ In a (map who (registrations tr)) -> deposit (addrToNode s a) = 0) /\
    (forall t, balance s <= balance (exec v E s t)).
  Proof.
    intros Hh. pose proof (inv2 _ _ _ _ _ Hh) as K. pose proof (inv1 _ _ _ _ _ Hh) as J.
    assert (D : forall x, In x (registrations tr) -> deposit (addrToNode s (who x)) = dep x /\ c_minDeposit c <= dep x).
    { intros x I. apply in_znth in I as [i I]. apply (j_reg _ _ _ _ J) in I. tauto. }
    split; [|split; [|split]].
    - rewrite (k_bal _ _ _ _ _ K), map_map. f_equal. f_equal. apply map_ext_in. intros x I. apply D in I as [-> _]. reflexivity.
    - intros a I. apply in_map_iff in I as (x & <- & I). apply D in I as [-> ?]. auto.
    - intros a I. apply (j_nreg _ _ _ _ J) in I. tauto.
    - intros t. eapply balance_mono; eauto.
  Qed.

  (** C37 (zkdvrf_pre) *)
  Theorem C37_random_needs_threshold tr s k p : v = Pre -> hist tr s -> getRandomAtRound s k = Ok p ->
    c_threshold c <= Z.of_nat (length (evals tr k)) /\ NoDup (map fst (evals tr k)) /\ (0 < c_threshold c -> 1 <= k).
  Proof.
    intros V Hh H. pose proof (inv3 _ _ _ _ _ Hh) as M.
    unfold getRandomAtRound in H. destruct (Z.eqb_spec (rvalue (roundToRandom s k)) 0) as [|N]; cbn in H; [discriminate|].
    rewrite (r_last _ _ _ _ _ M) in N.
    assert (NE : randoms tr k <> []) by (intros Z1; rewrite Z1 in N; apply N; reflexivity).
    assert (L : c_threshold c <= Z.of_nat (length (evals tr k))) by (apply (r_thr _ _ _ _ _ M); auto; rewrite V; auto).
    split; [auto|]. split; [apply M|]. intros Hp. destruct (evals tr k) as [|[a e] l] eqn:Ee; [cbn in L; lia|].
    pose proof (m_range _ _ _ _ _ M k a). rewrite Ee in H0. cbn in H0. specialize (H0 (or_introl eq_refl)). lia.
  Qed.
End Contract.
