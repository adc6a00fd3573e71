(** C50: the admin service on an evolving contract; further facts on C49 (registration).
    Ranges over both contracts, every environment and history, every option set, clock, file system and json text format. *)
From Coq Require Import ZArith String List Bool Lia.
From Verif.Base Require Import Fld Fp EC Primes Curves Group Fermat.
From Verif.Model Require Import Monad Evm Strings Points HashEvm Dkg Lib Serialise Files Cache Client Zkdvrf PairingSol HashSol PseudoRandSol GppSol RealEnv Services.
From Verif.Spec Require Import Dvrf Onchain Histories Serial CacheSpec ClientSpec ServiceSpec.
From Verif.Proofs Require Import ZkdvrfStep ZkdvrfInv1 ZkdvrfInv2 ZkdvrfInv3 BytesProofs SerialProofs DecimalProofs HashProofs HashSolProofs OnchainProofs VerifyProofs InstanceProofs DkgProofs DvrfProofs PairingExists Forward Setup CacheProofs ClientProofs PipelineProofs PipelineRuns JsonExists ServiceHex ServiceProofs.
From Verif.Props Require Import P_Dvrf P_Onchain P_Contract P_EndToEnd P_Live P_Client P_Services.
Import ListNotations.
Open Scope Z_scope.

Section Polls.
  Variable v : variant.
  Variable E : env.
  Variable c : Zkdvrf.cfg.
  Notation hist := (Histories.hist v E c).

  (** the admin combines for exactly one round: the current one, when it is open, has no random and has at least
      [threshold] accepted evaluations *)
  Theorem C50_combines_iff o now1 now2 start last interval tr ch k : evolves v E c tr ch -> configured o (ch 0%nat) ->
    (In (ACreateRandom k) (admin_poll o now1 now2 start last interval ch) <->
     contractPhase (ch 0%nat) = Ready /\ start <= now1 /\ k = currentRoundNum (ch 1%nat) /\ k <> 0 /\ no_random (ch 3%nat) k /\
     c_threshold c <= Z.of_nat (length (evals (tr 2%nat) k))).
  Proof.
    intros He Cf. destruct (He 0%nat) as [H0 _]. destruct (He 2%nat) as [H2 _].
    assert (Ht : o_threshold o = c_threshold c).
    { unfold configured, check_config in Cf. rewrite (i_t _ _ (inv0 _ _ _ _ _ H0)) in Cf. destruct (Z.eqb_spec (c_threshold c) (o_threshold o)); [congruence|discriminate]. }
    rewrite no_random_iff. rewrite <- (m_cnt _ _ _ _ _ (inv3 _ _ _ _ _ H2) k). rewrite <- Ht. unfold admin_poll.
    set (round := currentRoundNum (ch 1%nat)).
    destruct (contractPhase (ch 0%nat)); try (split; [intros X; repeat destruct X as [X|X]; try discriminate; destruct X|intros (X & _); discriminate X]).
    destruct (Z.ltb_spec now1 start); [split; [intros []|lia]|].
    destruct (Z.eqb_spec round 0) as [Z0|NZ]; [split; [intros [X|[]]; discriminate X|intros (_ & _ & A & B & _); congruence]|].
    rewrite in_app_iff.
    assert (NI : ~ In (ACreateRandom k) (if interval <? (now2 - last) / 1000 then [AInitiate] else [])) by (destruct (_ <? _); intros X; repeat destruct X as [X|X]; try discriminate; destruct X).
    destruct (Z.eqb_spec (rvalue (roundToRandom (ch 3%nat) round)) 0) as [R|R]; [destruct (Z.leb_spec (o_threshold o) (roundSubmissionCount (ch 2%nat) round)) as [T|T]|]; cbn [andb In]; split.
    - intros [[X|[]]|X]; [|contradiction]. assert (Y : k = round) by congruence. rewrite Y. auto 8.
    - intros (_ & _ & -> & _). auto.
    - intros [[]|X]; contradiction.
    - intros (_ & _ & -> & _ & _ & X). lia.
    - intros [[]|X]; contradiction.
    - intros (_ & _ & -> & _ & X & _). contradiction.
  Qed.
  (** what it passes to the client: increasing distinct indices, only accepted evaluations of that round, every one
      accepted before the reading began, hence at least as many as were counted *)
  Theorem C50_reads tr ch k : evolves v E c tr ch -> let n := c_number c in let l := read_evals ch k n in
    increasing (map indexPlus l) /\
    (forall e, In e l -> 1 <= indexPlus e <= n /\ exists a, In (a, e) (evals (tr (Z.to_nat n)) k)) /\
    (forall a e, In (a, e) (evals (tr 0%nat) k) -> In e l) /\
    (length (evals (tr 0%nat) k) <= length l)%nat.
  Proof.
    intros He n l. pose proof (i_ppr _ _ (inv0 _ _ _ _ _ (proj1 (He 0%nat)))) as B. fold n in B.
    destruct (slots v E c tr ch He k (Z.to_nat n) 0) as [Inc F]. change (filter _ _) with l in Inc, F. cbn [Nat.add] in F.
    split; [exact Inc|]. split; [|split].
    - intros e I. rewrite Forall_forall in F. destruct (F e I) as [R A]. split; [lia|exact A].
    - apply (slots_all v E c tr ch He k (Z.to_nat n)). fold n. lia.
    - apply (slots_count v E c tr ch He k (Z.to_nat n)). fold n. lia.
  Qed.
  (** when it initiates a round: at round 0, or when the interval elapsed *)
  Theorem C50_initiates_iff o now1 now2 start last interval ch :
    In AInitiate (admin_poll o now1 now2 start last interval ch) <->
    contractPhase (ch 0%nat) = Ready /\ start <= now1 /\ (currentRoundNum (ch 1%nat) = 0 \/ interval < (now2 - last) / 1000).
  Proof.
    unfold admin_poll. set (round := currentRoundNum (ch 1%nat)).
    destruct (contractPhase (ch 0%nat)); try (split; [intros X; repeat destruct X as [X|X]; try discriminate; destruct X|intros (X & _); discriminate X]).
    destruct (Z.ltb_spec now1 start); [split; [intros []|lia]|]. destruct (Z.eqb_spec round 0) as [Z0|NZ]; [split; auto; intros _; left; reflexivity|].
    rewrite in_app_iff. destruct (Z.ltb_spec interval ((now2 - last) / 1000)) as [L|L].
    - split; auto. intros _. right. left. reflexivity.
    - split; [|intros (_ & _ & [X|X]); [contradiction|lia]]. intros [X|[]]. destruct (_ && _); repeat destruct X as [X|X]; try discriminate; destruct X.
  Qed.
  (** so "only when the previous round is complete" is false of the service: with the interval elapsed it initiates on an
      unfinished round too; the contract refuses that transaction, whoever sends it *)
  Theorem C50_early_initiation o now1 now2 start last interval s : contractPhase s = Ready -> start <= now1 -> currentRoundNum s <> 0 ->
    no_random s (currentRoundNum s) -> interval < (now2 - last) / 1000 ->
    In AInitiate (admin_poll o now1 now2 start last interval (fun _ => s)) /\ forall a value x, apply v E s (mkTx a value InitiateRandom) <> Ok x.
  Proof.
    intros P S R NR L. split; [apply C50_initiates_iff; auto|]. apply no_random_iff in NR.
    intros a value [s' ev] X. destruct (apply_ok _ _ _ _ _ _ X) as [_ Rr].
    inversion Rr; try discriminate. match goal with Hg : currentRoundNum s <> 0 -> _ |- _ => destruct (Hg R NR) end.
  Qed.
  (** the poll never both starts the key generation or the key computation and touches rounds *)
  Theorem C50_setup_actions o now1 now2 start last interval ch a : In a (admin_poll o now1 now2 start last interval ch) ->
    (a = AStartNidkg <-> contractPhase (ch 0%nat) = Registered) /\ (a = ACreateGpp <-> contractPhase (ch 0%nat) = NidkgComplete).
  Proof.
    unfold admin_poll. destruct (contractPhase (ch 0%nat)); intros X; try (destruct X as [<-|[]]; split; split; congruence); try destruct X.
    assert (Y : a = AInitiate \/ exists k, a = ACreateRandom k).
    { destruct (now1 <? start); [destruct X|]. destruct (_ =? 0); [destruct X as [<-|[]]; auto|]. apply in_app_or in X as [X|X]; [destruct (_ && _)|destruct (_ <? _)]; try (destruct X as [<-|[]]); try destruct X; eauto. }
    destruct Y as [->|[k ->]]; split; split; congruence.
  Qed.
  (** setup actions, exactly *)
  Theorem C50_setup_iff o now1 now2 start last interval ch :
    (In AStartNidkg (admin_poll o now1 now2 start last interval ch) <-> contractPhase (ch 0%nat) = Registered) /\
    (In ACreateGpp (admin_poll o now1 now2 start last interval ch) <-> contractPhase (ch 0%nat) = NidkgComplete).
  Proof.
    split; (split; [intros X; apply (C50_setup_actions _ _ _ _ _ _ _ _ X); reflexivity|intros X; unfold admin_poll; rewrite X; left; reflexivity]).
  Qed.

  (** ** adding the nodes named in the options, at the start of the service *)
  Notation start_ := (admin_start v E).
  Lemma addr_spec tr s a : hist tr s -> (nodeAddress (addrToNode s a) =? 0) = false -> In a (added tr).
  Proof.
    intros H N. destruct (in_dec Z.eq_dec a (added tr)) as [I|I]; [exact I|]. rewrite (j_out _ _ _ _ (inv1 _ _ _ _ _ H) a I) in N. discriminate N.
  Qed.
  Lemma added_app a b : added (a ++ b) = added a ++ added b. Proof. apply flat_map_app. Qed.
  Definition add_step (o : options) (x : step) : Prop := accepted x = true /\ sender (txn x) = o_me o /\ exists a, what (txn x) = AddPermissionedNodes a.
  Lemma add_nodes_run o addrs : forall tr s s', hist tr s -> add_nodes v E o addrs s = Ok s' ->
    exists xs, hist (tr ++ xs) s' /\ Forall (add_step o) xs /\ (forall a, In a addrs -> In a (added (tr ++ xs))) /\
      (forall a, In a (added xs) -> In a addrs /\ ~ In a (added tr)).
  Proof.
    induction addrs as [|a r IH]; intros tr s s' H R; cbn [add_nodes] in R.
    - assert (s' = s) by congruence. subst s'. exists []. rewrite app_nil_r. split; [exact H|]. split; [constructor|]. split; [intros a []|intros a []].
    - destruct (nodeAddress (addrToNode s a) =? 0) eqn:N.
      + apply bind_ok in R as ([s1 ev] & A & R). set (t := mkTx (o_me o) 0 (AddPermissionedNodes a)) in *.
        pose proof (Histories.hist_tx v E c tr s t H) as H1. unfold exec in H1. rewrite A in H1. set (x := mkStep s t (Ok (s1, ev))) in *.
        assert (Ha : added [x] = [a]) by reflexivity.
        assert (Na : ~ In a (added tr)).
        { intros I. pose proof (j_in _ _ _ _ (inv1 _ _ _ _ _ H) a I) as Y. rewrite Y in N. apply Z.eqb_eq in N. subst a. exact (j_0 _ _ _ _ (inv1 _ _ _ _ _ H) I). }
        destruct (IH _ _ _ H1 R) as (xs & Hx & F & All & New). exists (x :: xs). replace (tr ++ x :: xs) with ((tr ++ [x]) ++ xs) by (rewrite <- app_assoc; reflexivity).
        split; [exact Hx|]. split; [constructor; [split; [reflexivity|split; [reflexivity|exists a; reflexivity]]|exact F]|]. split.
        * intros b [<-|I]; [|apply All; exact I]. rewrite !added_app, Ha. rewrite !in_app_iff. left. right. left. reflexivity.
        * intros b I. change (x :: xs) with ([x] ++ xs) in I. rewrite added_app, Ha in I. destruct I as [<-|I]; [split; [left; reflexivity|exact Na]|].
          destruct (New b I) as [I1 I2]. split; [right; exact I1|]. intros I3. apply I2. rewrite added_app. apply in_or_app. left. exact I3.
      + destruct (IH _ _ _ H R) as (xs & Hx & F & All & New). exists xs. split; [exact Hx|]. split; [exact F|]. split.
        * intros b [<-|I]; [|apply All; exact I]. rewrite added_app. apply in_or_app. left. exact (addr_spec tr s a H N).
        * intros b I. destruct (New b I) as [I1 I2]. split; [right; exact I1|exact I2].
  Qed.
  (** a start that succeeds was made by the owner; it sent nothing but accepted additions of named nodes not added before;
      afterwards all the named nodes are added, unless the contract was full of members already, and then it sent nothing *)
  Theorem C50_start o addrs tr s s' : hist tr s -> start_ o addrs s = Ok s' ->
    owner s = o_me o /\
    exists xs, hist (tr ++ xs) s' /\ Forall (add_step o) xs /\
      (forall a, In a (added xs) -> In a addrs /\ ~ In a (added tr)) /\
      (Z.of_nat (length (added tr)) <> o_members o -> forall a, In a addrs -> In a (added (tr ++ xs))) /\
      (Z.of_nat (length (added tr)) = o_members o -> xs = []).
  Proof.
    intros H R. unfold admin_start in R. apply bind_ok in R as (? & O & R). apply require_ok in O. apply Z.eqb_eq in O. split; [exact O|].
    rewrite (j_cnt _ _ _ _ (inv1 _ _ _ _ _ H)) in R. destruct (Z.eqb_spec (Z.of_nat (length (added tr))) (o_members o)) as [Eq|Ne]; cbn [negb] in R.
    - assert (s' = s) by congruence. subst s'. exists []. rewrite app_nil_r. split; [exact H|]. split; [constructor|]. split; [intros a []|]. split; [congruence|reflexivity].
    - destruct (add_nodes_run o addrs tr s s' H R) as (xs & Hx & F & All & New). exists xs. split; [exact Hx|]. split; [exact F|]. split; [exact New|]. split; [auto|congruence].
  Qed.
  Lemma add_nodes_idle o addrs tr s : hist tr s -> (forall a, In a addrs -> In a (added tr)) -> (forall a, In a addrs -> a <> 0) -> add_nodes v E o addrs s = Ok s.
  Proof.
    intros H. induction addrs as [|a r IH]; intros A N; [reflexivity|]. cbn [add_nodes]. rewrite (j_in _ _ _ _ (inv1 _ _ _ _ _ H) a (A a (or_introl eq_refl))).
    destruct (Z.eqb_spec a 0) as [Z0|_]; [destruct (N a (or_introl eq_refl) Z0)|]. apply IH; intros b I; [apply A|apply N]; right; exact I.
  Qed.
  (** restarting the service sends nothing more *)
  Theorem C50_restart o addrs tr s s' : hist tr s -> Forall (fun a => a <> 0) addrs -> start_ o addrs s = Ok s' -> start_ o addrs s' = Ok s'.
  Proof.
    intros H NZ R. rewrite Forall_forall in NZ. destruct (C50_start o addrs tr s s' H R) as (O & xs & Hx & F & New & All & Full).
    assert (O' : owner s' = o_me o).
    { destruct (Z.eq_dec (Z.of_nat (length (added tr))) (o_members o)) as [Eq|Ne].
      - pose proof (Full Eq) as Ex. subst xs. rewrite <- O. unfold admin_start in R. apply bind_ok in R as (? & _ & R). rewrite (j_cnt _ _ _ _ (inv1 _ _ _ _ _ H)), Eq, Z.eqb_refl in R. cbn [negb] in R. congruence.
      - unfold admin_start in R. apply bind_ok in R as (? & _ & R). destruct (negb _); [|congruence]. clear -O R. revert s O R. induction addrs as [|a r IH]; intros s O R; cbn [add_nodes] in R; [congruence|].
        destruct (nodeAddress _ =? 0); [|exact (IH s O R)]. apply bind_ok in R as ([s1 ev] & A & R). apply (IH s1); [|exact R]. rewrite <- O.
        destruct (apply_ok _ _ _ _ _ _ A) as [_ Rr]. inversion Rr; try discriminate; subst; reflexivity. }
    unfold admin_start. rewrite O', Z.eqb_refl. cbn [bind require]. destruct (Z.eqb_spec (currentIndex s') (o_members o)) as [Eq|Ne]; [reflexivity|]. cbn [negb].
    destruct (Z.eq_dec (Z.of_nat (length (added tr))) (o_members o)) as [Eq|Nn].
    - exfalso. apply Ne. rewrite (j_cnt _ _ _ _ (inv1 _ _ _ _ _ Hx)), (Full Eq), app_nil_r. exact Eq.
    - apply (add_nodes_idle o addrs (tr ++ xs) s' Hx); [exact (All Nn)|exact NZ].
  Qed.
  (** it does succeed for the owner if the distinct new addresses fit; it fails when more distinct addresses are named than
      the contract takes and it is not full yet (five addresses are always named, admin.ts:40-44) *)
  Theorem C50_start_ok o addrs : forall tr s, hist tr s -> owner s = o_me o -> 0 < o_me o < M160 -> Forall (fun a => 0 < a < M160) addrs ->
    Z.of_nat (length (nodup Z.eq_dec (added tr ++ addrs))) <= c_number c -> exists s', start_ o addrs s = Ok s'.
  Proof.
    intros tr s H O Me A L. unfold admin_start. rewrite O, Z.eqb_refl. cbn [bind require]. destruct (negb _); [|eauto].
    revert tr s H O A L. induction addrs as [|a r IH]; intros tr s H O A L; cbn [add_nodes]; [eauto|]. inversion A as [|? ? A1 A2]; subst.
    destruct (nodeAddress (addrToNode s a) =? 0) eqn:N.
    - assert (Na : ~ In a (added tr)). { intros I. rewrite (j_in _ _ _ _ (inv1 _ _ _ _ _ H) a I) in N. apply Z.eqb_eq in N. lia. }
      assert (C1 : (S (length (added tr)) <= length (nodup Z.eq_dec (added tr ++ a :: r)))%nat).
      { change (S (length (added tr))) with (length (a :: added tr)). apply NoDup_incl_length.
        - constructor; [exact Na|]. apply (j_nd _ _ _ _ (inv1 _ _ _ _ _ H)).
        - intros b [<-|I]; apply nodup_In, in_or_app; [right; left; reflexivity|left; exact I]. }
      destruct (F_add v E c tr s a H ltac:(rewrite O; exact Me) A1 ltac:(lia) Na) as (s1 & Ap & O1 & _).
      rewrite O in Ap. rewrite Ap. cbn [bind].
      pose proof (Histories.hist_tx v E c tr s (mkTx (o_me o) 0 (AddPermissionedNodes a)) H) as H1. unfold exec in H1. rewrite Ap in H1.
      apply (IH _ s1 H1); [congruence|exact A2|]. rewrite added_app.
      match goal with |- context [added [?x]] => change (added [x]) with [a] end. rewrite <- app_assoc. exact L.
    - apply (IH tr s H O A2). etransitivity; [|exact L]. apply inj_le. apply NoDup_incl_length; [apply NoDup_nodup|].
      intros b I. apply nodup_In in I. apply nodup_In. apply in_app_or in I as [I|I]; apply in_or_app; [left; exact I|right; right; exact I].
  Qed.
  Theorem C50_start_too_many o addrs tr s s' : hist tr s -> Z.of_nat (length (added tr)) <> o_members o ->
    c_number c < Z.of_nat (length (nodup Z.eq_dec addrs)) -> start_ o addrs s <> Ok s'.
  Proof.
    intros H N L R. destruct (C50_start o addrs tr s s' H R) as (_ & xs & Hx & _ & _ & All & _). specialize (All N).
    assert ((length (nodup Z.eq_dec addrs) <= length (added (tr ++ xs)))%nat).
    { apply NoDup_incl_length; [apply NoDup_nodup|]. intros a I. apply nodup_In in I. apply All. exact I. }
    pose proof (j_le _ _ _ _ (inv1 _ _ _ _ _ Hx)). lia.
  Qed.
End Polls.

(** ** the hypotheses are met: the three-member deployment of C49 in round 1, all three evaluations accepted *)
Lemma nd123 : NoDup [1; 2; 3]. Proof. repeat constructor; cbn; intuition lia. Qed.
Lemma in123 : Forall (fun i => In i [1; 2; 3] /\ 1 <= i <= 3) [1; 2; 3]. Proof. repeat constructor; cbn; intuition lia. Qed.
Section Demo.
  Variable v : variant.
  Variable poseidon : Fr -> Fr -> Fr.
  Variable ig : G2c -> bool.
  Variable pr : list (G1 * G2c) -> bool.
  Hypothesis HG : in_g2_ok ig.
  Hypothesis HP : pairing_ok pr.
  Let h2 := fun (_ : Z) (_ : bytes) (_ : list Z) => Ok true : res bool.
  Notation E := (real_env live_keccak ig pr h2).
  Notation hist := (Histories.hist v E stall_cfg).
  Notation dealers := stall_dealers.
  Lemma demo_evals h n idxs : hash_to_curve_bn live_keccak EVAL_PREFIX n = Ok h -> Forall (fun i => 1 <= i <= 3) idxs ->
    exists es : list Dkg.partial_eval, Forall2 (fun i e => pe_index e = i /\ pe_verify live_keccak e (mkConfig 3 3) n (g1mul g1 (total dealers (fr i))) = Ok tt /\ pe_value e = g1mul h (total dealers (fr i))) idxs es.
  Proof.
    intros Hh. induction 1 as [|i l Ri F (es & IH)]; [exists []; constructor|].
    destruct (evaluate_ok live_keccak (mkShareKey i (total dealers (fr i)) (g1mul g1 (total dealers (fr i)))) n (fr 9)) as (h' & Hh' & Ev). assert (h' = h) by congruence. subst h'.
    match type of Ev with _ = Ok ?e => set (e0 := e) in * end. exists (e0 :: es). constructor; [|exact IH]. split; [reflexivity|]. split; [|reflexivity].
    apply (evaluate_verifies live_keccak _ n (fr 9) e0 (mkConfig 3 3)) in Ev; [exact Ev|reflexivity|cbn [index number_of_members]; lia].
  Qed.
  Lemma eval_facts h n vks idxs es : Forall2 (fun i e => pe_index e = i /\ pe_verify live_keccak e (mkConfig 3 3) n (g1mul g1 (total dealers (fr i))) = Ok tt /\ pe_value e = g1mul h (total dealers (fr i))) idxs es ->
    Forall (fun i => 1 <= i <= 3 /\ get vks (i - 1) = Ok (g1mul g1 (total dealers (fr i)))) idxs ->
    Forall2 (fun i e => 1 <= i <= 3 /\ pe_index e = i /\ exists V, get vks (i - 1) = Ok V /\ pe_verify live_keccak e (mkConfig 3 3) n V = Ok tt) idxs es.
  Proof.
    induction 1 as [|i e l l' (X1 & X2 & _) Fe IH]; intros B; constructor; inversion B as [|? ? [B1 B2] B3]; [|exact (IH B3)]. split; [exact B1|]. split; [exact X1|].
    exists (g1mul g1 (total dealers (fr i))). split; [exact B2|exact X2].
  Qed.
  Notation vk_list := (map (fun i => g1mul g1 (total dealers (fr i))) (zseq 3)).
  Lemma demo_open : exists tr s, hist tr s /\ currentRoundNum s = 1 /\ no_random s 1 /\ owner s = 77 /\ getGpk s = enc2 (g2mul g2 (group_secret dealers)) /\
    getVkList s = map enc vk_list /\ map who (registrations tr) = [101; 102; 103] /\ evals tr 1 = [].
  Proof.
    set (gpp := mkGPP (g1mul g1 (group_secret dealers)) (g2mul g2 (group_secret dealers)) (map (fun i => g1mul g1 (total dealers (fr i))) (zseq 3))).
    assert (D : deal_all poseidon (mkConfig 3 3) demo_members dealers = Ok (map (pp_of poseidon demo_members) dealers)) by apply stall_deal.
    assert (Gp : dkg_global_public_params (map (pp_of poseidon demo_members) dealers) = Ok gpp).
    { destruct stall_honest as [_ HL Hk Hd Hc]. apply (global_honest poseidon (mkConfig 3 3) demo_members dealers); auto. }
    destruct (ongoing_0 v poseidon ig pr HG HP _ gpp D Gp) as (tr & s & [H R O Wh VK GK Rd Dn La]).
    destruct (C53_round_opens v live_keccak ig pr h2 live_keccak_ok stall_cfg tr s H R) as (s1 & ev & A & C1 & (S1 & S2 & S3 & S4 & S5) & Rr1).
    { rewrite O. split; reflexivity. } { rewrite Rd. reflexivity. } { rewrite Rd. exact Dn. }
    set (t := mkTx (owner s) 0 InitiateRandom) in *. set (tr1 := tr ++ [mkStep s t (Ok (s1, ev))]). assert (H1 : hist tr1 s1) by (apply hist_ok; auto).
    rewrite Rd in C1. change (0 + 1) with 1 in C1.
    assert (R1 : registrations tr1 = registrations tr) by (unfold tr1; rewrite registrations_app, registrations_one; apply app_nil_r).
    pose proof (inv3 _ _ _ _ _ H) as J3.
    assert (EV : evals tr1 1 = []).
    { unfold tr1. rewrite evals_app, evals_one. cbn [what t]. destruct (evals tr 1) as [|[a e] l] eqn:X; [destruct (currentRoundNum s =? 1); reflexivity|].
      pose proof (m_range _ _ _ _ _ J3 1 a) as Y. rewrite X in Y. specialize (Y (or_introl eq_refl)). pose proof (m_last _ _ _ _ _ J3 a). lia. }
    assert (NR : no_random s1 1).
    { apply no_random_iff. rewrite Rr1, (r_last _ _ _ _ _ J3 1). destruct (randoms tr 1) as [|p l] eqn:X; [reflexivity|].
      pose proof (r_range _ _ _ _ _ J3 1) as Y. rewrite X in Y. specialize (Y ltac:(discriminate)). lia. }
    exists tr1, s1. split; [exact H1|]. split; [exact C1|]. split; [exact NR|]. split; [congruence|]. split; [rewrite S4; exact GK|]. split; [rewrite S3; exact VK|]. split; [rewrite R1; exact Wh|exact EV].
  Qed.
  Lemma demo_round : exists tr s h, hist tr s /\ currentRoundNum s = 1 /\ no_random s 1 /\ owner s = 77 /\ getGpk s = enc2 (g2mul g2 (group_secret dealers)) /\
    getVkList s = map enc (map (fun i => g1mul g1 (total dealers (fr i))) (zseq 3)) /\ hash_to_curve_bn live_keccak EVAL_PREFIX (round_input 1) = Ok h /\
    length (evals tr 1) = 3%nat /\ forall a e, In (a, e) (evals tr 1) -> 0 <= proof_z e < r_mod /\ evalue e = enc (g1mul h (total dealers (fr (indexPlus e)))).
  Proof.
    set (gpp := mkGPP (g1mul g1 (group_secret dealers)) (g2mul g2 (group_secret dealers)) (map (fun i => g1mul g1 (total dealers (fr i))) (zseq 3))).
    destruct demo_open as (tr1 & s1 & H1 & C1 & NR & O & GK & VK & Wh & EV).
    destruct (C18_hash_total live_keccak EVAL_PREFIX (round_input 1)) as (h & Hh & _).
    destruct (demo_evals h (round_input 1) [1; 2; 3] Hh ltac:(repeat constructor; lia)) as (es & Fe).
    destruct (eval_all v live_keccak ig pr h2 live_keccak_ok stall_cfg (mkConfig 3 3) eq_refl gpp 1 [1; 2; 3] es ltac:(lia)) with (tr := tr1) (s := s1) as (tr2 & s2 & H2 & A2 & (T1 & T2 & T3 & T4 & T5) & C2 & RR2 & R2 & Cn2 & _ & Es2); try exact H1; try exact C1; try exact NR.
    - exact nd123.
    - assert (Gt : forall i, In i [1; 2; 3] -> get (verify_keys gpp) (i - 1) = Ok (g1mul g1 (total dealers (fr i)))).
      { intros i I. repeat destruct I as [<-|I]; try destruct I; reflexivity. }
      apply (eval_facts h (round_input 1) (verify_keys gpp)) with (1 := Fe). eapply Forall_impl; [|exact in123]. intros i [I1 I2]. split; [exact I2|exact (Gt i I1)].
    - rewrite Wh. repeat constructor; reflexivity.
    - rewrite <- (map_length who), Wh. reflexivity.
    - exact VK.
    - intros i a _ _. rewrite EV. intros [].
    - exists (tr1 ++ tr2), s2, h. split; [exact H2|]. split; [exact C2|]. split; [apply no_random_iff; rewrite RR2; apply no_random_iff; exact NR|].
      split; [congruence|]. split; [rewrite T4; exact GK|]. split; [rewrite T3; exact VK|]. split; [exact Hh|].
      rewrite EV in Es2. cbn [map app] in Es2. split.
      + rewrite <- (map_length snd), Es2, map_length, <- (Forall2_len Fe). reflexivity.
      + intros a e I. apply (in_map snd) in I. rewrite Es2 in I. cbn [snd] in I. apply in_map_iff in I as (x & <- & I). unfold sol_eval. cbn [proof_z evalue indexPlus].
        split; [apply (fval_range r_mod (pe_z x) eq_refl)|]. f_equal. clear - Fe I. induction Fe as [|i y l l' (X1 & _ & X) Fe IH]; [destruct I|]. destruct I as [<-|I]; [rewrite X1; exact X|exact (IH I)].
  Qed.
  Notation create_ := (admin_create_random live_keccak pr poseidon some_json (fun g _ => g) unit unit (fun _ => []) (fun _ => Ok tt) (fun _ => []) (fun _ => Ok tt) (fun _ _ => Ok tt) (fun _ _ _ => Ok tt) (fun _ => tt)
              (fun _ _ _ _ _ => Ok []) (fun _ _ _ _ => true) (Opts 3 3 18 77)).
  Lemma demo_run : exists tr s fs w call s' ev p, hist tr s /\ create_ (fun _ => s) 1 fs = (w, Ok call) /\ apply v E s (mkTx 77 0 call) = Ok (s', ev) /\ getRandomAtRound s' 1 = Ok p.
  Proof.
    destruct demo_round as (tr & s & h & H & C & NR & O & GK & VK & Hh & Le & Acc).
    set (vks := map (fun i => g1mul g1 (total dealers (fr i))) (zseq 3)) in *. set (gpk := g2mul g2 (group_secret dealers)) in *.
    set (fs1 := set demo_fs gpk_path (File (Client.enc (j_point2 some_json) (of_g2 gpk)))). set (fs := set fs1 vks_path (File (Client.enc (j_points some_json) (map of_g1 vks)))).
    assert (G1' : good_fs fs1) by (unfold fs1; rewrite gpk_jp; apply good_set; exact demo_good).
    assert (G : good_fs fs) by (unfold fs; rewrite vks_jp; apply good_set; exact G1').
    assert (Ng : gpk_path <> vks_path) by (apply (neq_at 11); vm_compute; discriminate).
    assert (HO : options_ok stall_cfg (Opts 3 3 18 77)) by (constructor; cbn [o_threshold o_members o_degree o_me c_threshold c_number stall_cfg]; try lia; split; reflexivity).
    assert (Ev : evolves v E stall_cfg (fun _ => tr) (fun _ => s)) by (intros i; split; [exact H|exists []; symmetry; apply app_nil_r]).
    assert (Lv : zlen vks = c_number stall_cfg) by (unfold vks, zlen; rewrite map_length, length_zseq; reflexivity).
    assert (Gf : gpk_file some_json fs gpk) by (unfold fs; apply holds_other; [exact Ng|]; apply holds_saved; [apply (ok_point2 _ some_json_ok)|apply g2_round]).
    assert (Vf : vks_file some_json fs vks) by (apply holds_saved; [apply (ok_points _ some_json_ok)|]; exact (map_round of_g1 to_g1 _ g1_round)).
    assert (NZ : prf_value live_keccak (g1mul h (group_secret dealers)) <> be_bytes 32 0).
    { rewrite prf_value_word. intros X. apply be_inj in X; [|apply live_keccak_ok|split; [lia|reflexivity]].
      match type of X with live_keccak ?b = _ => unfold live_keccak in X; pose proof (Z.mod_pos_bound (Z.of_nat (length b)) 2 eq_refl); lia end. }
    assert (Le' : c_threshold stall_cfg <= Z.of_nat (length (evals tr 1))) by (rewrite Le; cbn; lia).
    assert (Rk : currentRoundNum s >= 1) by (rewrite C; lia). assert (L5 : (2 + Z.to_nat (c_number stall_cfg) <= 5)%nat) by (cbn; lia).
    pose proof (C50_random_stored v live_keccak ig pr h2 live_keccak_ok HG HP stall_cfg poseidon some_json some_json_ok (fun g _ => g) unit unit (fun _ => []) (fun _ => Ok tt) (fun _ => []) (fun _ => Ok tt) (fun _ _ => Ok tt) (fun _ _ _ => Ok tt) (fun _ => tt)
              (fun _ _ _ _ _ => Ok []) (fun _ _ _ _ => true) (Opts 3 3 18 77) HO (fun _ => tr) (fun _ => s) 5 1 fs demo_members dealers vks h Ev stall_honest ltac:(lia) L5 Rk C NR O GK VK Lv G Gf Vf Hh NZ Le' Acc) as (w & call & s' & ev & p & Cr & A & GR & _).
    exists tr, s, fs, w, call, s', ev, p. split; [exact H|]. split; [exact Cr|]. split; [exact A|exact GR].
  Qed.
  Notation eval_ := (node_submit_eval live_keccak pr poseidon some_json (fun g _ => g) unit unit (fun _ => []) (fun _ => Ok tt) (fun _ => []) (fun _ => Ok tt) (fun _ _ => Ok tt) (fun _ _ _ => Ok tt) (fun _ => tt)
              (fun _ _ _ _ _ => Ok []) (fun _ _ _ _ => true) (Opts 3 3 18 101)).
  Lemma demo_eval_run : exists tr s fs w call s' ev, hist tr s /\ (exists d, node_poll (Opts 3 3 18 101) 3 (fun _ => s) = NEvaluate d) /\
    eval_ (fun _ => s) (fr 9) fs = (w, Ok call) /\ apply v E s (mkTx 101 0 call) = Ok (s', ev) /\ roundSubmissionCount s' 1 = 1.
  Proof.
    destruct demo_open as (tr & s & H & C & NR & O & GK & VK & Wh & EV). set (vks := vk_list) in *.
    set (k := mkShareKey 1 (total dealers (fr 1)) (g1mul g1 (total dealers (fr 1)))).
    set (fs1 := set demo_fs (share_path 1) (File (Client.enc (j_share some_json) (of_share k)))). set (fs := set fs1 vks_path (File (Client.enc (j_points some_json) (map of_g1 vks)))).
    assert (G1' : good_fs fs1) by (unfold fs1; rewrite share_path_jp; apply good_set; exact demo_good).
    assert (G : good_fs fs) by (unfold fs; rewrite vks_jp; apply good_set; exact G1').
    assert (Ng : share_path 1 <> vks_path) by (apply (neq_at 11); vm_compute; discriminate).
    assert (HO : options_ok stall_cfg (Opts 3 3 18 101)) by (constructor; cbn [o_threshold o_members o_degree o_me c_threshold c_number stall_cfg]; try lia; split; reflexivity).
    assert (Sf : share_file some_json fs (0 + 1) k) by (unfold fs; apply holds_other; [exact Ng|]; apply holds_saved; [apply (ok_share _ some_json_ok)|apply share_round; reflexivity]).
    assert (Vf : vks_file some_json fs vks) by (apply holds_saved; [apply (ok_points _ some_json_ok)|]; exact (map_round of_g1 to_g1 _ g1_round)).
    assert (R1 : 1 <= currentRoundNum s) by (rewrite C; lia). assert (NR' : no_random s (currentRoundNum s)) by (rewrite C; exact NR).
    assert (Zi : znth (map who (registrations tr)) 0 = Some 101) by (rewrite Wh; reflexivity).
    assert (NI : ~ In 101 (map fst (evals tr (currentRoundNum s)))) by (rewrite C, EV; intros []).
    assert (Zv : znth vks 0 = Some (vk k)) by reflexivity.
    pose proof (C49_evaluation_accepted v live_keccak ig pr h2 live_keccak_ok stall_cfg poseidon some_json some_json_ok (fun g _ => g) unit unit (fun _ => []) (fun _ => Ok tt) (fun _ => []) (fun _ => Ok tt) (fun _ _ => Ok tt) (fun _ _ _ => Ok tt) (fun _ => tt)
              (fun _ _ _ _ _ => Ok []) (fun _ _ _ _ => true) (Opts 3 3 18 101) HO tr s 0 fs (fr 9) k vks H R1 NR' Zi NI G Sf Vf VK eq_refl eq_refl Zv) as (w & call & s' & ev & Cr & A & Cn).
    exists tr, s, fs, w, call, s', ev. split; [exact H|]. split.
    - assert (Ev : evolves v E stall_cfg (fun _ => tr) (fun _ => s)) by (intros i; split; [exact H|exists []; symmetry; apply app_nil_r]).
      assert (La : lastSubmittedRound s 101 = 0).
      { pose proof (m_last _ _ _ _ _ (inv3 _ _ _ _ _ H) 101) as M. pose proof (m_lastin _ _ _ _ _ (inv3 _ _ _ _ _ H) 101) as M2. destruct (Z.eq_dec (lastSubmittedRound s 101) 0) as [|N]; [assumption|].
        specialize (M2 ltac:(lia)). assert (X : lastSubmittedRound s 101 = 1) by lia. rewrite X, EV in M2. destruct M2. }
      apply (C49_evaluates v E stall_cfg (Opts 3 3 18 101) 3 (fun _ => tr) (fun _ => s) Ev); cbn [o_me]; rewrite La, C; [left; lia|].
      destruct (C31_rounds v E stall_cfg tr s H) as (_ & Rd & _). split; [apply Rd; lia|]. split; [|split; [lia|rewrite EV; cbn; lia]].
      assert (I : In 101 (map who (registrations tr))) by (rewrite Wh; left; reflexivity). apply (j_in _ _ _ _ (inv1 _ _ _ _ _ H)), (j_rin _ _ _ _ (inv1 _ _ _ _ _ H)), I.
    - rewrite C in Cn. split; [exact Cr|]. split; [exact A|]. rewrite Cn, (m_cnt _ _ _ _ _ (inv3 _ _ _ _ _ H) 1), EV. reflexivity.
  Qed.
End Demo.
Notation with_client f pr J := (f live_keccak pr (fun a _ : Fr => a) J (fun g (_ : Z) => g) unit unit (fun _ => @nil Z) (fun _ => Ok tt) (fun _ => @nil Z) (fun _ => Ok tt) (fun _ _ => Ok tt) (fun _ _ _ => Ok tt) (fun _ => tt) (fun _ _ _ _ _ => Ok (@nil Z)) (fun _ _ _ _ => true)).
(** an admin that combines and stores a random; a node that evaluates and is accepted *)
Example C50_meets v : exists pr ig tr s fs w call s' ev p, let E := real_env live_keccak ig pr (fun _ _ _ => Ok true) in
  pairing_ok pr /\ Histories.hist v E stall_cfg tr s /\ with_client admin_create_random pr some_json (Opts 3 3 18 77) (fun _ => s) 1 fs = (w, Ok call) /\
  apply v E s (mkTx 77 0 call) = Ok (s', ev) /\ getRandomAtRound s' 1 = Ok p.
Proof.
  destruct in_g2_exists as [ig HG]. destruct pairing_exists as [pr HP]. destruct (demo_run v (fun a _ => a) ig pr HG HP) as (tr & s & fs & w & call & s' & ev & p & X).
  exists pr, ig, tr, s, fs, w, call, s', ev, p. split; [exact HP|exact X].
Qed.
Example C49_meets v : exists pr ig tr s fs w call s' ev, let E := real_env live_keccak ig pr (fun _ _ _ => Ok true) in
  Histories.hist v E stall_cfg tr s /\ (exists d, node_poll (Opts 3 3 18 101) 3 (fun _ => s) = NEvaluate d) /\
  with_client node_submit_eval pr some_json (Opts 3 3 18 101) (fun _ => s) (fr 9) fs = (w, Ok call) /\ apply v E s (mkTx 101 0 call) = Ok (s', ev) /\ roundSubmissionCount s' 1 = 1.
Proof.
  destruct in_g2_exists as [ig HG]. destruct pairing_exists as [pr HP]. destruct (demo_eval_run v (fun a _ => a) ig pr HG HP) as (tr & s & fs & w & call & s' & ev & X).
  exists pr, ig, tr, s, fs, w, call, s', ev. exact X.
Qed.
Print Assumptions C50_combines_iff.
Print Assumptions C50_reads.
Print Assumptions C50_early_initiation.
Print Assumptions C50_random_stored.
Print Assumptions C50_only_verified.
Print Assumptions C50_noncanonical.
Print Assumptions C50_poison.
Print Assumptions C50_keys_completed.
Print Assumptions C50_meets.
Print Assumptions C49_evaluates.
Print Assumptions C49_first_evaluation.
Print Assumptions C49_registers.
Print Assumptions C49_deadlock_reached.
Print Assumptions C49_meets.
