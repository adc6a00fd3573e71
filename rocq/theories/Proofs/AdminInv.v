(** The invariant of the admin service's runs. *)
From Coq Require Import ZArith String List Bool Lia.
From Verif.Base Require Import Fld Fp EC Primes Curves Group Fermat.
From Verif.Model Require Import Monad Evm Strings Points HashEvm Dkg Lib Serialise Files Cache Client Zkdvrf PairingSol GppSol RealEnv Services ServiceRun AdminRun.
From Verif.Spec Require Import Dvrf Onchain Histories Serial CacheSpec ClientSpec ServiceSpec.
From Verif.Proofs Require Import ZkdvrfStep ZkdvrfInv1 ZkdvrfInv2 ZkdvrfInv3 Forward BytesProofs SerialProofs CacheProofs ClientProofs GppProofs VerifyProofs OnchainProofs RunProofs Stable AdminDrift AdminRunProofs.
From Verif.Props Require Import P_Services P_EndToEnd.
Import ListNotations.
Open Scope Z_scope.

(** the accepted key is the argument, and it is in the group *)
Lemma createGpp_key in_g2 pairing (HG : in_g2_ok in_g2) n g l g' vks : createGpp in_g2 pairing n g l = Ok (g', vks) -> g' = g /\ exists sec : Fr, g = enc2 (g2mul g2 sec).
Proof.
  unfold createGpp. intros H. do 6 (apply bind_ok in H as (? & ? & H)). apply bind_ok in H as (n1 & _ & H). apply bind_ok in H as (b & B & H). apply bind_ok in H as (? & _ & H).
  assert (g' = g) by congruence. subst g'. split; [reflexivity|]. rewrite prod2_ok in B by exact HG.
  destruct (decode _); [|discriminate]. destruct (mem2 in_g2 P2); [|discriminate]. destruct (decode n1); [|discriminate]. destruct (mem2 in_g2 g) as [Q|] eqn:M; [|discriminate].
  apply mem2_iff in M; [|exact HG]. destruct M as [-> [sec ->]]. eauto.
Qed.

Section Run.
  Variable v : variant.
  Variable keccak : bytes -> Z.
  Variable in_g2 : G2c -> bool.
  Variable pairing : list (G1 * G2c) -> bool.
  Variable halo2 : Z -> bytes -> list Z -> res bool.
  Hypothesis K : keccak_ok keccak.
  Hypothesis HG : in_g2_ok in_g2.
  Variable c : Zkdvrf.cfg.
  Notation E := (real_env keccak in_g2 pairing halo2).
  Notation hist := (Histories.hist v E c).
  Variable poseidon : Fr -> Fr -> Fr.
  Variable J : json.
  Hypothesis HJ : json_ok J.
  Variable lag : list bytes -> Z -> list bytes.
  Variables vkey pkey : Type.
  Variable vk_write : vkey -> bytes.
  Variable vk_read : bytes -> res vkey.
  Variable pk_write : pkey -> bytes.
  Variable pk_read : bytes -> res pkey.
  Variable keygen_vk : kzg -> config -> res vkey.
  Variable keygen_pk : kzg -> vkey -> config -> res pkey.
  Variable get_vk : pkey -> vkey.
  Variable create_proof : kzg -> pkey -> member_params -> list Fr -> Z -> res bytes.
  Variable verify_proof : kzg -> vkey -> bytes -> list Fr -> bool.
  Variable w : admin_options.
  Notation me := (o_me (ao w)).
  Hypothesis HO : options_ok c (ao w).
  Notation perform_ := (perform keccak pairing poseidon J lag vkey pkey vk_write vk_read pk_write pk_read keygen_vk keygen_pk get_vk create_proof verify_proof w).
  Notation amove_ := (amove v E c keccak pairing poseidon J lag vkey pkey vk_write vk_read pk_write pk_read keygen_vk keygen_pk get_vk create_proof verify_proof w).
  Notation acalm_ := (acalm v E c keccak pairing poseidon J lag vkey pkey vk_write vk_read pk_write pk_read keygen_vk keygen_pk get_vk create_proof verify_proof w).
  Notation raced := (AdminDrift.raced me).
  Notation quietly := (AdminDrift.quietly me).

  Definition task_ok (tr : list Histories.step) (s : st) (x : task) : Prop :=
    match x with
    | TAdd a => In a (ao_nodes w)
    | TDo AStartNidkg => contractPhase s = Registered
    | TDo ACreateGpp => contractPhase s = NidkgComplete \/ raced tr
    | TDo AInitiate | TInterval => contractPhase s = Ready
    | TDo (ACreateRandom k) => contractPhase s = Ready /\ k = currentRoundNum s /\ k <> 0 /\ rvalue (roundToRandom s k) = 0 /\ c_threshold c <= roundSubmissionCount s k
    end.
  Definition firm (x : task) : Prop := match x with TAdd _ | TInterval => True | TDo _ => False end.
  Definition pend_ok (f : fs) (tr : list Histories.step) (s : st) (a : call) : Prop :=
    match a with
    | AddPermissionedNodes n => In n (ao_nodes w) /\ nodeAddress (addrToNode s n) = 0
    | StartNidkg => contractPhase s = Registered
    | InitiateRandom => contractPhase s = Ready
    | ComputeVk g => (contractPhase s = NidkgComplete \/ raced tr) /\ exists Q, g = enc2 Q /\ gpk_file J f Q
    | SubmitRandom p => contractPhase s = Ready /\ currentRoundNum s <> 0 /\ rvalue (roundToRandom s (currentRoundNum s)) = 0 /\ c_threshold c <= roundSubmissionCount s (currentRoundNum s) /\
        exists (pr : Dkg.pseudo_random) gpk, gpk_file J f gpk /\ pr_verify keccak pairing pr (round_input (currentRoundNum s)) gpk = Ok tt /\ p = mkPrand (enc (pr_proof pr)) (of_be (pr_value pr))
    | _ => False
    end.
  Definition keyed (f : fs) (tr : list Histories.step) (s : st) : Prop :=
    contractPhase s = Ready -> raced tr \/ exists sec : Fr, gpk_file J f (g2mul g2 sec) /\ gpkVal s = enc2 (g2mul g2 sec).
  (** the process since its last reading *)
  Definition since_ok (p : aproc) (tr : list Histories.step) : Prop :=
    exists s0 u, hist (a_since p) s0 /\ owner s0 = me /\ tr = a_since p ++ u /\ quietly u /\ Forall (task_ok (a_since p) s0) (a_todo p).
  Record agood (x : aworld) : Prop := {
    g_hist : hist (aw_tr x) (aw_st x);
    g_owner : owner (aw_st x) = me;
    g_fs : good_fs (a_fs (aw_proc x));
    g_key : keyed (a_fs (aw_proc x)) (aw_tr x) (aw_st x);
    g_added : incl (added (aw_tr x)) (ao_nodes w);
    g_todo : Forall (task_ok (aw_tr x) (aw_st x)) (a_todo (aw_proc x));
    g_firm : Forall firm (tl (a_todo (aw_proc x)));
    g_life : match a_life (aw_proc x) with
             | Polling => a_queue (aw_proc x) = [] /\ since_ok (aw_proc x) (aw_tr x)
             | Waiting => Forall firm (a_todo (aw_proc x)) /\ exists a, a_queue (aw_proc x) = [(a, Awaited)] /\ pend_ok (a_fs (aw_proc x)) (aw_tr x) (aw_st x) a
             | Stopped => a_todo (aw_proc x) = [] /\ (a_queue (aw_proc x) = [] \/ exists a, a_queue (aw_proc x) = [(a, Awaited)] /\ pend_ok (a_fs (aw_proc x)) (aw_tr x) (aw_st x) a)
             end }.

  Lemma since_refl f l t z q tr s : hist tr s -> owner s = me -> Forall (task_ok tr s) t -> since_ok (AProc f l t z q tr) tr.
  Proof. intros H O T. exists s, []. cbn [a_since a_todo]. rewrite app_nil_r. split; [exact H|]. split; [exact O|]. split; [reflexivity|]. split; [constructor|exact T]. Qed.
  Lemma task_drift tr u s s' x : hist tr s -> hist (tr ++ u) s' -> drift (raced u) s s' -> task_ok tr s x -> task_ok (tr ++ u) s' x.
  Proof.
    intros H H' D. destruct x as [a|[| | |k]|]; cbn [task_ok].
    - intros X; exact X.
    - apply (d_reg _ _ _ D).
    - intros [X|X]; [|right; apply raced_app; left; exact X]. destruct (d_complete _ _ _ D X); [left; assumption|right; apply raced_app; right; assumption].
    - intros X. apply (d_ready _ _ _ D X).
    - intros (X & Ek & Nz & R & T). rewrite (d_round _ _ _ D), (d_random _ _ _ D). pose proof (d_count _ _ _ D k) as C. split; [apply (d_ready _ _ _ D X)|]. split; [exact Ek|]. split; [exact Nz|]. split; [exact R|]. exact (Z.le_trans _ _ _ T C).
    - intros X. apply (d_ready _ _ _ D X).
  Qed.
  Lemma pend_drift f tr u s s' a : drift (raced u) s s' -> pend_ok f tr s a -> pend_ok f (tr ++ u) s' a.
  Proof.
    intros D. destruct a; cbn [pend_ok]; try (intros []; fail).
    - intros [I N]. split; [exact I|]. rewrite (d_node _ _ _ D). exact N.
    - apply (d_reg _ _ _ D).
    - intros [[X|X] Q]; (split; [|exact Q]); [|right; apply raced_app; left; exact X]. destruct (d_complete _ _ _ D X); [left; assumption|right; apply raced_app; right; assumption].
    - intros X. apply (d_ready _ _ _ D X).
    - intros (X & Nz & R & T & Q). rewrite (d_round _ _ _ D), (d_random _ _ _ D). pose proof (d_count _ _ _ D (currentRoundNum s)) as C. split; [apply (d_ready _ _ _ D X)|]. split; [exact Nz|]. split; [exact R|]. split; [exact (Z.le_trans _ _ _ T C)|exact Q].
  Qed.
  Lemma keyed_drift f tr u s s' : drift (raced u) s s' -> keyed f tr s -> keyed f (tr ++ u) s'.
  Proof.
    intros D H P. destruct (d_new _ _ _ D P) as [P0|X]; [|left; apply raced_app; right; exact X].
    destruct (H P0) as [X|(sec & F & V)]; [left; apply raced_app; left; exact X|]. right. exists sec. split; [exact F|]. rewrite (proj2 (d_ready _ _ _ D P0)). exact V.
  Qed.
  (** a transaction of the administrator's is not a race *)
  Lemma raced_mine tr s a r : raced (tr ++ [mkStep s (mkTx me 0 a) r]) <-> raced tr.
  Proof.
    rewrite raced_app. split; [|auto]. intros [X|(x & g & [<-|[]] & _ & N & _)]; [exact X|]. cbn in N. congruence.
  Qed.
  Lemma owner_mine tr s f a : owner s = me -> pend_ok f tr s a -> owner (exec v E s (mkTx me 0 a)) = me.
  Proof.
    intros O P. unfold exec. destruct (apply v E s _) as [[s' ev]| |] eqn:A; try exact O. destruct (apply_ok _ _ _ _ _ _ A) as [_ R].
    rewrite (owner_kept _ _ _ _ _ _ R); [exact O| |]; cbn [what]; intros; intros ->; cbn [pend_ok] in P; destruct P.
  Qed.
  (** an accepted transaction of the administrator's does not leave [Ready] *)
  Lemma ready_mine s a : contractPhase s = Ready -> contractPhase (exec v E s (mkTx me 0 a)) = Ready /\ gpkVal (exec v E s (mkTx me 0 a)) = gpkVal s.
  Proof.
    intros P. unfold exec. destruct (apply v E s _) as [[s' ev]| |] eqn:A; auto. destruct (apply_ok _ _ _ _ _ _ A) as [_ R].
    destruct R; try congruence; subst; cbn; auto. destruct (is_pre v); congruence. match goal with X : if is_pre v then _ else _ |- _ => destruct (is_pre v); [destruct X as (h & _ & ->)|rewrite X]; cbn; auto end.
  Qed.
  Lemma keyed_mine tr s f a : hist tr s -> keyed f tr s -> pend_ok f tr s a -> keyed f (tr ++ [mkStep s (mkTx me 0 a) (apply v E s (mkTx me 0 a))]) (exec v E s (mkTx me 0 a)).
  Proof.
    intros H Ky P R. destruct (phase_eqb (contractPhase s) Ready) eqn:Eq.
    - apply phase_eqb_eq in Eq. destruct (Ky Eq) as [X|(sec & F & V)]; [left; apply raced_mine; exact X|]. right. exists sec. split; [exact F|].
      rewrite (proj2 (ready_mine s a Eq)). exact V.
    - assert (Nr : contractPhase s <> Ready) by (intros X; rewrite X in Eq; discriminate Eq). revert R. unfold exec. destruct (apply v E s _) as [[s' ev]| |] eqn:A; try contradiction.
      intros R. destruct (apply_ok _ _ _ _ _ _ A) as [_ S].
      assert (W : exists g, a = ComputeVk g). { destruct a; cbn [pend_ok] in P; try destruct P; eauto; exfalso; destruct S; cbn [what] in *; try discriminate; subst; cbn in R; congruence. }
      destruct W as [g ->]. cbn [pend_ok] in P. destruct P as [_ (Q & -> & F)]. destruct S; cbn [what] in *; try discriminate. match goal with X : ComputeVk _ = ComputeVk _ |- _ => injection X as <- end.
      match goal with X : create_gpp _ _ _ _ = Ok _ |- _ => cbn [create_gpp real_env] in X; apply createGpp_key in X; [|exact HG]; destruct X as [-> (sec & G)] end.
      right. exists sec. assert (Q = g2mul g2 sec) by (pose proof (words2_enc2 Q) as W2; rewrite G, words2_enc2 in W2; congruence). subst Q. split; [exact F|]. subst. reflexivity.
  Qed.
  Lemma task_mine tr s a x : task_ok tr s x -> firm x -> task_ok (tr ++ [mkStep s (mkTx me 0 a) (apply v E s (mkTx me 0 a))]) (exec v E s (mkTx me 0 a)) x.
  Proof. destruct x as [n|y|]; cbn [task_ok firm]; [intros H _; exact H|intros _ []|intros H _; exact (proj1 (ready_mine s a H))]. Qed.
  Lemma added_mine tr s f a : incl (added tr) (ao_nodes w) -> pend_ok f tr s a -> incl (added (tr ++ [mkStep s (mkTx me 0 a) (apply v E s (mkTx me 0 a))])) (ao_nodes w).
  Proof.
    intros I P. rewrite added_app. apply incl_app; [exact I|]. destruct (apply v E s _) as [[s' ev]| |]; [|intros x []|intros x []]. rewrite added_one. cbn [what].
    destruct a; try (intros x []; fail). cbn [pend_ok] in P. intros x [<-|[]]. apply P.
  Qed.
  Lemma tail_firm l : Forall firm l -> Forall firm (tl l).
  Proof. intros H. destruct H; cbn [tl]; [constructor|assumption]. Qed.
  Lemma reads_drift p tr s trs ch k : since_ok p tr -> hist tr s -> ServiceRun.reads v E c (a_since p) tr trs ch -> exists u, drift (raced u) (ch k) s /\ (raced u -> raced tr).
  Proof.
    intros (s0 & u & H0 & O0 & -> & Q & _) H R. destruct (drift_reads v E c me _ _ _ _ _ _ _ k H0 O0 eq_refl Q H R) as [D _]. exists u. split; [exact D|]. intros X. apply raced_app. right. exact X.
  Qed.
  Lemma decide_ok p tr s trs ch now : since_ok p tr -> hist tr s -> ServiceRun.reads v E c (a_since p) tr trs ch ->
    Forall (task_ok tr s) (decide w now ch) /\ Forall firm (tl (decide w now ch)).
  Proof.
    intros S H R. pose proof (fun k => reads_drift p tr s trs ch k S H R) as D. destruct (D 0%nat) as (u0 & D0 & R0), (D 1%nat) as (u1 & D1 & _), (D 2%nat) as (u2 & D2 & _), (D 3%nat) as (u3 & D3 & _).
    unfold decide. destruct (contractPhase (ch 0%nat)) eqn:P; try (split; constructor; fail).
    - split; [|constructor]. constructor; [|constructor]. exact (d_reg _ _ _ D0 P).
    - split; [|constructor]. constructor; [|constructor]. cbn [task_ok]. destruct (d_complete _ _ _ D0 P) as [X|X]; [left; exact X|right; exact (R0 X)].
    - destruct (d_ready _ _ _ D0 P) as [Ps _]. destruct (now <? ao_start w); [split; constructor|].
      destruct (Z.eqb_spec (currentRoundNum (ch 1%nat)) 0) as [|Nz]; [split; [constructor; [exact Ps|constructor]|constructor]|].
      destruct (Z.eqb_spec (rvalue (roundToRandom (ch 3%nat) (currentRoundNum (ch 1%nat)))) 0) as [Rv|]; cbn [andb app];
        [|split; [constructor; [exact Ps|constructor]|constructor]].
      destruct (Z.leb_spec (o_threshold (ao w)) (roundSubmissionCount (ch 2%nat) (currentRoundNum (ch 1%nat)))) as [T|]; cbn [app];
        [|split; [constructor; [exact Ps|constructor]|constructor]].
      split; [constructor; [|constructor; [exact Ps|constructor]]|constructor; [exact I|constructor]].
      cbn [task_ok]. rewrite <- (d_round _ _ _ D1) in *. rewrite <- (d_random _ _ _ D3) in Rv. pose proof (d_count _ _ _ D2 (currentRoundNum s)) as C. rewrite (oo_t _ _ HO) in T.
      split; [exact Ps|]. split; [reflexivity|]. split; [exact Nz|]. split; [exact Rv|]. exact (Z.le_trans _ _ _ T C).
  Qed.
  (** what a task does, in any file system *)
  Lemma perform_ok p tr s now t trs ch wr r : since_ok p tr -> hist tr s -> ServiceRun.reads v E c (a_since p) tr trs ch -> task_ok tr s t ->
    perform_ now (a_last p) t ch (a_fs p) = (wr, r) ->
    only (GPP_FILES ++ RANDOM_FILES) wr /\ ((exists k, t = TDo (ACreateRandom k)) \/ t = TDo ACreateGpp \/ wr = []) /\ (t <> TDo ACreateGpp -> only RANDOM_FILES wr) /\
    (forall a, r = Ok (Some a) -> pend_ok (effects (a_fs p) wr) tr s a).
  Proof.
    intros S H R T X. destruct (reads_drift p tr s trs ch 0%nat S H R) as (u0 & D0 & R0), (reads_drift p tr s trs ch 1%nat S H R) as (u1 & D1 & R1).
    assert (Nil : wr = [] -> only (GPP_FILES ++ RANDOM_FILES) wr /\ ((exists k, t = TDo (ACreateRandom k)) \/ t = TDo ACreateGpp \/ wr = []) /\ (t <> TDo ACreateGpp -> only RANDOM_FILES wr)).
    { intros ->. split; [constructor|]. split; [right; right; reflexivity|]. intros _. constructor. }
    destruct t as [n|[| | |k]|]; cbv beta iota delta [perform cret] in X.
    - assert (Ew : wr = []) by congruence. split; [apply Nil, Ew|]. split; [apply Nil, Ew|]. split; [apply Nil, Ew|]. intros a Er.
      destruct (Z.eqb_spec (nodeAddress (addrToNode (ch 0%nat) n)) 0) as [N|]; [|congruence]. assert (Ea : a = AddPermissionedNodes n) by congruence. subst a. cbn [pend_ok]. split; [exact T|].
      rewrite (d_node _ _ _ D0). exact N.
    - assert (Ew : wr = []) by congruence. split; [apply Nil, Ew|]. split; [apply Nil, Ew|]. split; [apply Nil, Ew|]. intros a Er. assert (Ea : a = StartNidkg) by congruence. subst a. exact T.
    - unfold cbind in X. destruct (admin_create_gpp keccak pairing poseidon J lag vkey pkey vk_write vk_read pk_write pk_read keygen_vk keygen_pk get_vk create_proof verify_proof (ao w) ch (a_fs p)) as [w0 r0] eqn:G.
      pose proof (gpp_result keccak pairing c poseidon J HJ lag vkey pkey vk_write vk_read pk_write pk_read keygen_vk keygen_pk get_vk create_proof verify_proof (ao w) HO ch (a_fs p) w0 r0 G) as [O1 O2].
      assert (Ew : wr = w0). { destruct r0; [cbn [cret] in X; rewrite app_nil_r in X|..]; congruence. } subst wr. split; [eapply only_incl; [|exact O1]; apply incl_appl, incl_refl|]. split; [right; left; reflexivity|]. split; [intros N; destruct (N eq_refl)|].
      intros a Er. destruct r0 as [a0|e|e]; [|congruence|congruence]. assert (Ea : a = a0) by (cbn [cret] in X; congruence). subst a0. destruct O2 as (Q & -> & F). cbn [pend_ok]. split; [exact T|]. exists Q. split; [reflexivity|exact F].
    - assert (Ew : wr = []) by congruence. split; [apply Nil, Ew|]. split; [apply Nil, Ew|]. split; [apply Nil, Ew|]. intros a Er. assert (Ea : a = InitiateRandom) by congruence. subst a. exact T.
    - unfold cbind in X. destruct (admin_create_random keccak pairing poseidon J lag vkey pkey vk_write vk_read pk_write pk_read keygen_vk keygen_pk get_vk create_proof verify_proof (ao w) ch k (a_fs p)) as [w0 r0] eqn:G.
      pose proof (random_result keccak pairing c poseidon J HJ lag vkey pkey vk_write vk_read pk_write pk_read keygen_vk keygen_pk get_vk create_proof verify_proof (ao w) HO ch k (a_fs p) w0 r0 G) as [O1 O2].
      assert (Ew : wr = w0). { destruct r0; [cbn [cret] in X; rewrite app_nil_r in X|..]; congruence. } subst wr. split; [eapply only_incl; [|exact O1]; apply incl_appr, incl_refl|]. split; [left; exists k; reflexivity|]. split; [intros _; exact O1|].
      intros a Er. destruct r0 as [a0|e|e]; [|congruence|congruence]. assert (Ea : a = a0) by (cbn [cret] in X; congruence). subst a0. destruct O2 as (pr & gpk & F & V & ->). destruct T as (Ps & -> & Nz & Rv & T). cbn [pend_ok].
      split; [exact Ps|]. split; [exact Nz|]. split; [exact Rv|]. split; [exact T|]. exists pr, gpk. split; [|split; [|reflexivity]].
      + revert F. apply holds_ext. apply (only_effects RANDOM_FILES); [exact O1|exact gpk_not_random].
      + destruct (R 1%nat) as (H1 & _). pose proof (k_input _ _ _ _ _ (inv2 _ _ _ _ _ H1) (currentRoundNum s)) as Ki. pose proof (m_last _ _ _ _ _ (inv3 _ _ _ _ _ H) 0) as Lr. rewrite <- (d_round _ _ _ D1) in Ki.
        destruct (Z.leb_spec 1 (currentRoundNum s)); [|exfalso; clear - Lr Nz H0; lia]. rewrite Z.leb_refl in Ki. cbn [andb] in Ki. rewrite Ki in V. exact V.
    - assert (Ew : wr = []) by congruence. split; [apply Nil, Ew|]. split; [apply Nil, Ew|]. split; [apply Nil, Ew|]. intros a Er. destruct (ao_interval w <? _); [|congruence].
      assert (Ea : a = InitiateRandom) by congruence. subst a. exact T.
  Qed.
  Lemma keyed_files f f' tr s : keyed f tr s -> f' gpk_path = f gpk_path -> keyed f' tr s.
  Proof. intros H X P. destruct (H P) as [Y|(sec & F & V)]; [left; exact Y|]. right. exists sec. split; [|exact V]. revert F. apply holds_ext. exact X. Qed.
  Lemma keyed_perform f tr s t wr wr' : keyed f tr s -> task_ok tr s t -> (t <> TDo ACreateGpp -> only RANDOM_FILES wr) -> (forall l, only l wr -> only l wr') -> keyed (effects f wr') tr s.
  Proof.
    intros H T O Cr. assert (D : t = TDo ACreateGpp \/ t <> TDo ACreateGpp) by (destruct t as [|[]|]; (left; reflexivity) || (right; discriminate)).
    destruct D as [->|N].
    - intros P. cbn [task_ok] in T. destruct T as [T|T]; [congruence|left; exact T].
    - apply (keyed_files f); [exact H|]. apply (only_effects RANDOM_FILES); [apply Cr, O, N|exact gpk_not_random].
  Qed.
  Lemma crashed_like wr s s' : crashed s wr s' -> exists wr', s' = effects s wr' /\ forall l, only l wr -> only l wr'.
  Proof.
    intros [[k ->]|(w1 & p & b & w2 & j & -> & ->)]; eexists; (split; [reflexivity|]); intros l H.
    - apply firstn_only, H.
    - apply Forall_app in H as [H1 H2]. inversion H2. subst. apply Forall_app. split; [exact H1|]. constructor; [assumption|constructor].
  Qed.
  Lemma agood_move l x y : agood x -> amove_ l x y -> (l = ARestart -> a_queue (aw_proc x) = []) -> agood y.
  Proof.
    intros G M C. destruct M as [tr s now p t N|tr s now p now' L|tr s now p trs ch L T R|tr s now p t rest trs ch wr r L T R X|tr s now p t rest trs ch wr r s' L T R X Cr|tr s now p a m q now' Q L t x|tr s now p|tr s now p];
      destruct G as [H O F Ky Ad To Fi Li]; cbn [aw_tr aw_st aw_proc] in *.
    - (* others *)
      assert (H' : hist (tr ++ [mkStep s t (apply v E s t)]) (exec v E s t)) by (apply hist_tx; exact H).
      pose proof (drift_exec v E me s t O N) as D. constructor; cbn [aw_tr aw_st aw_proc].
      + exact H'.
      + rewrite (d_owner _ _ _ D). exact O.
      + exact F.
      + exact (keyed_drift _ _ _ _ _ D Ky).
      + rewrite (added_others v E me _ _ _ O N). exact Ad.
      + eapply Forall_impl; [|exact To]. intros y. exact (task_drift _ _ _ _ y H H' D).
      + exact Fi.
      + destruct (a_life p).
        * destruct Li as [Q (s0 & u & H0 & O0 & -> & Qu & Tk)]. split; [exact Q|]. exists s0, (u ++ [mkStep s t (apply v E s t)]). split; [exact H0|]. split; [exact O0|]. split; [rewrite app_assoc; reflexivity|]. split; [|exact Tk].
          apply Forall_app. split; [exact Qu|]. constructor; [exact N|constructor].
        * destruct Li as (Fm & a & Q & P). split; [exact Fm|]. exists a. split; [exact Q|exact (pend_drift _ _ _ _ _ a D P)].
        * destruct Li as [Td [Q|(a & Q & P)]]; (split; [exact Td|]); [left; exact Q|right]. exists a. split; [exact Q|exact (pend_drift _ _ _ _ _ a D P)].
    - constructor; assumption.
    - (* the decisions *)
      rewrite L in Li. destruct Li as [Q S]. destruct (decide_ok p tr s trs ch now S H R) as [D1 D2]. constructor; cbn [aw_tr aw_st aw_proc a_fs a_todo a_life a_queue]; try assumption.
      split; [exact Q|]. apply (since_refl _ _ _ _ _ _ _ H O); assumption.
    - (* a task *)
      rewrite L in Li. destruct Li as [Q S]. rewrite T in To, Fi. inversion To as [|y0 l0 Tk To']. subst y0 l0. cbn [tl] in Fi. destruct (perform_ok p tr s now t trs ch wr r S H R Tk X) as (O1 & _ & O2 & Pd).
      assert (F' : good_fs (effects (a_fs p) wr)) by (apply only_good; assumption).
      assert (Ky' : keyed (effects (a_fs p) wr) tr s) by (apply (keyed_perform _ _ _ t wr wr Ky Tk O2); intros l0 X0; exact X0).
      destruct r as [[a|]|e|e]; cbn [performed]; constructor; cbn [aw_tr aw_st aw_proc a_fs a_todo a_life a_queue]; try assumption; try (apply tail_firm; assumption); try (constructor; fail).
      + split; [exact Fi|]. exists a. rewrite Q. split; [reflexivity|]. apply Pd. reflexivity.
      + split; [exact Q|]. apply (since_refl _ _ _ _ _ _ _ H O); assumption.
      + split; [reflexivity|]. left. exact Q.
      + split; [reflexivity|]. left. exact Q.
    - (* killed *)
      rewrite L in Li. destruct Li as [Q S]. rewrite T in To. inversion To as [|y0 l0 Tk To']. subst y0 l0. destruct (perform_ok p tr s now t trs ch wr r S H R Tk X) as (O1 & _ & O2 & _).
      destruct (crashed_like _ _ _ Cr) as (wr' & -> & Lk). constructor; cbn [aw_tr aw_st aw_proc a_fs a_todo a_life a_queue]; try assumption; try (constructor; fail).
      + apply only_good; [apply Lk, O1|exact F].
      + exact (keyed_perform _ _ _ t wr wr' Ky Tk O2 Lk).
      + split; [reflexivity|]. left. exact Q.
    - (* one of its transactions is included *)
      assert (H' : hist (tr ++ [x]) (exec v E s t)) by (apply hist_tx; exact H).
      assert (Pa : q = [] /\ m = Awaited /\ pend_ok (a_fs p) tr s a).
      { destruct (a_life p); [destruct Li as [Q0 _]; congruence|destruct Li as (_ & a0 & Q0 & P)|destruct Li as [_ [Q0|(a0 & Q0 & P)]]; [congruence|]]; rewrite Q0 in Q; injection Q as <- <- <-; auto. }
      destruct Pa as (-> & -> & P). assert (O' : owner (exec v E s t) = me) by exact (owner_mine tr s _ a O P).
      assert (Ky' : keyed (a_fs p) (tr ++ [x]) (exec v E s t)) by exact (keyed_mine tr s _ a H Ky P).
      assert (Ad' : incl (added (tr ++ [x])) (ao_nodes w)) by exact (added_mine tr s _ a Ad P).
      destruct (a_life p) eqn:Lp.
      + destruct Li as [Q0 _]. congruence.
      + destruct Li as (Fm & _).
        assert (To2 : Forall (task_ok (tr ++ [x]) (exec v E s t)) (a_todo p)) by (apply Forall_forall; intros y Iy; rewrite Forall_forall in To, Fm; exact (task_mine tr s a y (To y Iy) (Fm y Iy))).
        destruct (accepted x) eqn:Ac; cbn [received]; unfold received; rewrite Lp; constructor; cbn [aw_tr aw_st aw_proc a_fs a_todo a_life a_queue]; try assumption; try (constructor; fail).
        * split; [reflexivity|]. apply (since_refl _ _ _ _ _ _ _ H' O' To2).
        * split; [reflexivity|]. left. reflexivity.
      + destruct Li as [Td _]. unfold received. rewrite Lp. constructor; cbn [aw_tr aw_st aw_proc a_fs a_todo a_life a_queue]; try assumption; try rewrite Td; try (constructor; fail).
        split; [reflexivity|]. left. reflexivity.
    - (* stopped *)
      constructor; cbn [aw_tr aw_st aw_proc a_fs a_todo a_life a_queue]; try assumption; try (constructor; fail). split; [reflexivity|].
      destruct (a_life p); [left; apply Li|right; apply Li|apply Li].
    - (* started *)
      specialize (C eq_refl). rewrite C. cbn [map].
      assert (Al : forall l, incl l (ao_nodes w) -> Forall (task_ok tr s) (map TAdd l)) by (intros l Il; apply Forall_map, Forall_forall; intros n In0; exact (Il n In0)). unfold launch. destruct (is_ok _ && _); constructor; cbn [aw_tr aw_st aw_proc a_fs a_todo a_life a_queue]; try assumption; try (constructor; fail).
      + destruct (_ =? _); [constructor|]. apply Al, incl_refl.
      + destruct (_ =? _); [constructor|]. apply tail_firm, Forall_map, Forall_forall. intros n _. exact I.
      + split; [reflexivity|]. apply (since_refl _ _ _ _ _ _ _ H O). destruct (_ =? _); [constructor|]. apply Al, incl_refl.
      + split; [reflexivity|]. left. reflexivity.
  Qed.
  Lemma agood_calm x y : agood x -> acalm_ x y -> agood y.
  Proof. intros G M. induction M as [|x y z l M IH S C]; [exact G|]. exact (agood_move _ _ _ (IH G) S C). Qed.
End Run.
