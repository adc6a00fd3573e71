(** C69: the admin service over all schedules, crashes and restarts. *)
From Coq Require Import ZArith String List Bool Lia.
From Verif.Base Require Import Fld Fp EC Primes Curves Group Fermat.
From Verif.Model Require Import Monad Evm Strings Points HashEvm Dkg Lib Serialise Files Cache Client Zkdvrf PairingSol GppSol RealEnv Services ServiceRun AdminRun.
From Verif.Spec Require Import Dvrf Onchain Histories Serial CacheSpec ClientSpec ServiceSpec.
From Verif.Props Require Import P_Dvrf.
From Verif.Proofs Require Import ZkdvrfStep ZkdvrfInv1 ZkdvrfInv2 ZkdvrfInv3 ZkdvrfThms Forward BytesProofs SerialProofs CacheProofs ClientProofs DvrfProofs GppProofs VerifyProofs OnchainProofs RunProofs Stable AdminDrift AdminRunProofs AdminInv.
From Verif.Proofs Require HashProofs.
From Verif.Props Require Import P_Contract P_EndToEnd P_Live P_Services.
Import ListNotations.
Open Scope Z_scope.

Section Run.
  Variable v : variant.
  Variable keccak : bytes -> Z.
  Variable in_g2 : G2c -> bool.
  Variable pairing : list (G1 * G2c) -> bool.
  Variable halo2 : Z -> bytes -> list Z -> res bool.
  Hypothesis K : keccak_ok keccak.
  Hypothesis HG : in_g2_ok in_g2.
  Hypothesis HP : pairing_ok pairing.
  Variable c : Zkdvrf.cfg.
  Notation E := (real_env keccak in_g2 pairing halo2).
  Notation hist := (Histories.hist v E c).
  Variable poseidon : Fr -> Fr -> Fr.
  Variable J : json.
  Hypothesis HJ : json_ok J.
  Variable lag : list bytes -> Z -> list bytes.
  Variables vkey pkey : Type.
  Variable vk_write : vkey -> bytes.
  Variable vk_read : bytes -> res vkey.
  Variable pk_write : pkey -> bytes.
  Variable pk_read : bytes -> res pkey.
  Variable keygen_vk : kzg -> config -> res vkey.
  Variable keygen_pk : kzg -> vkey -> config -> res pkey.
  Variable get_vk : pkey -> vkey.
  Variable create_proof : kzg -> pkey -> member_params -> list Fr -> Z -> res bytes.
  Variable verify_proof : kzg -> vkey -> bytes -> list Fr -> bool.
  Variable w : admin_options.
  Notation me := (o_me (ao w)).
  Hypothesis HO : options_ok c (ao w).
  Notation perform_ := (perform keccak pairing poseidon J lag vkey pkey vk_write vk_read pk_write pk_read keygen_vk keygen_pk get_vk create_proof verify_proof w).
  Notation admin_create_random_ := (admin_create_random keccak pairing poseidon J lag vkey pkey vk_write vk_read pk_write pk_read keygen_vk keygen_pk get_vk create_proof verify_proof (ao w)).
  Notation amove_ := (amove v E c keccak pairing poseidon J lag vkey pkey vk_write vk_read pk_write pk_read keygen_vk keygen_pk get_vk create_proof verify_proof w).
  Notation acalm_ := (acalm v E c keccak pairing poseidon J lag vkey pkey vk_write vk_read pk_write pk_read keygen_vk keygen_pk get_vk create_proof verify_proof w).
  Notation aruns_ := (aruns v E c keccak pairing poseidon J lag vkey pkey vk_write vk_read pk_write pk_read keygen_vk keygen_pk get_vk create_proof verify_proof w).

  (** the service of the owner is about to be started; no node is added that is not named in its options, and if the keys
      are computed already, its file holds the group key *)
  Definition begins (x : aworld) : Prop :=
    hist (aw_tr x) (aw_st x) /\ owner (aw_st x) = me /\ (contractPhase (aw_st x) = Ready -> exists sec : Fr, gpk_file J (a_fs (aw_proc x)) (g2mul g2 sec) /\ getGpk (aw_st x) = enc2 (g2mul g2 sec)) /\ incl (added (aw_tr x)) (ao_nodes w) /\ good_fs (a_fs (aw_proc x)) /\
    a_life (aw_proc x) = Stopped /\ a_todo (aw_proc x) = [] /\ a_queue (aw_proc x) = [].
  Lemma begins_good x : begins x -> agood v keccak in_g2 pairing halo2 c J w x.
  Proof.
    intros (H & O & P & A & F & L & T & Q). constructor; auto.
    - intros X. right. exact (P X).
    - rewrite T. constructor.
    - rewrite T. constructor.
    - rewrite L. split; [exact T|left; exact Q].
  Qed.
  Lemma calm_agood x y : begins x -> acalm_ x y -> agood v keccak in_g2 pairing halo2 c J w y.
  Proof.
    intros B R. exact (agood_calm v keccak in_g2 pairing halo2 HG c poseidon J HJ lag vkey pkey vk_write vk_read pk_write pk_read keygen_vk keygen_pk get_vk create_proof verify_proof w HO x y (begins_good x B) R).
  Qed.

  (** at most one of its transactions is pending, and the loop waits for it *)
  Theorem C69_one_at_a_time x y : begins x -> acalm_ x y ->
    owner (aw_st y) = me /\ (a_life (aw_proc y) = Polling -> a_queue (aw_proc y) = []) /\ (a_life (aw_proc y) = Waiting -> exists a, a_queue (aw_proc y) = [(a, Awaited)]) /\
    (length (a_queue (aw_proc y)) <= 1)%nat.
  Proof.
    intros B R. pose proof (calm_agood _ _ B R) as G. split; [exact (g_owner _ _ _ _ _ _ _ _ _ G)|]. pose proof (g_life _ _ _ _ _ _ _ _ _ G) as L.
    destruct (a_life (aw_proc y)).
    - destruct L as [-> _]. repeat split; intros; auto; discriminate.
    - destruct L as (_ & a & -> & _). repeat split; intros; eauto; discriminate.
    - destruct L as [_ [->|(a & -> & _)]]; repeat split; intros; auto; discriminate.
  Qed.
  Lemma pending x y a m q : begins x -> acalm_ x y -> a_queue (aw_proc y) = (a, m) :: q -> m = Awaited /\ q = [] /\ pend_ok keccak pairing c J w (a_fs (aw_proc y)) (aw_tr y) (aw_st y) a.
  Proof.
    intros B R Q. pose proof (g_life _ _ _ _ _ _ _ _ _ (calm_agood _ _ B R)) as L. rewrite Q in L. destruct (a_life (aw_proc y)).
    - destruct L as [X _]. discriminate X.
    - destruct L as (_ & a0 & X & P). injection X as -> -> ->. auto.
    - destruct L as [_ [X|(a0 & X & P)]]; [discriminate X|]. injection X as -> -> ->. auto.
  Qed.

  (** startNidkg will be accepted, whenever it is included *)
  Theorem C69_start_accepted x y m q : begins x -> acalm_ x y -> a_queue (aw_proc y) = (StartNidkg, m) :: q ->
    exists s' ev, apply v E (aw_st y) (mkTx me 0 StartNidkg) = Ok (s', ev) /\ contractPhase s' = Nidkg.
  Proof.
    intros B R Q. pose proof (calm_agood _ _ B R) as G. destruct (pending _ _ _ _ _ B R Q) as (_ & _ & P). cbn [pend_ok] in P.
    pose proof (g_hist _ _ _ _ _ _ _ _ _ G) as H. pose proof (g_owner _ _ _ _ _ _ _ _ _ G) as O. pose proof (inv1 _ _ _ _ _ H) as J1.
    assert (Pv : is_pre v = true) by (destruct (is_pre v) eqn:V; [reflexivity|destruct (j_plain _ _ _ _ J1 V P)]).
    rewrite <- O. destruct (F_start v E c (aw_tr y) (aw_st y) H) as (s' & ev & A & _ & X); [rewrite O; apply (oo_me _ _ HO)|rewrite Pv; exact P| |eauto].
    apply (j_phase _ _ _ _ J1). rewrite P. discriminate.
  Qed.
  (** the addition of a node named in the options will be accepted, if the options do not name too many *)
  Theorem C69_addition_accepted x y n m q : begins x -> acalm_ x y -> a_queue (aw_proc y) = (AddPermissionedNodes n, m) :: q ->
    Z.of_nat (length (ao_nodes w)) <= c_number c -> 0 < n < M160 ->
    In n (ao_nodes w) /\ exists s' ev, apply v E (aw_st y) (mkTx me 0 (AddPermissionedNodes n)) = Ok (s', ev) /\ nodeAddress (addrToNode s' n) = n.
  Proof.
    intros B R Q Ln Rn. pose proof (calm_agood _ _ B R) as G. destruct (pending _ _ _ _ _ B R Q) as (_ & _ & P). cbn [pend_ok] in P. destruct P as [I N]. split; [exact I|].
    pose proof (g_hist _ _ _ _ _ _ _ _ _ G) as H. pose proof (g_owner _ _ _ _ _ _ _ _ _ G) as O. pose proof (inv1 _ _ _ _ _ H) as J1. pose proof (g_added _ _ _ _ _ _ _ _ _ G) as Ad.
    assert (Ni : ~ In n (added (aw_tr y))) by (intros X; rewrite (j_in _ _ _ _ J1 n X) in N; lia).
    assert (Nd : NoDup (n :: added (aw_tr y))) by (constructor; [exact Ni|apply (j_nd _ _ _ _ J1)]).
    assert (Le : (length (n :: added (aw_tr y)) <= length (ao_nodes w))%nat) by (apply NoDup_incl_length; [exact Nd|]; intros z [<-|Z0]; [exact I|exact (Ad z Z0)]). cbn [length] in Le.
    rewrite <- O. destruct (F_add v E c (aw_tr y) (aw_st y) n H) as (s' & A & _); [rewrite O; apply (oo_me _ _ HO)|exact Rn|lia|exact Ni|].
    exists s', []. split; [exact A|]. pose proof (hist_ok v E c _ _ _ _ _ H A) as H'. apply (j_in _ _ _ _ (inv1 _ _ _ _ _ H') n).
    rewrite added_app, added_one. apply in_or_app. right. left. reflexivity.
  Qed.
  (** initiateRandom is accepted exactly when the last round has its random *)
  Theorem C69_initiation x y m q : begins x -> acalm_ x y -> a_queue (aw_proc y) = (InitiateRandom, m) :: q -> currentRoundNum (aw_st y) + 1 < 2 ^ 256 ->
    contractPhase (aw_st y) = Ready /\
    ((exists r, apply v E (aw_st y) (mkTx me 0 InitiateRandom) = Ok r) <-> currentRoundNum (aw_st y) = 0 \/ ~ no_random (aw_st y) (currentRoundNum (aw_st y))).
  Proof.
    intros B R Q Lr. pose proof (calm_agood _ _ B R) as G. destruct (pending _ _ _ _ _ B R Q) as (_ & _ & P). cbn [pend_ok] in P. split; [exact P|].
    pose proof (g_hist _ _ _ _ _ _ _ _ _ G) as H. pose proof (g_owner _ _ _ _ _ _ _ _ _ G) as O. split.
    - intros [[s' ev] A]. destruct (apply_ok _ _ _ _ _ _ A) as [_ S]. destruct S; cbn [what] in *; try discriminate.
      destruct (Z.eq_dec (currentRoundNum (aw_st y)) 0) as [|Nz]; [left; assumption|right]. rewrite no_random_iff. auto.
    - intros X. rewrite <- O. destruct (C53_round_opens v keccak in_g2 pairing halo2 K c (aw_tr y) (aw_st y) H P) as (s' & ev & A & _); [rewrite O; apply (oo_me _ _ HO)|exact Lr|exact X|eauto].
  Qed.

  (** nobody else has computed the keys *)
  Definition alone (tr : list Histories.step) : Prop := forall x g, In x tr -> accepted x = true -> what (txn x) = ComputeVk g -> sender (txn x) = me.
  Lemma alone_iff tr : alone tr <-> ~ raced me tr.
  Proof.
    split.
    - intros A (x & g & I & Ac & N & W). exact (N (A x g I Ac W)).
    - intros N x g I Ac W. destruct (Z.eq_dec (sender (txn x)) me) as [|X]; [assumption|]. destruct N. exists x, g. auto.
  Qed.
  Lemma value_of (pr : Dkg.pseudo_random) : pr_value pr = prf_value keccak (pr_proof pr) -> 0 <= of_be (pr_value pr) < 2 ^ 256 /\ pr_value pr = be_bytes 32 (of_be (pr_value pr)).
  Proof.
    intros V. rewrite prf_value_word in V. set (val := keccak _) in V. assert (B : 0 <= val < 2 ^ 256) by apply K.
    assert (X : of_be (pr_value pr) = val). { rewrite V, of_be_be by (clear - B; lia). apply Z.mod_small. change (256 ^ Z.of_nat 32) with (2 ^ 256). exact B. }
    rewrite X. split; [exact B|exact V].
  Qed.
  Lemma random_goes tr s k (sec : Fr) (pr : Dkg.pseudo_random) value : hist tr s -> k = currentRoundNum s -> 1 <= k -> rvalue (roundToRandom s k) = 0 -> 0 < owner s < M160 ->
    c_threshold c <= roundSubmissionCount s k -> gpkVal s = enc2 (g2mul g2 sec) ->
    0 <= value < 2 ^ 256 -> pr_value pr = be_bytes 32 value -> pr_verify keccak pairing pr (round_input k) (g2mul g2 sec) = Ok tt ->
    exists s' ev, apply v E s (mkTx (owner s) 0 (SubmitRandom (mkPrand (enc (pr_proof pr)) value))) = Ok (s', ev) /\ roundToRandom s' k = mkPrand (enc (pr_proof pr)) value.
  Proof.
    intros Hh -> Hk NR A T G BV EV Ver. set (k := currentRoundNum s) in *.
    pose proof (inv0 _ _ _ _ _ Hh) as J0. pose proof (inv2 _ _ _ _ _ Hh) as J2.
    assert (EP : pr = mkPseudoRandom (pr_proof pr) (be_bytes 32 value)) by (rewrite <- EV; destruct pr; reflexivity).
    rewrite EP in Ver. destruct (proj2 (pr_agree keccak K in_g2 pairing HG (round_input k) (pr_proof pr) value sec (input_short k) BV) Ver) as [VV VK].
    assert (RI : roundInput s k = round_input k).
    { rewrite (k_input _ _ _ _ _ J2 k). fold k. destruct (Z.leb_spec 1 k) as [|X]; [|clear - X Hk; lia]. rewrite Z.leb_refl. reflexivity. }
    unfold apply.
    rewrite require_true by (unfold tx_ok; cbn [sender tvalue what rproof rvalue]; rewrite addr_ok, enc_u256, (u256 value) by (try exact A; clear - BV; lia); reflexivity).
    cbn [bind payable what tvalue]. rewrite require_true by reflexivity. cbn [bind]. unfold dispatch. cbn [what]. unfold submitRandom, onlyOwner.
    cbn [sender set_balance currentRoundNum owner roundToRandom threshold roundSubmissionCount roundHash roundInput gpkVal rproof rvalue].
    fold k. rewrite Z.eqb_refl, NR, !require_true by reflexivity. cbn [bind].
    match goal with |- context [bind ?x (fun _ => bind ?y _)] => assert (X : x = Ok tt); [|assert (Y : y = Ok true)] end.
    { destruct v; cbn [is_pre]; [reflexivity|]. rewrite (i_t _ _ J0), require_true; [reflexivity|]. apply Z.leb_le, T. }
    { rewrite G. destruct v eqn:Ev; cbn [is_pre]; cbn [verify_pseudo_rand verify_pseudo_rand_fast real_env].
      - rewrite RI. exact VV.
      - pose proof (k_hash _ _ _ _ _ J2 k) as KH. cbn [is_pre andb] in KH. fold k in KH.
        destruct (Z.leb_spec 1 k) as [|X0]; [|clear - X0 Hk; lia]. rewrite Z.leb_refl in KH. cbn [andb] in KH. rewrite <- (pr_full keccak in_g2 pairing _ _ _ _ KH). exact VV. }
    rewrite X. cbn [bind]. rewrite Y. cbn [bind Zkdvrf.keccak real_env]. rewrite <- VK, Z.eqb_refl, !require_true by reflexivity. cbn [bind].
    do 2 eexists. split; [reflexivity|]. cbn [set_roundToRandom roundToRandom]. unfold upd. rewrite Z.eqb_refl. reflexivity.
  Qed.
  (** the random it has sent is the value of the round's input under the group key, and will be stored, whenever it is included *)
  Theorem C69_random_accepted x y p m q h : begins x -> acalm_ x y -> alone (aw_tr y) -> a_queue (aw_proc y) = (SubmitRandom p, m) :: q ->
    hash_to_curve_bn keccak EVAL_PREFIX (round_input (currentRoundNum (aw_st y))) = Ok h ->
    exists sec : Fr, getGpk (aw_st y) = enc2 (g2mul g2 sec) /\ rproof p = enc (g1mul h sec) /\ be_bytes 32 (rvalue p) = prf_value keccak (g1mul h sec) /\
      exists s' ev, apply v E (aw_st y) (mkTx me 0 (SubmitRandom p)) = Ok (s', ev) /\ roundToRandom s' (currentRoundNum (aw_st y)) = p.
  Proof.
    intros B R Al Q Hh. pose proof (calm_agood _ _ B R) as G. destruct (pending _ _ _ _ _ B R Q) as (_ & _ & P). cbn [pend_ok] in P. destruct P as (Rd & Nz & Rv & T & pr & gpk & F & V & ->).
    pose proof (g_hist _ _ _ _ _ _ _ _ _ G) as H. pose proof (g_owner _ _ _ _ _ _ _ _ _ G) as O. apply alone_iff in Al.
    destruct (g_key _ _ _ _ _ _ _ _ _ G Rd) as [X|(sec & F' & Gk)]; [destruct (Al X)|]. assert (gpk = g2mul g2 sec) by exact (holds_fun _ _ _ _ _ _ F F'). subst gpk.
    pose proof V as V0. apply (pr_verify_iff keccak pairing HP _ _ _ h Hh) in V0 as [E1 E2]. destruct (value_of pr E2) as [Bv Ev].
    exists sec. split; [exact Gk|]. cbn [rproof rvalue]. split; [rewrite E1; reflexivity|]. split; [rewrite <- Ev, E2, E1; reflexivity|].
    pose proof (m_last _ _ _ _ _ (inv3 _ _ _ _ _ H) 0) as Lr. rewrite <- O.
    apply (random_goes (aw_tr y) (aw_st y) _ sec pr (of_be (pr_value pr)) H eq_refl); try assumption; [clear - Lr Nz; lia|]. rewrite O. apply (oo_me _ _ HO).
  Qed.

  (** anyone can call computeVk: the service's own call is then refused, and ends it *)
  Lemma computed_ready tr s x g : hist tr s -> In x tr -> accepted x = true -> what (txn x) = ComputeVk g -> contractPhase s = Ready.
  Proof.
    intros H I Ac W. induction H as [s Hc C|tr s t H IH]; [destruct I|]. apply in_app_or in I as [I|[<-|[]]].
    - specialize (IH I). pose proof (hist_tx v E c tr s t H) as H'. exact (proj1 (keys_frozen v E c _ _ _ _ H H' IH)).
    - unfold accepted in Ac. cbn [outcome] in Ac. cbn [txn] in W. unfold exec. destruct (apply v E s t) as [[s' ev]| |] eqn:A; [|discriminate Ac|discriminate Ac].
      destruct (apply_ok _ _ _ _ _ _ A) as [_ S]. destruct S; try congruence. subst. reflexivity.
  Qed.
  Theorem C69_keys x y g m q : begins x -> acalm_ x y -> a_queue (aw_proc y) = (ComputeVk g, m) :: q ->
    (exists Q, g = enc2 Q /\ gpk_file J (a_fs (aw_proc y)) Q) /\ (alone (aw_tr y) -> contractPhase (aw_st y) = NidkgComplete) /\
    (~ alone (aw_tr y) -> forall r, apply v E (aw_st y) (mkTx me 0 (ComputeVk g)) <> Ok r).
  Proof.
    intros B R Q. pose proof (calm_agood _ _ B R) as G. destruct (pending _ _ _ _ _ B R Q) as (_ & _ & P). cbn [pend_ok] in P. destruct P as [P F]. split; [exact F|].
    pose proof (g_hist _ _ _ _ _ _ _ _ _ G) as H. split.
    - intros Al. apply alone_iff in Al. destruct P as [P|P]; [exact P|destruct (Al P)].
    - intros Na [s' ev] A. destruct (apply_ok _ _ _ _ _ _ A) as [_ S]. destruct S; cbn [what] in *; try discriminate.
      destruct Na. intros x0 g0 I Ac W. pose proof (computed_ready _ _ _ _ H I Ac W). congruence.
  Qed.

  (** ** the interval between the rounds *)
  Lemma round_mono s t : currentRoundNum s <= currentRoundNum (exec v E s t).
  Proof. destruct (C31_rounds_step v E s t) as [->|(-> & _)]; lia. Qed.
  Lemma floor_gap a b i : i < (a - b) / 1000 -> b + 1000 * (i + 1) <= a.
  Proof. intros H. assert (X : i + 1 <= (a - b) / 1000) by lia. apply (Z.mul_le_mono_nonneg_l _ _ 1000) in X; [|lia]. pose proof (Z.mul_div_le (a - b) 1000 ltac:(lia)). lia. Qed.
  Record paced (t1 : Z) (y : aworld) : Prop := {
    pa_good : agood v keccak in_g2 pairing halo2 c J w y;
    pa_round : 1 <= currentRoundNum (aw_st y);
    pa_last : t1 <= a_last (aw_proc y);
    pa_todo : ~ In (TDo AInitiate) (a_todo (aw_proc y));
    pa_queue : forall a m, In (a, m) (a_queue (aw_proc y)) -> is_initiation a = true -> a_last (aw_proc y) + 1000 * (ao_interval w + 1) <= aw_now y }.
  Lemma paced_move t1 l y z : 0 <= ao_interval w -> paced t1 y -> amove_ l y z -> l <> ARestart -> paced t1 z.
  Proof.
    intros Hi [G Rn La Td Qu] M NR.
    pose proof (agood_move v keccak in_g2 pairing halo2 HG c poseidon J HJ lag vkey pkey vk_write vk_read pk_write pk_read keygen_vk keygen_pk get_vk create_proof verify_proof w HO l y z G M (fun X => False_ind _ (NR X))) as G'.
    destruct M as [tr s now p t N|tr s now p now' L|tr s now p trs ch L T R|tr s now p t rest trs ch wr r L T R X|tr s now p t rest trs ch wr r s' L T R X Cr|tr s now p a m q now' Q L t x|tr s now p|tr s now p];
      cbn [aw_tr aw_st aw_proc aw_now] in *; [..|destruct (NR eq_refl)].
    - constructor; cbn [aw_tr aw_st aw_proc aw_now]; try assumption. pose proof (round_mono s t). lia.
    - constructor; cbn [aw_tr aw_st aw_proc aw_now]; try assumption. intros a m I Y. specialize (Qu a m I Y). lia.
    - constructor; cbn [aw_tr aw_st aw_proc aw_now a_last a_todo a_queue]; try assumption.
      pose proof (g_life _ _ _ _ _ _ _ _ _ G) as Li. cbn [aw_proc] in Li. rewrite L in Li. destruct Li as [_ S]. pose proof (g_hist _ _ _ _ _ _ _ _ _ G) as H. cbn [aw_tr aw_st] in H.
      destruct (reads_drift v keccak in_g2 pairing halo2 c w p tr s trs ch 1%nat S H R) as (u & D & _). pose proof (d_round _ _ _ D) as Dr.
      unfold decide. destruct (contractPhase (ch 0%nat)); cbn [In]; try (intros [Y|[]]; discriminate Y); try (intros []; fail).
      destruct (now <? ao_start w); [intros []|]. destruct (Z.eqb_spec (currentRoundNum (ch 1%nat)) 0) as [Y|_]; [clear - Dr Y Rn; lia|].
      intros I. apply in_app_or in I as [I|[I|[]]]; [|discriminate I]. destruct (_ && _); [destruct I as [I|[]]; discriminate I|destruct I].
    - pose proof (g_life _ _ _ _ _ _ _ _ _ G) as Li. cbn [aw_proc] in Li. rewrite L in Li. destruct Li as [Q0 _]. rewrite T in Td.
      assert (Td' : ~ In (TDo AInitiate) rest) by (intros I; apply Td; right; exact I).
      destruct r as [[a|]|e|e]; cbn [performed] in *; constructor; cbn [aw_tr aw_st aw_proc aw_now a_last a_todo a_queue]; try assumption; try (intros []; fail).
      rewrite Q0. intros i0 m [I|[]] Y. injection I as <- <-. destruct a; try discriminate Y. destruct t as [n|[| | |k]|]; cbv beta iota delta [perform cret] in X.
      + destruct (_ =? _); congruence.
      + congruence.
      + unfold cbind in X. match type of X with context [admin_create_gpp ?a1 ?a2 ?a3 ?a4 ?a5 ?a6 ?a7 ?a8 ?a9 ?b1 ?b2 ?b3 ?b4 ?b5 ?b6 ?b7 ?b8 ch ?f] => destruct (admin_create_gpp a1 a2 a3 a4 a5 a6 a7 a8 a9 b1 b2 b3 b4 b5 b6 b7 b8 ch f) as [w0 r0] eqn:Gp end.
        apply (gpp_result keccak pairing c poseidon J HJ) in Gp; [|exact HO]. destruct Gp as [_ Gp]. destruct r0 as [a0|e|e]; [|congruence|congruence]. destruct Gp as (Q & -> & _). cbn [cret] in X. congruence.
      + destruct Td. left. reflexivity.
      + unfold cbind in X. match type of X with context [admin_create_random ?a1 ?a2 ?a3 ?a4 ?a5 ?a6 ?a7 ?a8 ?a9 ?b1 ?b2 ?b3 ?b4 ?b5 ?b6 ?b7 ?b8 ch ?kk ?f] => destruct (admin_create_random a1 a2 a3 a4 a5 a6 a7 a8 a9 b1 b2 b3 b4 b5 b6 b7 b8 ch kk f) as [w0 r0] eqn:Gp end.
        apply (random_result keccak pairing c poseidon J HJ) in Gp; [|exact HO]. destruct Gp as [_ Gp]. destruct r0 as [a0|e|e]; [|congruence|congruence]. destruct Gp as (pr & Q & _ & _ & ->). cbn [cret] in X. congruence.
      + destruct (Z.ltb_spec (ao_interval w) ((now - a_last p) / 1000)) as [Gap|]; [|congruence]. apply floor_gap. exact Gap.
    - constructor; cbn [aw_tr aw_st aw_proc aw_now a_last a_todo a_queue]; try assumption. intros [].
    - pose proof (round_mono s t) as Rm. assert (Rz : 1 <= currentRoundNum (exec v E s t)) by lia. clear Rm.
      assert (Lz : t1 <= a_last (received p q a m (accepted x) now' (tr ++ [x]))).
      { unfold received. destruct (a_life p), m; cbn [a_last]; try assumption. destruct (accepted x); cbn [a_last]; [|assumption].
        destruct (is_initiation a) eqn:Y; [|assumption]. assert (I : In (a, Awaited) (a_queue p)) by (rewrite Q; left; reflexivity). specialize (Qu _ _ I Y). lia. }
      assert (Tz : ~ In (TDo AInitiate) (a_todo (received p q a m (accepted x) now' (tr ++ [x])))).
      { unfold received. destruct (a_life p), m; cbn [a_todo]; try assumption. destruct (accepted x); cbn [a_todo]; [assumption|intros []]. }
      constructor; cbn [aw_tr aw_st aw_proc aw_now]; try assumption.
      assert (q = []).
      { pose proof (g_life _ _ _ _ _ _ _ _ _ G) as Li. cbn [aw_proc] in Li. rewrite Q in Li. destruct (a_life p); [destruct Li as [Y _]; discriminate Y|destruct Li as (_ & a0 & Y & _)|destruct Li as [_ [Y|(a0 & Y & _)]]; [discriminate Y|]]; injection Y; auto. }
      subst q. intros a0 m0 I. exfalso. revert I. unfold received. destruct (a_life p), m; cbn [a_queue]; try (destruct (accepted x)); cbn [a_queue]; intros [].
    - constructor; cbn [aw_tr aw_st aw_proc aw_now a_last a_todo a_queue]; try assumption. intros [].
  Qed.
  Lemma paced_runs t1 y z : 0 <= ao_interval w -> paced t1 y -> aruns_ (fun l => l = ARestart) y z -> paced t1 z.
  Proof. intros Hi P R. induction R as [|y z0 z l R IH S Nl]; [exact P|]. exact (paced_move t1 l z0 z Hi (IH P) S Nl). Qed.
  (** between two inclusions of initiateRandom of the same process there is more than the interval *)
  Theorem C69_pacing x y y1 z z1 m q m' q' : 0 <= ao_interval w -> begins x -> acalm_ x y ->
    amove_ AIncluded y y1 -> a_queue (aw_proc y) = (InitiateRandom, m) :: q -> a_life (aw_proc y1) = Polling ->
    aruns_ (fun l => l = ARestart) y1 z -> amove_ AIncluded z z1 -> a_queue (aw_proc z) = (InitiateRandom, m') :: q' ->
    aw_now y1 + 1000 * (ao_interval w + 1) <= aw_now z1.
  Proof.
    intros Hi B R M1 Q1 L1 Rn M2 Q2. pose proof (calm_agood _ _ B R) as G.
    assert (P1 : paced (aw_now y1) y1).
    { assert (G' : agood v keccak in_g2 pairing halo2 c J w y1) by (refine (agood_move v keccak in_g2 pairing halo2 HG c poseidon J HJ lag vkey pkey vk_write vk_read pk_write pk_read keygen_vk keygen_pk get_vk create_proof verify_proof w HO AIncluded y y1 G M1 _); discriminate).
      destruct (pending _ _ _ _ _ B R Q1) as (-> & -> & Pd). pose proof (g_todo _ _ _ _ _ _ _ _ _ G) as To. pose proof (g_life _ _ _ _ _ _ _ _ _ G) as Li.
      inversion M1 as [| | | | |tr s now p a0 m0 q0 now' Q Ln t x0 Ey| |]. clear M1. subst y y1. cbn [aw_tr aw_st aw_proc aw_now] in *. rewrite Q in Q1. injection Q1 as -> -> ->.
      unfold received in *. destruct (a_life p) eqn:Lp; cbn [a_life a_todo a_last a_queue] in *.
      - destruct Li as [Y _]. congruence.
      - destruct (accepted x0) eqn:Ac; cbn [a_life] in *; [|discriminate L1]. cbn [is_initiation] in *. constructor; cbn [aw_st aw_proc aw_now a_last a_todo a_queue].
        + exact G'.
        + unfold x0, accepted in Ac. cbn [outcome] in Ac. unfold exec. destruct (apply v E s t) as [[s' ev]| |] eqn:A; [|discriminate Ac|discriminate Ac]. destruct (apply_ok _ _ _ _ _ _ A) as [_ S].
          assert (H0 : hist tr s) by exact (g_hist _ _ _ _ _ _ _ _ _ G). pose proof (m_last _ _ _ _ _ (inv3 _ _ _ _ _ H0) 0) as Lr.
          destruct S; cbn [what] in *; try discriminate. subst. match goal with X : if is_pre v then _ else _ |- _ => destruct (is_pre v); [destruct X as (hh & _ & ->)|rewrite X] end; cbn; clear - Lr; lia.
        + lia.
        + destruct Li as [Fm _]. intros I. rewrite Forall_forall in Fm. exact (Fm _ I).
        + intros ? ? [].
      - discriminate L1. }
    assert (P2 : paced (aw_now y1) z).
    { exact (paced_runs _ _ _ Hi P1 Rn). }
    destruct P2 as [_ _ La _ Qu]. assert (I : In (InitiateRandom, m') (a_queue (aw_proc z))) by (rewrite Q2; left; reflexivity). specialize (Qu _ _ I eq_refl).
    inversion M2 as [| | | | |tr s now p a0 m0 q0 now' Q Ln t x0 Ey| |]. subst z z1. cbn [aw_now aw_proc] in *. lia.
  Qed.

  (** ** after a restart *)
  Lemma steady tr s : hist tr s -> ServiceRun.reads v E c tr tr (fun _ => tr) (fun _ => s).
  Proof. intros H k. split; [exact H|]. repeat split; apply prefix_refl. Qed.
  Lemma all_added tr s : hist tr s -> phase_rank (contractPhase s) <> 0 -> currentIndex s = c_number c.
  Proof.
    intros H P. pose proof (inv1 _ _ _ _ _ H) as J1. pose proof (j_phase _ _ _ _ J1 P) as L. pose proof (j_le _ _ _ _ J1) as Le. rewrite (j_cnt _ _ _ _ J1).
    assert (X : (length (map who (registrations tr)) <= length (added tr))%nat) by (apply NoDup_incl_length; [apply (j_rnd _ _ _ _ J1)|]; intros a I; exact (j_rin _ _ _ _ J1 a I)). rewrite map_length in X. lia.
  Qed.
  Lemma checked tr s : hist tr s -> is_ok (check_config (ao w) s) = true.
  Proof.
    intros H. pose proof (inv0 _ _ _ _ _ H) as J0. unfold check_config. rewrite (i_t _ _ J0), (i_n _ _ J0), <- (oo_t _ _ HO), <- (oo_n _ _ HO), !Z.eqb_refl. reflexivity.
  Qed.
  (** started when the keys are there, the service goes on with its loop *)
  Lemma restarted tr s now p : hist tr s -> owner s = me -> contractPhase s <> Unregistered ->
    amove_ ARestart (AWorld tr s now p) (AWorld tr s now (AProc (a_fs p) Polling [] 0 (map (fun x => (fst x, Orphan)) (a_queue p)) tr)).
  Proof.
    intros H O P. assert (X : launch w s = Some []).
    { unfold launch. rewrite (checked tr s H), O, Z.eqb_refl. cbn [andb]. rewrite (all_added tr s H), (oo_n _ _ HO), Z.eqb_refl; [reflexivity|]. destruct (contractPhase s); [congruence|..]; discriminate. }
    pose proof (am_restart v E c keccak pairing poseidon J lag vkey pkey vk_write vk_read pk_write pk_read keygen_vk keygen_pk get_vk create_proof verify_proof w tr s now p) as M. rewrite X in M. exact M.
  Qed.
  (** started again in an unfinished round that has fewer evaluations than the threshold, the service can open a round at
      once, because it has forgotten when the round was opened; the call is refused, and the service ends *)
  Theorem C69_restart_unfinished x y : begins x -> acalm_ x y -> a_queue (aw_proc y) = [] -> contractPhase (aw_st y) = Ready -> let k := currentRoundNum (aw_st y) in k <> 0 ->
    no_random (aw_st y) k -> roundSubmissionCount (aw_st y) k < c_threshold c -> ao_start w <= aw_now y -> 1000 * (ao_interval w + 1) <= aw_now y ->
    exists z, acalm_ y z /\ a_life (aw_proc z) = Stopped /\ aw_st z = aw_st y /\ aw_now z = aw_now y /\
      exists r, aw_tr z = aw_tr y ++ [mkStep (aw_st y) (mkTx me 0 InitiateRandom) r] /\ is_ok r = false.
  Proof.
    intros B R Q P k Nz NR Lt St Gap. unfold k in *. clear k. pose proof (calm_agood _ _ B R) as G. pose proof (g_hist _ _ _ _ _ _ _ _ _ G) as H. pose proof (g_owner _ _ _ _ _ _ _ _ _ G) as O.
    destruct y as [tr s now p]. cbn [aw_tr aw_st aw_now aw_proc] in *.
    assert (Np : contractPhase s <> Unregistered) by (rewrite P; discriminate).
    pose proof (restarted tr s now p H O Np) as M1. rewrite Q in M1. cbn [map] in M1. set (p1 := AProc (a_fs p) Polling [] 0 [] tr) in *.
    pose proof (am_decide v E c keccak pairing poseidon J lag vkey pkey vk_write vk_read pk_write pk_read keygen_vk keygen_pk get_vk create_proof verify_proof w tr s now p1 _ _ eq_refl eq_refl (steady tr s H)) as M2.
    apply no_random_iff in NR. assert (D : decide w now (fun _ => s) = [TInterval]).
    { unfold decide. rewrite P. destruct (Z.ltb_spec now (ao_start w)) as [X|_]; [clear - X St; lia|]. destruct (Z.eqb_spec (currentRoundNum s) 0) as [X|_]; [contradiction|].
      rewrite NR, Z.eqb_refl, (oo_t _ _ HO). destruct (Z.leb_spec (c_threshold c) (roundSubmissionCount s (currentRoundNum s))) as [X|_]; [clear - X Lt; lia|]. reflexivity. }
    rewrite D in M2. set (p2 := AProc (a_fs p1) Polling [TInterval] (a_last p1) (a_queue p1) tr) in *.
    assert (Pf : perform_ now (a_last p2) TInterval (fun _ => s) (a_fs p2) = ([], Ok (Some InitiateRandom))).
    { cbv beta iota delta [perform cret]. change (a_last p2) with 0. rewrite Z.sub_0_r. assert (X : ao_interval w + 1 <= now / 1000) by (apply Z.div_le_lower_bound; lia). destruct (Z.ltb_spec (ao_interval w) (now / 1000)) as [|Y]; [reflexivity|clear - X Y; lia]. }
    pose proof (am_perform v E c keccak pairing poseidon J lag vkey pkey vk_write vk_read pk_write pk_read keygen_vk keygen_pk get_vk create_proof verify_proof w tr s now p2 TInterval [] _ _ _ _ eq_refl eq_refl (steady tr s H) Pf) as M3.
    cbn [performed] in M3. set (p3 := AProc (effects (a_fs p2) []) Waiting [] (a_last p2) (a_queue p2 ++ [(InitiateRandom, Awaited)]) tr) in *.
    pose proof (am_included v E c keccak pairing poseidon J lag vkey pkey vk_write vk_read pk_write pk_read keygen_vk keygen_pk get_vk create_proof verify_proof w tr s now p3 InitiateRandom Awaited [] now eq_refl (Z.le_refl now)) as M4. cbv zeta in M4.
    set (t := mkTx me 0 InitiateRandom) in *.
    assert (Rf : is_ok (apply v E s t) = false).
    { destruct (apply v E s t) as [[s' ev]| |] eqn:A; [|reflexivity|reflexivity]. exfalso. destruct (apply_ok _ _ _ _ _ _ A) as [_ S].
      destruct S; cbn [what t] in *; try discriminate. match goal with X : currentRoundNum s <> 0 -> _ |- _ => exact (X Nz NR) end. }
    assert (Ex : exec v E s t = s) by (unfold exec; destruct (apply v E s t); [discriminate Rf|reflexivity|reflexivity]).
    assert (Ac : accepted (mkStep s t (apply v E s t)) = false) by exact Rf. rewrite Ac, Ex in M4. change (received p3 [] InitiateRandom Awaited false now ?l) with (AProc (a_fs p3) Stopped [] (a_last p3) [] l) in M4.
    eexists. split; [|split; [|split; [|split]]].
    - eapply acalm_step; [eapply acalm_step; [eapply acalm_step; [eapply acalm_step; [apply acalm_refl|exact M1|]|exact M2|discriminate]|exact M3|discriminate]|exact M4|discriminate]. intros _. exact Q.
    - reflexivity.
    - reflexivity.
    - reflexivity.
    - exists (apply v E s t). split; [reflexivity|exact Rf].
  Qed.
  (** an iteration that decided to combine finds, if the accepted evaluations carry canonical numbers and the right values
      and the files hold the keys of the contract, the random of the round; C69_random_accepted: it will be stored *)
  Theorem C69_combines x y z k rest members dealers vks h : begins x -> acalm_ x y -> a_life (aw_proc y) = Polling -> a_todo (aw_proc y) = TDo (ACreateRandom k) :: rest -> amove_ APerform y z ->
    honest (mkConfig (o_threshold (ao w)) (o_members (ao w))) members dealers ->
    getGpk (aw_st y) = enc2 (g2mul g2 (group_secret dealers)) -> getVkList (aw_st y) = map enc vks -> zlen vks = c_number c ->
    gpk_file J (a_fs (aw_proc y)) (g2mul g2 (group_secret dealers)) -> vks_file J (a_fs (aw_proc y)) vks ->
    hash_to_curve_bn keccak EVAL_PREFIX (round_input k) = Ok h -> prf_value keccak (g1mul h (group_secret dealers)) <> be_bytes 32 0 ->
    (forall a e, In (a, e) (evals (aw_tr y) k) -> 0 <= proof_z e < r_mod /\ evalue e = enc (g1mul h (total dealers (fr (indexPlus e))))) ->
    exists p, a_life (aw_proc z) = Waiting /\ a_queue (aw_proc z) = [(SubmitRandom p, Awaited)] /\ a_todo (aw_proc z) = rest /\ aw_st z = aw_st y /\
      rproof p = enc (g1mul h (group_secret dealers)) /\ be_bytes 32 (rvalue p) = prf_value keccak (g1mul h (group_secret dealers)).
  Proof.
    intros B R Lp Tp M HH Gk Vk Lv Gf Vf Hh NZ Acc. pose proof (calm_agood _ _ B R) as G. pose proof (g_life _ _ _ _ _ _ _ _ _ G) as Li. rewrite Lp in Li. destruct Li as [Q S].
    pose proof (g_hist _ _ _ _ _ _ _ _ _ G) as H. pose proof (g_owner _ _ _ _ _ _ _ _ _ G) as O. pose proof (g_fs _ _ _ _ _ _ _ _ _ G) as F.
    inversion M as [| | |tr s now p t rest' trs ch wr r L T Rd X| | | |]. clear M. subst y z. cbn [aw_tr aw_st aw_now aw_proc] in *. rewrite T in Tp. injection Tp as -> ->.
    pose proof S as S0. destruct S0 as (s0 & u & H0 & O0 & Eu & Qu & Tk). rewrite T in Tk. inversion Tk as [|y0 l0 Tk1 _]. subst y0 l0. cbn [task_ok] in Tk1. destruct Tk1 as (P0 & K0 & Nz & Rv0 & T0).
    set (n := (2 + Z.to_nat (c_number c))%nat).
    assert (Dr : forall i, drift (raced me u) (ch i) s /\ exists u1, trs i = a_since p ++ u1 /\ owner (ch i) = me) by (intros i; exact (drift_reads v E c me _ _ _ _ _ _ _ i H0 O0 Eu Qu H Rd)).
    assert (D0 : drift (raced me u) s0 s). { subst tr. exact (drift_hist v E c me _ _ _ _ H0 H O0 Qu). }
    assert (Dc : forall i, contractPhase (ch i) = Ready). { intros i. destruct (Rd i) as (Hi & [u1 Pu] & _). rewrite Pu in Hi. exact (proj1 (keys_frozen v E c _ _ _ _ H0 Hi P0)). }
    assert (Ck : forall i, currentRoundNum (ch i) = k). { intros i. destruct (Dr i) as [D _]. pose proof (d_round _ _ _ D). pose proof (d_round _ _ _ D0). congruence. }
    assert (Hk : 1 <= k). { pose proof (m_last _ _ _ _ _ (inv3 _ _ _ _ _ H0) 0) as Lr. rewrite <- K0 in Lr. clear - Lr Nz. lia. }
    assert (Kz : getVkList (ch n) = map enc vks /\ getGpk (ch n) = enc2 (g2mul g2 (group_secret dealers))).
    { destruct (Rd n) as (Hn & _ & _ & [u2 P2]). pose proof H as H1. rewrite P2 in H1. destruct (keys_frozen v E c _ _ _ _ Hn H1 (Dc n)) as (_ & Y1 & Y2). unfold getVkList, getGpk in *. rewrite <- Y1, <- Y2. split; assumption. }
    destruct (random_stored v keccak in_g2 pairing halo2 K HG HP c poseidon J HJ lag vkey pkey vk_write vk_read pk_write pk_read keygen_vk keygen_pk get_vk create_proof verify_proof (ao w) HO trs ch n k (a_fs p) members dealers vks h) as (b0 & b1 & s' & ev & pp & C1 & _ & _ & C4 & C5 & _); try assumption.
    - intros i. destruct (Rd i) as (Hi & _ & [u1 Y] & _). split; [exact Hi|]. exists u1. exact Y.
    - apply Nat.le_refl.
    - rewrite (Ck 1%nat). apply Z.le_ge, Z.le_refl.
    - apply Ck.
    - apply no_random_iff. destruct (Dr n) as [D _]. rewrite <- (d_random _ _ _ D), (d_random _ _ _ D0). exact Rv0.
    - destruct (Dr n) as [_ (? & _ & Y)]. exact Y.
    - apply Kz.
    - apply Kz.
    - destruct (Rd 2%nat) as (_ & [u1 Y] & _). rewrite Y, evals_app, app_length. rewrite (m_cnt _ _ _ _ _ (inv3 _ _ _ _ _ H0) k) in T0. clear - T0. lia.
    - intros a e I. apply (Acc a e). destruct (Rd n) as (_ & _ & _ & [u1 Y]). rewrite Y, evals_app. apply in_or_app. left. exact I.
    - cbv beta iota delta [perform] in X. unfold cbind in X. rewrite C1 in X. cbn [cret app] in X. assert (Er : r = Ok (Some (SubmitRandom pp))) by congruence. subst r.
      exists pp. cbn [performed a_life a_queue a_todo]. rewrite Q. repeat split; assumption.
  Qed.

  Lemma random_included x y p m q (sec : Fr) : begins x -> acalm_ x y -> a_queue (aw_proc y) = (SubmitRandom p, m) :: q ->
    gpk_file J (a_fs (aw_proc y)) (g2mul g2 sec) -> getGpk (aw_st y) = enc2 (g2mul g2 sec) ->
    exists s' ev, apply v E (aw_st y) (mkTx me 0 (SubmitRandom p)) = Ok (s', ev) /\ roundToRandom s' (currentRoundNum (aw_st y)) = p.
  Proof.
    intros B R Q F' Gk. pose proof (calm_agood _ _ B R) as G. destruct (pending _ _ _ _ _ B R Q) as (_ & _ & P). cbn [pend_ok] in P. destruct P as (Rd & Nz & Rv & T & pr & gpk & F & V & ->).
    pose proof (g_hist _ _ _ _ _ _ _ _ _ G) as H. pose proof (g_owner _ _ _ _ _ _ _ _ _ G) as O. assert (gpk = g2mul g2 sec) by exact (holds_fun _ _ _ _ _ _ F F'). subst gpk.
    destruct (HashProofs.hash_to_curve_ok keccak EVAL_PREFIX (round_input (currentRoundNum (aw_st y)))) as [h Hh0].
    assert (Hh : hash_to_curve_bn keccak EVAL_PREFIX (round_input (currentRoundNum (aw_st y))) = Ok h) by (unfold hash_to_curve_bn; rewrite Hh0; reflexivity).
    pose proof V as V0. apply (pr_verify_iff keccak pairing HP _ _ _ h Hh) in V0 as [E1 E2]. destruct (value_of pr E2) as [Bv Ev].
    pose proof (m_last _ _ _ _ _ (inv3 _ _ _ _ _ H) 0) as Lr. rewrite <- O.
    apply (random_goes (aw_tr y) (aw_st y) _ sec pr (of_be (pr_value pr)) H eq_refl); try assumption; [clear - Lr Nz; lia|]. rewrite O. apply (oo_me _ _ HO).
  Qed.
  Lemma calm_trans x y z : acalm_ x y -> acalm_ y z -> acalm_ x z.
  Proof. intros R1 R2. induction R2 as [|y z0 z l R IH S C]; [exact R1|]. eapply acalm_step; [exact (IH R1)|exact S|exact C]. Qed.
  (** a service that was ended, by whatever cause, in a round that has enough evaluations, started again, completes the round *)
  Theorem C69_recovers x y members dealers vks h : begins x -> acalm_ x y -> a_queue (aw_proc y) = [] -> contractPhase (aw_st y) = Ready -> let k := currentRoundNum (aw_st y) in k <> 0 ->
    no_random (aw_st y) k -> c_threshold c <= roundSubmissionCount (aw_st y) k -> ao_start w <= aw_now y ->
    honest (mkConfig (o_threshold (ao w)) (o_members (ao w))) members dealers ->
    getGpk (aw_st y) = enc2 (g2mul g2 (group_secret dealers)) -> getVkList (aw_st y) = map enc vks -> zlen vks = c_number c ->
    gpk_file J (a_fs (aw_proc y)) (g2mul g2 (group_secret dealers)) -> vks_file J (a_fs (aw_proc y)) vks ->
    hash_to_curve_bn keccak EVAL_PREFIX (round_input k) = Ok h -> prf_value keccak (g1mul h (group_secret dealers)) <> be_bytes 32 0 ->
    (forall a e, In (a, e) (evals (aw_tr y) k) -> 0 <= proof_z e < r_mod /\ evalue e = enc (g1mul h (total dealers (fr (indexPlus e))))) ->
    exists z p, acalm_ y z /\ aw_now z = aw_now y /\ a_life (aw_proc z) = Polling /\ a_todo (aw_proc z) = [TInterval] /\ a_queue (aw_proc z) = [] /\ currentRoundNum (aw_st z) = k /\ getRandomAtRound (aw_st z) k = Ok p /\
      rproof p = enc (g1mul h (group_secret dealers)) /\ be_bytes 32 (rvalue p) = prf_value keccak (g1mul h (group_secret dealers)).
  Proof.
    intros B R Q P k Nz NR T St HH Gk Vk Lv Gf Vf Hh NZ Acc. unfold k in *. clear k. pose proof (calm_agood _ _ B R) as G. pose proof (g_hist _ _ _ _ _ _ _ _ _ G) as H. pose proof (g_owner _ _ _ _ _ _ _ _ _ G) as O.
    destruct y as [tr s now p]. cbn [aw_tr aw_st aw_now aw_proc] in *.
    assert (Np : contractPhase s <> Unregistered) by (rewrite P; discriminate).
    pose proof (restarted tr s now p H O Np) as M1. rewrite Q in M1. cbn [map] in M1. set (p1 := AProc (a_fs p) Polling [] 0 [] tr) in *.
    pose proof (am_decide v E c keccak pairing poseidon J lag vkey pkey vk_write vk_read pk_write pk_read keygen_vk keygen_pk get_vk create_proof verify_proof w tr s now p1 _ _ eq_refl eq_refl (steady tr s H)) as M2.
    apply no_random_iff in NR. assert (D : decide w now (fun _ => s) = [TDo (ACreateRandom (currentRoundNum s)); TInterval]).
    { unfold decide. rewrite P. destruct (Z.ltb_spec now (ao_start w)) as [X|_]; [clear - X St; lia|]. destruct (Z.eqb_spec (currentRoundNum s) 0) as [X|_]; [contradiction|].
      rewrite NR, Z.eqb_refl, (oo_t _ _ HO). destruct (Z.leb_spec (c_threshold c) (roundSubmissionCount s (currentRoundNum s))) as [_|X]; [|clear - X T; lia]. reflexivity. }
    rewrite D in M2. set (p2 := AProc (a_fs p1) Polling [TDo (ACreateRandom (currentRoundNum s)); TInterval] (a_last p1) (a_queue p1) tr) in *.
    destruct (perform_ now (a_last p2) (TDo (ACreateRandom (currentRoundNum s))) (fun _ => s) (a_fs p2)) as [wr r] eqn:Pf.
    pose proof (am_perform v E c keccak pairing poseidon J lag vkey pkey vk_write vk_read pk_write pk_read keygen_vk keygen_pk get_vk create_proof verify_proof w tr s now p2 _ _ _ _ _ _ eq_refl eq_refl (steady tr s H) Pf) as M3.
    assert (R2 : acalm_ (AWorld tr s now p) (AWorld tr s now p2)).
    { eapply acalm_step; [eapply acalm_step; [apply acalm_refl|exact M1|]|exact M2|discriminate]. intros _. exact Q. }
    pose proof (calm_trans _ _ _ R R2) as Rx.
    destruct (C69_combines _ _ _ _ _ _ _ _ _ B Rx eq_refl eq_refl M3 HH Gk Vk Lv Gf Vf Hh NZ Acc) as (pp & L3 & Q3 & T3 & _ & E1 & E2). cbn [aw_proc aw_st] in L3, Q3, T3.
    assert (R3 : acalm_ (AWorld tr s now p) (AWorld tr s now (performed p2 [TInterval] wr r tr))) by (eapply acalm_step; [exact R2|exact M3|discriminate]).
    pose proof (calm_trans _ _ _ R R3) as Ry. set (p3 := performed p2 [TInterval] wr r tr) in *.
    assert (Gf3 : gpk_file J (a_fs p3) (g2mul g2 (group_secret dealers))).
    { pose proof Pf as Pf0. cbv beta iota delta [perform] in Pf0. unfold cbind in Pf0.
      match type of Pf0 with context [admin_create_random ?a1 ?a2 ?a3 ?a4 ?a5 ?a6 ?a7 ?a8 ?a9 ?b1 ?b2 ?b3 ?b4 ?b5 ?b6 ?b7 ?b8 ?ch ?kk ?f] => destruct (admin_create_random a1 a2 a3 a4 a5 a6 a7 a8 a9 b1 b2 b3 b4 b5 b6 b7 b8 ch kk f) as [w0 r0] eqn:Gp end.
      apply (random_result keccak pairing c poseidon J HJ) in Gp; [|exact HO]. destruct Gp as [Oy _]. assert (Ew : wr = w0) by (destruct r0; [cbn [cret] in Pf0; rewrite app_nil_r in Pf0|..]; congruence). subst w0.
      assert (Fs : a_fs p3 = effects (a_fs p) wr) by (unfold p3, performed; destruct r as [[?|]| |]; reflexivity). rewrite Fs. revert Gf. apply holds_ext. apply (only_effects RANDOM_FILES); [exact Oy|exact gpk_not_random]. }
    destruct (random_included _ _ _ _ _ _ B Ry Q3 Gf3 Gk) as (s' & ev & A & Rs). cbn [aw_st] in A, Rs.
    pose proof (am_included v E c keccak pairing poseidon J lag vkey pkey vk_write vk_read pk_write pk_read keygen_vk keygen_pk get_vk create_proof verify_proof w tr s now p3 _ _ _ now Q3 (Z.le_refl now)) as M4. cbv zeta in M4.
    set (t := mkTx me 0 (SubmitRandom pp)) in *.
    assert (Ex : exec v E s t = s') by (unfold exec; rewrite A; reflexivity). assert (Ac : accepted (mkStep s t (apply v E s t)) = true) by (unfold accepted; cbn [outcome]; rewrite A; reflexivity). rewrite Ac, Ex in M4.
    eexists _, pp. split; [eapply acalm_step; [exact R3|exact M4|discriminate]|]. cbn [aw_st aw_now aw_proc]. unfold received. rewrite L3. cbn [a_life a_todo a_queue]. split; [reflexivity|]. split; [reflexivity|]. split; [exact T3|]. split; [reflexivity|].
    destruct (apply_ok _ _ _ _ _ _ A) as [_ S]. assert (Cr : currentRoundNum s' = currentRoundNum s) by (clear - S; destruct S; cbn [what t] in *; try discriminate; subst; reflexivity).
    split; [exact Cr|]. split; [|split; assumption]. unfold getRandomAtRound. rewrite Rs. destruct (Z.eqb_spec (rvalue pp) 0) as [X|_]; [|reflexivity]. rewrite X in E2. destruct NZ. symmetry. exact E2.
  Qed.

  (** when the interval has passed, the comparison sends an initiation *)
  Lemma interval_due x y : begins x -> acalm_ x y -> a_life (aw_proc y) = Polling -> a_todo (aw_proc y) = [TInterval] -> ao_interval w < (aw_now y - a_last (aw_proc y)) / 1000 ->
    exists z, amove_ APerform y z /\ aw_tr z = aw_tr y /\ aw_st z = aw_st y /\ aw_now z = aw_now y /\ a_life (aw_proc z) = Waiting /\ a_todo (aw_proc z) = [] /\ a_queue (aw_proc z) = [(InitiateRandom, Awaited)].
  Proof.
    intros B R L T Gap. pose proof (calm_agood _ _ B R) as G. pose proof (g_hist _ _ _ _ _ _ _ _ _ G) as H. pose proof (g_life _ _ _ _ _ _ _ _ _ G) as Li. rewrite L in Li. destruct Li as [Q S].
    destruct S as (s0 & u & H0 & _ & Eu & _). destruct y as [tr s now p]. cbn [aw_tr aw_st aw_now aw_proc] in *.
    assert (Rd : ServiceRun.reads v E c (a_since p) tr (fun _ => tr) (fun _ => s)).
    { intros k. split; [exact H|]. assert (P : prefix (a_since p) tr) by (exists u; exact Eu). repeat split; first [exact P|apply prefix_refl]. }
    assert (Pf : perform_ now (a_last p) TInterval (fun _ => s) (a_fs p) = ([], Ok (Some InitiateRandom))).
    { cbv beta iota delta [perform cret]. apply Z.ltb_lt in Gap. rewrite Gap. reflexivity. }
    pose proof (am_perform v E c keccak pairing poseidon J lag vkey pkey vk_write vk_read pk_write pk_read keygen_vk keygen_pk get_vk create_proof verify_proof w tr s now p TInterval [] _ _ _ _ L T Rd Pf) as M.
    eexists. split; [exact M|]. cbn [performed aw_tr aw_st aw_now aw_proc a_life a_todo a_queue]. rewrite Q. repeat split.
  Qed.
  (** an iteration in an open round without evaluations has only the interval to compare *)
  Lemma iteration_idle x y : begins x -> acalm_ x y -> a_life (aw_proc y) = Polling -> a_todo (aw_proc y) = [] -> contractPhase (aw_st y) = Ready -> currentRoundNum (aw_st y) <> 0 ->
    roundSubmissionCount (aw_st y) (currentRoundNum (aw_st y)) < o_threshold (ao w) -> ao_start w <= aw_now y ->
    exists z, amove_ ADecide y z /\ aw_tr z = aw_tr y /\ aw_st z = aw_st y /\ aw_now z = aw_now y /\ a_life (aw_proc z) = Polling /\ a_todo (aw_proc z) = [TInterval] /\ a_last (aw_proc z) = a_last (aw_proc y).
  Proof.
    intros B R L T P Nz Lt St. pose proof (calm_agood _ _ B R) as G. pose proof (g_hist _ _ _ _ _ _ _ _ _ G) as H. pose proof (g_life _ _ _ _ _ _ _ _ _ G) as Li. rewrite L in Li. destruct Li as [_ S].
    destruct S as (s0 & u & H0 & _ & Eu & _). destruct y as [tr s now p]. cbn [aw_tr aw_st aw_now aw_proc] in *.
    assert (Rd : ServiceRun.reads v E c (a_since p) tr (fun _ => tr) (fun _ => s)).
    { intros k. split; [exact H|]. assert (Px : prefix (a_since p) tr) by (exists u; exact Eu). repeat split; first [exact Px|apply prefix_refl]. }
    pose proof (am_decide v E c keccak pairing poseidon J lag vkey pkey vk_write vk_read pk_write pk_read keygen_vk keygen_pk get_vk create_proof verify_proof w tr s now p _ _ L T Rd) as M.
    assert (D : decide w now (fun _ => s) = [TInterval]).
    { unfold decide. rewrite P. destruct (Z.ltb_spec now (ao_start w)) as [X|_]; [clear - X St; lia|]. destruct (Z.eqb_spec (currentRoundNum s) 0) as [X|_]; [contradiction|].
      destruct (Z.leb_spec (o_threshold (ao w)) (roundSubmissionCount s (currentRoundNum s))) as [X|_]; [clear - X Lt; lia|]. rewrite Bool.andb_false_r. reflexivity. }
    rewrite D in M. eexists. split; [exact M|]. repeat split.
  Qed.
  Lemma later_empty tr s : hist tr s -> roundSubmissionCount s (currentRoundNum s + 1) = 0.
  Proof.
    intros H. pose proof (inv3 _ _ _ _ _ H) as J3. rewrite (m_cnt _ _ _ _ _ J3). destruct (evals tr (currentRoundNum s + 1)) as [|[a e] l] eqn:X; [reflexivity|].
    pose proof (m_range _ _ _ _ _ J3 (currentRoundNum s + 1) a) as Y. rewrite X in Y. specialize (Y (or_introl eq_refl)). pose proof (m_last _ _ _ _ _ J3 a). lia.
  Qed.
  Lemma delayed x y d : begins x -> acalm_ x y -> 0 <= d -> exists z, acalm_ y z /\ amove_ ATick y z /\ aw_tr z = aw_tr y /\ aw_st z = aw_st y /\ aw_proc z = aw_proc y /\ aw_now y <= aw_now z /\ a_last (aw_proc y) + d <= aw_now z.
  Proof.
    intros B R D. destruct y as [tr s now p]. cbn [aw_tr aw_st aw_now aw_proc]. set (n1 := Z.max now (a_last p + d)).
    assert (M : amove_ ATick (AWorld tr s now p) (AWorld tr s n1 p)) by (apply am_tick; apply Z.le_max_l).
    exists (AWorld tr s n1 p). split; [eapply acalm_step; [apply acalm_refl|exact M|discriminate]|]. split; [exact M|]. cbn [aw_tr aw_st aw_now aw_proc]. repeat split; [apply Z.le_max_l|apply Z.le_max_r].
  Qed.
  (** in a round that has its random, the service opens the next round and asks for another one after the interval *)
  Lemma two_rounds x y : begins x -> acalm_ x y -> a_life (aw_proc y) = Polling -> a_todo (aw_proc y) = [TInterval] -> contractPhase (aw_st y) = Ready -> currentRoundNum (aw_st y) <> 0 ->
    ~ no_random (aw_st y) (currentRoundNum (aw_st y)) -> currentRoundNum (aw_st y) + 1 < 2 ^ 256 -> 0 <= ao_interval w -> 0 < o_threshold (ao w) -> ao_start w <= aw_now y ->
    exists y0 y1 u u1, acalm_ y y0 /\ amove_ AIncluded y0 y1 /\ a_queue (aw_proc y0) = [(InitiateRandom, Awaited)] /\ a_life (aw_proc y1) = Polling /\ currentRoundNum (aw_st y1) = currentRoundNum (aw_st y) + 1 /\
      aruns_ (fun l => l = ARestart) y1 u /\ a_queue (aw_proc u) = [(InitiateRandom, Awaited)] /\ amove_ AIncluded u u1.
  Proof.
    intros B R L T P Nz Nr Bd I0 T0 St.
    destruct (delayed x y (1000 * (ao_interval w + 1)) B R ltac:(clear - I0; lia)) as (z1 & R1 & _ & _ & S1 & P1 & N1 & D1).
    pose proof (calm_trans _ _ _ R R1) as Rx1.
    assert (G1 : ao_interval w < (aw_now z1 - a_last (aw_proc z1)) / 1000).
    { rewrite P1. assert (ao_interval w + 1 <= (aw_now z1 - a_last (aw_proc y)) / 1000) by (apply Z.div_le_lower_bound; [reflexivity|clear - D1; lia]). clear - H. lia. }
    destruct (interval_due x z1 B Rx1) as (y0 & M0 & E1 & E2 & E3 & L0 & To & Q0); [rewrite P1; exact L|rewrite P1; exact T|exact G1|].
    assert (R0 : acalm_ z1 y0) by (eapply acalm_step; [apply acalm_refl|exact M0|discriminate]). pose proof (calm_trans _ _ _ Rx1 R0) as Rx0.
    destruct (C69_initiation x y0 Awaited [] B Rx0 Q0) as [_ [_ Acc]]; [rewrite E2, S1; exact Bd|].
    destruct Acc as [[s' ev] A]; [right; rewrite E2, S1; exact Nr|].
    pose proof (calm_agood _ _ B Rx0) as G0. pose proof (g_hist _ _ _ _ _ _ _ _ _ G0) as H0. pose proof (later_empty _ _ H0) as Em.
    destruct y0 as [tr s now p]. cbn [aw_tr aw_st aw_now aw_proc] in *.
    pose proof (am_included v E c keccak pairing poseidon J lag vkey pkey vk_write vk_read pk_write pk_read keygen_vk keygen_pk get_vk create_proof verify_proof w tr s now p InitiateRandom Awaited [] now Q0 (Z.le_refl now)) as MI. cbv zeta in MI.
    pose proof (hist_ok v E c _ _ _ _ _ H0 A) as H1. set (t := mkTx me 0 InitiateRandom) in *.
    assert (Ex : exec v E s t = s') by (unfold exec; rewrite A; reflexivity). assert (Ac : accepted (mkStep s t (apply v E s t)) = true) by (unfold accepted; cbn [outcome]; rewrite A; reflexivity).
    rewrite Ac, Ex in MI. destruct (apply_ok _ _ _ _ _ _ A) as [_ Sp].
    assert (F : contractPhase s' = contractPhase s /\ currentRoundNum s' = currentRoundNum s + 1 /\ roundSubmissionCount s' = roundSubmissionCount s) by (clear - Sp; destruct Sp; cbn [what t] in *; try discriminate; destruct (is_pre v); repeat match goal with X : exists _, _ |- _ => destruct X | X : _ /\ _ |- _ => destruct X end; subst; repeat split; reflexivity).
    destruct F as (F1 & F2 & F3). unfold received in MI. rewrite L0 in MI. cbn [is_initiation] in MI. rewrite To in MI.
    match type of MI with amove _ _ _ _ _ _ _ _ _ _ _ _ _ _ _ _ _ _ _ _ _ _ ?y1' => set (y1 := y1') in * end.
    assert (R2 : acalm_ (AWorld tr s now p) y1) by (eapply acalm_step; [apply acalm_refl|exact MI|discriminate]). pose proof (calm_trans _ _ _ Rx0 R2) as Rxy.
    destruct (delayed x y1 (1000 * (ao_interval w + 1)) B Rxy ltac:(clear - I0; lia)) as (z2 & R3 & M3 & _ & S2 & P2 & N2 & D2). pose proof (calm_trans _ _ _ Rxy R3) as Rx3.
    assert (S2' : aw_st z2 = s') by exact S2.
    destruct (iteration_idle x z2 B Rx3) as (z3 & M4 & _ & _ & N3 & L3 & T3 & La3).
    { rewrite P2. reflexivity. } { rewrite P2. reflexivity. } { rewrite S2', F1, E2, S1. exact P. } { rewrite S2', F2, E2, S1. pose proof (m_last _ _ _ _ _ (inv3 _ _ _ _ _ H0) 0) as X. rewrite E2, S1 in X. clear - X. lia. }
    { rewrite S2', F2, F3, Em. exact T0. } { change (aw_now y1) with now in N2. clear - N2 E3 N1 St. lia. }
    assert (R4 : acalm_ z2 z3) by (eapply acalm_step; [apply acalm_refl|exact M4|discriminate]). pose proof (calm_trans _ _ _ Rx3 R4) as Rx4.
    destruct (interval_due x z3 B Rx4 L3 T3) as (u & M5 & _ & _ & _ & _ & _ & Qu).
    { rewrite La3, P2, N3. assert (ao_interval w + 1 <= (aw_now z2 - a_last (aw_proc y1)) / 1000) by (apply Z.div_le_lower_bound; [reflexivity|clear - D2; lia]). clear - H. lia. }
    assert (X : exists u1, amove_ AIncluded u u1).
    { destruct u as [tru su nu pu]. cbn [aw_proc] in Qu. eexists. eapply am_included; [exact Qu|apply Z.le_refl]. }
    destruct X as [u1 M6]. exists (AWorld tr s now p), y1, u, u1. split; [exact (calm_trans _ _ _ R1 R0)|]. split; [exact MI|]. split; [exact Q0|]. split; [reflexivity|]. split; [cbn [aw_st y1]; rewrite F2, E2, S1; reflexivity|].
    split; [|split; [exact Qu|exact M6]].
    eapply aruns_step; [eapply aruns_step; [eapply aruns_step; [apply aruns_refl|exact M3|discriminate]|exact M4|discriminate]|exact M5|discriminate].
  Qed.

  (** ** undisturbed, the service makes progress *)
  Lemma reads_now x y : begins x -> acalm_ x y -> a_life (aw_proc y) = Polling -> ServiceRun.reads v E c (a_since (aw_proc y)) (aw_tr y) (fun _ => aw_tr y) (fun _ => aw_st y).
  Proof.
    intros B R L. pose proof (calm_agood _ _ B R) as G. pose proof (g_hist _ _ _ _ _ _ _ _ _ G) as H. pose proof (g_life _ _ _ _ _ _ _ _ _ G) as Li. rewrite L in Li. destruct Li as [_ (s0 & u & H0 & _ & Eu & _)].
    intros k. split; [exact H|]. assert (P : prefix (a_since (aw_proc y)) (aw_tr y)) by (exists u; exact Eu). repeat split; first [exact P|apply prefix_refl].
  Qed.
  Lemma polls x y : begins x -> acalm_ x y -> a_life (aw_proc y) = Polling -> a_todo (aw_proc y) = [] ->
    exists z, acalm_ y z /\ aw_tr z = aw_tr y /\ aw_st z = aw_st y /\ aw_now z = aw_now y /\ a_life (aw_proc z) = Polling /\ a_todo (aw_proc z) = decide w (aw_now y) (fun _ => aw_st y).
  Proof.
    intros B R L T. pose proof (reads_now _ _ B R L) as Rd. destruct y as [tr s now p]. cbn [aw_tr aw_st aw_now aw_proc] in *.
    pose proof (am_decide v E c keccak pairing poseidon J lag vkey pkey vk_write vk_read pk_write pk_read keygen_vk keygen_pk get_vk create_proof verify_proof w tr s now p _ _ L T Rd) as M.
    eexists. split; [eapply acalm_step; [apply acalm_refl|exact M|discriminate]|]. repeat split.
  Qed.
  Lemma sends x y t rest a wr s' ev : begins x -> acalm_ x y -> a_life (aw_proc y) = Polling -> a_todo (aw_proc y) = t :: rest ->
    perform_ (aw_now y) (a_last (aw_proc y)) t (fun _ => aw_st y) (a_fs (aw_proc y)) = (wr, Ok (Some a)) -> apply v E (aw_st y) (mkTx me 0 a) = Ok (s', ev) ->
    exists z, acalm_ y z /\ aw_tr z = aw_tr y ++ [mkStep (aw_st y) (mkTx me 0 a) (Ok (s', ev))] /\ aw_st z = s' /\ aw_now z = aw_now y /\ a_life (aw_proc z) = Polling /\ a_todo (aw_proc z) = rest.
  Proof.
    intros B R L T Pf A. pose proof (reads_now _ _ B R L) as Rd. pose proof (g_life _ _ _ _ _ _ _ _ _ (calm_agood _ _ B R)) as Li. rewrite L in Li. destruct Li as [Q _].
    destruct y as [tr s now p]. cbn [aw_tr aw_st aw_now aw_proc] in *.
    pose proof (am_perform v E c keccak pairing poseidon J lag vkey pkey vk_write vk_read pk_write pk_read keygen_vk keygen_pk get_vk create_proof verify_proof w tr s now p t rest _ _ _ _ L T Rd Pf) as M.
    cbn [performed] in M. rewrite Q in M. cbn [app] in M. set (p3 := AProc (effects (a_fs p) wr) Waiting rest (a_last p) [(a, Awaited)] tr) in *.
    pose proof (am_included v E c keccak pairing poseidon J lag vkey pkey vk_write vk_read pk_write pk_read keygen_vk keygen_pk get_vk create_proof verify_proof w tr s now p3 a Awaited [] now eq_refl (Z.le_refl now)) as MI. cbv zeta in MI.
    assert (Ex : exec v E s (mkTx me 0 a) = s') by (unfold exec; rewrite A; reflexivity). assert (Ac : accepted (mkStep s (mkTx me 0 a) (apply v E s (mkTx me 0 a))) = true) by (unfold accepted; cbn [outcome]; rewrite A; reflexivity).
    rewrite Ac, Ex, A in MI. eexists. split; [eapply acalm_step; [eapply acalm_step; [apply acalm_refl|exact M|discriminate]|exact MI|discriminate]|]. cbn [aw_tr aw_st aw_now aw_proc received p3 a_life]. repeat split.
  Qed.
  (** all nodes have registered: it starts the NIDKG *)
  Theorem C69_starts x y : begins x -> acalm_ x y -> a_life (aw_proc y) = Polling -> a_todo (aw_proc y) = [] -> contractPhase (aw_st y) = Registered ->
    exists z, acalm_ y z /\ contractPhase (aw_st z) = Nidkg /\ a_life (aw_proc z) = Polling /\ a_todo (aw_proc z) = [].
  Proof.
    intros B R L T P. destruct (polls _ _ B R L T) as (z & Rz & _ & S1 & N1 & L1 & T1). pose proof (calm_trans _ _ _ R Rz) as Rxz.
    assert (D : decide w (aw_now y) (fun _ => aw_st y) = [TDo AStartNidkg]) by (unfold decide; rewrite P; reflexivity). rewrite D in T1.
    pose proof (calm_agood _ _ B R) as G. pose proof (g_hist _ _ _ _ _ _ _ _ _ G) as H. pose proof (g_owner _ _ _ _ _ _ _ _ _ G) as O. pose proof (inv1 _ _ _ _ _ H) as J1.
    assert (Pv : is_pre v = true) by (destruct (is_pre v) eqn:V; [reflexivity|destruct (j_plain _ _ _ _ J1 V P)]).
    destruct (F_start v E c (aw_tr y) (aw_st y) H) as (s' & ev & A & _ & X); [rewrite O; apply (oo_me _ _ HO)|rewrite Pv; exact P|apply (j_phase _ _ _ _ J1); rewrite P; discriminate|].
    rewrite O in A. destruct (sends x z _ _ StartNidkg [] s' ev B Rxz L1 T1 eq_refl) as (u & Ru & _ & Su & _ & Lu & Tu); [rewrite S1; exact A|].
    exists u. split; [exact (calm_trans _ _ _ Rz Ru)|]. rewrite Su. auto.
  Qed.
  (** the contract has its keys and the start date has passed: it opens the first round *)
  Theorem C69_first_round x y : begins x -> acalm_ x y -> a_life (aw_proc y) = Polling -> a_todo (aw_proc y) = [] -> contractPhase (aw_st y) = Ready -> currentRoundNum (aw_st y) = 0 -> ao_start w <= aw_now y ->
    exists z, acalm_ y z /\ currentRoundNum (aw_st z) = 1 /\ a_life (aw_proc z) = Polling /\ a_todo (aw_proc z) = [].
  Proof.
    intros B R L T P Rn St. destruct (polls _ _ B R L T) as (z & Rz & E1 & S1 & N1 & L1 & T1). pose proof (calm_trans _ _ _ R Rz) as Rxz.
    assert (D : decide w (aw_now y) (fun _ => aw_st y) = [TDo AInitiate]).
    { unfold decide. rewrite P. destruct (Z.ltb_spec (aw_now y) (ao_start w)) as [X|_]; [clear - X St; lia|]. rewrite Rn. reflexivity. }
    rewrite D in T1. pose proof (calm_agood _ _ B R) as G. pose proof (g_hist _ _ _ _ _ _ _ _ _ G) as H. pose proof (g_owner _ _ _ _ _ _ _ _ _ G) as O.
    destruct (C53_round_opens v keccak in_g2 pairing halo2 K c (aw_tr y) (aw_st y) H P) as (s' & ev & A & C1 & _).
    { rewrite O. apply (oo_me _ _ HO). } { rewrite Rn. reflexivity. } { left. exact Rn. }
    rewrite O in A. destruct (sends x z _ _ InitiateRandom [] s' ev B Rxz L1 T1 eq_refl) as (u & Ru & _ & Su & _ & Lu & Tu); [rewrite S1; exact A|].
    exists u. split; [exact (calm_trans _ _ _ Rz Ru)|]. rewrite Su, C1, Rn. auto.
  Qed.
  (** with additions left, it adds every node that is not there yet *)
  Theorem C69_adds l : forall x y, begins x -> acalm_ x y -> a_life (aw_proc y) = Polling -> a_todo (aw_proc y) = map TAdd l -> Forall (fun a => 0 < a < M160) l ->
    Z.of_nat (length (ao_nodes w)) <= c_number c ->
    exists z, acalm_ y z /\ a_life (aw_proc z) = Polling /\ a_todo (aw_proc z) = [] /\ forall a, In a (added (aw_tr z)) <-> In a (added (aw_tr y)) \/ In a l.
  Proof.
    induction l as [|a l IH]; intros x y B R L T F Ln.
    { exists y. split; [apply acalm_refl|]. split; [exact L|]. split; [exact T|]. intros a. split; [auto|intros [X|[]]; exact X]. }
    inversion F as [|? ? Fa Fl]. subst. pose proof (calm_agood _ _ B R) as G. pose proof (g_hist _ _ _ _ _ _ _ _ _ G) as H. pose proof (g_owner _ _ _ _ _ _ _ _ _ G) as O. pose proof (inv1 _ _ _ _ _ H) as J1. pose proof (g_added _ _ _ _ _ _ _ _ _ G) as Ad.
    destruct (in_dec Z.eq_dec a (added (aw_tr y))) as [I|N].
    - pose proof (reads_now _ _ B R L) as Rd. assert (Pf : perform_ (aw_now y) (a_last (aw_proc y)) (TAdd a) (fun _ => aw_st y) (a_fs (aw_proc y)) = ([], Ok None)).
      { cbv beta iota delta [perform cret]. rewrite (j_in _ _ _ _ J1 a I). destruct (Z.eqb_spec a 0) as [X|_]; [clear - X Fa; lia|reflexivity]. }
      destruct y as [tr s now p]. cbn [aw_tr aw_st aw_now aw_proc] in *. cbn [map] in T.
      pose proof (am_perform v E c keccak pairing poseidon J lag vkey pkey vk_write vk_read pk_write pk_read keygen_vk keygen_pk get_vk create_proof verify_proof w tr s now p (TAdd a) (map TAdd l) _ _ _ _ L T Rd Pf) as M.
      match type of M with amove _ _ _ _ _ _ _ _ _ _ _ _ _ _ _ _ _ _ _ _ _ _ ?y1' => set (y1 := y1') in * end.
      assert (R1 : acalm_ (AWorld tr s now p) y1) by (eapply acalm_step; [apply acalm_refl|exact M|discriminate]).
      destruct (IH x y1 B (calm_trans _ _ _ R R1) eq_refl eq_refl Fl Ln) as (z & Rz & Lz & Tz & Az). exists z. split; [exact (calm_trans _ _ _ R1 Rz)|]. split; [exact Lz|]. split; [exact Tz|].
      intros b. rewrite (Az b). cbn [aw_tr y1 In]. split; [intros [X|X]; auto|]. intros [X|[<-|X]]; auto.
    - assert (Ia : In a (ao_nodes w)). { pose proof (g_todo _ _ _ _ _ _ _ _ _ G) as X. rewrite T in X. inversion X as [|? ? X1 _]. exact X1. }
      assert (Le : (length (a :: added (aw_tr y)) <= length (ao_nodes w))%nat) by (apply NoDup_incl_length; [constructor; [exact N|apply (j_nd _ _ _ _ J1)]|]; intros b [<-|X]; [exact Ia|exact (Ad b X)]). cbn [length] in Le.
      destruct (F_add v E c (aw_tr y) (aw_st y) a H) as (s' & A & _); [rewrite O; apply (oo_me _ _ HO)|exact Fa|clear - Le Ln; lia|exact N|].
      rewrite O in A. assert (Pf : perform_ (aw_now y) (a_last (aw_proc y)) (TAdd a) (fun _ => aw_st y) (a_fs (aw_proc y)) = ([], Ok (Some (AddPermissionedNodes a)))).
      { cbv beta iota delta [perform cret]. rewrite (j_out _ _ _ _ J1 a N). reflexivity. }
      cbn [map] in T. destruct (sends x y _ _ _ [] s' [] B R L T Pf A) as (y1 & R1 & E1 & _ & _ & L1 & T1).
      destruct (IH x y1 B (calm_trans _ _ _ R R1) L1 T1 Fl Ln) as (z & Rz & Lz & Tz & Az). exists z. split; [exact (calm_trans _ _ _ R1 Rz)|]. split; [exact Lz|]. split; [exact Tz|].
      intros b. rewrite (Az b), E1, added_app, added_one. cbn [what accepted outcome is_ok In]. rewrite in_app_iff. cbn [In]. tauto.
  Qed.
  (** started before the contract has all its nodes, it adds those it was given *)
  Theorem C69_setup x y : begins x -> acalm_ x y -> a_queue (aw_proc y) = [] -> Forall (fun a => 0 < a < M160) (ao_nodes w) -> Z.of_nat (length (ao_nodes w)) <= c_number c ->
    Z.of_nat (length (added (aw_tr y))) < c_number c ->
    exists z, acalm_ y z /\ a_life (aw_proc z) = Polling /\ a_todo (aw_proc z) = [] /\ forall a, In a (added (aw_tr z)) <-> In a (ao_nodes w).
  Proof.
    intros B R Q F Ln Lt. pose proof (calm_agood _ _ B R) as G. pose proof (g_hist _ _ _ _ _ _ _ _ _ G) as H. pose proof (g_owner _ _ _ _ _ _ _ _ _ G) as O. pose proof (inv1 _ _ _ _ _ H) as J1. pose proof (g_added _ _ _ _ _ _ _ _ _ G) as Ad.
    destruct y as [tr s now p]. cbn [aw_tr aw_st aw_now aw_proc] in *.
    assert (X : launch w s = Some (map TAdd (ao_nodes w))).
    { unfold launch. rewrite (checked tr s H), O, Z.eqb_refl. cbn [andb]. rewrite (j_cnt _ _ _ _ J1), (oo_n _ _ HO). destruct (Z.eqb_spec (Z.of_nat (length (added tr))) (c_number c)) as [Y|_]; [clear - Y Lt; lia|reflexivity]. }
    pose proof (am_restart v E c keccak pairing poseidon J lag vkey pkey vk_write vk_read pk_write pk_read keygen_vk keygen_pk get_vk create_proof verify_proof w tr s now p) as M. rewrite X in M.
    match type of M with amove _ _ _ _ _ _ _ _ _ _ _ _ _ _ _ _ _ _ _ _ _ _ ?y1' => set (y1 := y1') in * end.
    assert (R1 : acalm_ (AWorld tr s now p) y1) by (eapply acalm_step; [apply acalm_refl|exact M|intros _; exact Q]).
    destruct (C69_adds (ao_nodes w) x y1 B (calm_trans _ _ _ R R1) eq_refl eq_refl F Ln) as (z & Rz & Lz & Tz & Az). exists z. split; [exact (calm_trans _ _ _ R1 Rz)|]. split; [exact Lz|]. split; [exact Tz|].
    intros a. rewrite (Az a). cbn [aw_tr y1]. split; [intros [I|I]; [exact (Ad a I)|exact I]|auto].
  Qed.
End Run.

(** ** the hypotheses are met *)
From Verif.Proofs Require Import InstanceProofs DkgProofs PairingExists Setup PipelineProofs PipelineRuns JsonExists.
From Verif.Props Require Import P_Onchain P_Client P_Malicious P_Admin.
Notation admin_of f pr J := (f live_keccak pr (fun a _ : Fr => a) J (fun g (_ : Z) => g) unit unit (fun _ => @nil Z) (fun _ => Ok tt) (fun _ => @nil Z) (fun _ => Ok tt) (fun _ _ => Ok tt) (fun _ _ _ => Ok tt) (fun _ => tt) (fun _ _ _ _ _ => Ok (@nil Z)) (fun _ _ _ _ => true)).
Notation env_of ig pr := (real_env live_keccak ig pr (fun _ _ _ => Ok true)).
Notation calm_of v ig pr w := (admin_of (acalm v (env_of ig pr) stall_cfg) pr some_json w).
Notation runs_of v ig pr w := (admin_of (aruns v (env_of ig pr) stall_cfg) pr some_json w).
Notation move_of v ig pr w := (admin_of (amove v (env_of ig pr) stall_cfg) pr some_json w).
Notation begins_of v ig pr w := (begins v live_keccak ig pr (fun _ _ _ => Ok true) stall_cfg some_json w).
Definition demo_admin (l : list Z) : admin_options := AdminOpts (Opts 3 3 18 77) l 1000 60.
Lemma demo_admin_ok l : options_ok stall_cfg (ao (demo_admin l)).
Proof. constructor; cbn [ao demo_admin o_threshold o_members o_degree o_me c_threshold c_number stall_cfg]; try lia; split; reflexivity. Qed.
(** the files the service of an operating contract has *)
Definition key_files : fs :=
  set (set demo_fs gpk_path (File (Client.enc (j_point2 some_json) (of_g2 (g2mul g2 (group_secret stall_dealers)))))) vks_path
    (File (Client.enc (j_points some_json) (map of_g1 (map (fun i => g1mul g1 (total stall_dealers (fr i))) (zseq 3))))).
Lemma key_files_good : good_fs key_files.
Proof. unfold key_files. rewrite vks_jp. apply good_set. rewrite gpk_jp. apply good_set. exact demo_good. Qed.
Lemma key_files_gpk : gpk_file some_json key_files (g2mul g2 (group_secret stall_dealers)).
Proof.
  assert (Ng : gpk_path <> vks_path) by (apply (neq_at 11); vm_compute; discriminate).
  unfold key_files. apply holds_other; [exact Ng|]. apply holds_saved; [apply (ok_point2 _ some_json_ok)|apply g2_round].
Qed.
Lemma key_files_vks : vks_file some_json key_files (map (fun i => g1mul g1 (total stall_dealers (fr i))) (zseq 3)).
Proof. apply holds_saved; [apply (ok_points _ some_json_ok)|]. exact (map_round of_g1 to_g1 _ g1_round). Qed.
Lemma operating v ig pr tr s now : Histories.hist v (env_of ig pr) stall_cfg tr s -> owner s = 77 -> getGpk s = enc2 (g2mul g2 (group_secret stall_dealers)) ->
  begins_of v ig pr (demo_admin (added tr)) (AWorld tr s now (AProc key_files Stopped [] 0 [] tr)).
Proof.
  intros H O Gk. split; [exact H|]. split; [exact O|]. split; [intros _; exists (group_secret stall_dealers); split; [exact key_files_gpk|exact Gk]|].
  split; [apply incl_refl|]. split; [exact key_files_good|]. repeat split.
Qed.

(** a contract was just deployed; the service starts and sends the first of its additions *)
Example C69_meets_addition v : exists ig pr w x y, begins_of v ig pr w x /\ calm_of v ig pr w x y /\ a_queue (aw_proc y) = [(AddPermissionedNodes 101, Awaited)] /\
  Z.of_nat (length (ao_nodes w)) <= c_number stall_cfg /\ a_todo (aw_proc y) = [TAdd 102; TAdd 103].
Proof.
  destruct in_g2_exists as [ig HG]. destruct pairing_exists as [pr HP].
  assert (Cx : exists s, construct stall_cfg = Ok s /\ owner s = 77 /\ currentIndex s = 0 /\ contractPhase s = Unregistered /\ forall a, nodeAddress (addrToNode s a) = 0) by (eexists; split; [reflexivity|]; repeat split).
  destruct Cx as (s & Cs & O & Ci & Ph & Na).
  assert (H : Histories.hist v (env_of ig pr) stall_cfg [] s) by (apply hist_deploy; [reflexivity|exact Cs]).
  set (w := demo_admin [101; 102; 103]). set (x := AWorld [] s 0 (AProc demo_fs Stopped [] 0 [] [])).
  assert (Rd : ServiceRun.reads v (env_of ig pr) stall_cfg [] [] (fun _ => []) (fun _ => s)).
  { intros k. split; [exact H|]. repeat split; apply prefix_refl. }
  pose proof (am_restart v (env_of ig pr) stall_cfg live_keccak pr (fun a _ : Fr => a) some_json (fun g (_ : Z) => g) unit unit (fun _ => @nil Z) (fun _ => Ok tt) (fun _ => @nil Z) (fun _ => Ok tt) (fun _ _ => Ok tt) (fun _ _ _ => Ok tt) (fun _ => tt) (fun _ _ _ _ _ => Ok (@nil Z)) (fun _ _ _ _ => true) w [] s 0 (AProc demo_fs Stopped [] 0 [] [])) as M1.
  assert (La : launch w s = Some [TAdd 101; TAdd 102; TAdd 103]).
  { unfold launch. rewrite (checked v live_keccak ig pr (fun _ _ _ => Ok true) stall_cfg w (demo_admin_ok _) [] s H), O, Ci. reflexivity. }
  rewrite La in M1. cbn [a_fs a_queue map] in M1.
  set (p1 := AProc demo_fs Polling [TAdd 101; TAdd 102; TAdd 103] 0 [] []) in *.
  assert (Pf : admin_of perform pr some_json w 0 0 (TAdd 101) (fun _ => s) demo_fs = ([], Ok (Some (AddPermissionedNodes 101)))).
  { cbv beta iota delta [perform cret]. rewrite Na. reflexivity. }
  pose proof (am_perform v (env_of ig pr) stall_cfg live_keccak pr (fun a _ : Fr => a) some_json (fun g (_ : Z) => g) unit unit (fun _ => @nil Z) (fun _ => Ok tt) (fun _ => @nil Z) (fun _ => Ok tt) (fun _ _ => Ok tt) (fun _ _ _ => Ok tt) (fun _ => tt) (fun _ _ _ _ _ => Ok (@nil Z)) (fun _ _ _ _ => true) w [] s 0 p1 _ _ _ _ _ _ eq_refl eq_refl Rd Pf) as M2.
  exists ig, pr, w, x. eexists. split; [|split; [eapply acalm_step; [eapply acalm_step; [apply acalm_refl|exact M1|reflexivity]|exact M2|discriminate]|split; [reflexivity|split; [discriminate|reflexivity]]]].
  split; [exact H|]. split; [exact O|]. split; [cbn [aw_st x]; rewrite Ph; discriminate|]. split; [intros z []|]. split; [exact demo_good|]. repeat split.
Qed.
Lemma demo_gpp : exists gpp, deal_all (fun a _ : Fr => a) (mkConfig 3 3) demo_members stall_dealers = Ok (map (pp_of (fun a _ : Fr => a) demo_members) stall_dealers) /\
  dkg_global_public_params (map (pp_of (fun a _ : Fr => a) demo_members) stall_dealers) = Ok gpp /\ g_g2a gpp = g2mul g2 (group_secret stall_dealers).
Proof.
  exists (mkGPP (g1mul g1 (group_secret stall_dealers)) (g2mul g2 (group_secret stall_dealers)) (map (fun i => g1mul g1 (total stall_dealers (fr i))) (zseq 3))).
  split; [apply stall_deal|]. split; [|reflexivity]. destruct stall_honest as [_ HL Hk Hd Hc]. apply (global_honest (fun a _ => a) (mkConfig 3 3) demo_members stall_dealers); auto.
Qed.
(** a started service with no work left, on any contract that is there *)
Lemma started v ig pr tr s now : in_g2_ok ig -> Histories.hist v (env_of ig pr) stall_cfg tr s -> owner s = 77 -> currentIndex s = 3 -> (contractPhase s = Ready -> getGpk s = enc2 (g2mul g2 (group_secret stall_dealers))) ->
  exists x y, begins_of v ig pr (demo_admin (added tr)) x /\ calm_of v ig pr (demo_admin (added tr)) x y /\ a_life (aw_proc y) = Polling /\ a_todo (aw_proc y) = [] /\ aw_st y = s /\ aw_now y = now.
Proof.
  intros HG H O Ci Gk. set (w := demo_admin (added tr)). set (x := AWorld tr s now (AProc key_files Stopped [] 0 [] tr)).
  pose proof (am_restart v (env_of ig pr) stall_cfg live_keccak pr (fun a _ : Fr => a) some_json (fun g (_ : Z) => g) unit unit (fun _ => @nil Z) (fun _ => Ok tt) (fun _ => @nil Z) (fun _ => Ok tt) (fun _ _ => Ok tt) (fun _ _ _ => Ok tt) (fun _ => tt) (fun _ _ _ _ _ => Ok (@nil Z)) (fun _ _ _ _ => true) w tr s now (AProc key_files Stopped [] 0 [] tr)) as M1.
  assert (La : launch w s = Some []) by (unfold launch; rewrite (checked v live_keccak ig pr (fun _ _ _ => Ok true) stall_cfg w (demo_admin_ok _) tr s H), O, Ci; reflexivity).
  rewrite La in M1. exists x. eexists. split; [|split; [eapply acalm_step; [apply acalm_refl|exact M1|reflexivity]|repeat split]].
  split; [exact H|]. split; [exact O|]. split; [intros P; exists (group_secret stall_dealers); split; [exact key_files_gpk|exact (Gk P)]|]. split; [apply incl_refl|]. split; [exact key_files_good|]. repeat split.
Qed.
(** the first round *)
Example C69_meets_first_round v : exists ig pr w x y z, begins_of v ig pr w x /\ calm_of v ig pr w x y /\ a_life (aw_proc y) = Polling /\ a_todo (aw_proc y) = [] /\ currentRoundNum (aw_st y) = 0 /\
  calm_of v ig pr w y z /\ currentRoundNum (aw_st z) = 1.
Proof.
  destruct in_g2_exists as [ig HG]. destruct pairing_exists as [pr HP]. destruct demo_gpp as (gpp & D & Gp & Eg).
  destruct (ongoing_0 v (fun a _ => a) ig pr HG HP _ gpp D Gp) as (tr & s & [H R O Wh VK GK Rd Dn La]).
  assert (Ci : currentIndex s = 3) by (apply (all_added v live_keccak ig pr (fun _ _ _ => Ok true) stall_cfg tr s H); rewrite R; discriminate).
  destruct (started v ig pr tr s 1000 HG H O Ci ltac:(intros _; rewrite GK, Eg; reflexivity)) as (x & y & B & Rx & L & T & S & N).
  destruct (C69_first_round v live_keccak ig pr (fun _ _ _ => Ok true) live_keccak_ok HG stall_cfg (fun a _ => a) some_json some_json_ok (fun g _ => g) unit unit (fun _ => []) (fun _ => Ok tt) (fun _ => []) (fun _ => Ok tt) (fun _ _ => Ok tt) (fun _ _ _ => Ok tt) (fun _ => tt)
              (fun _ _ _ _ _ => Ok []) (fun _ _ _ _ => true) _ (demo_admin_ok _) x y B Rx L T) as (z & Rz & C1 & _).
  { rewrite S. exact R. } { rewrite S. exact Rd. } { rewrite N. discriminate. }
  exists ig, pr, (demo_admin (added tr)), x, y, z. split; [exact B|]. split; [exact Rx|]. split; [exact L|]. split; [exact T|]. split; [rewrite S; exact Rd|]. split; [exact Rz|exact C1].
Qed.
Definition gen_key : pt := (1, 17631683881184975370165255887551781615748388533673675138860).
(** three nodes have registered with the contract whose registrations can be closed *)
Lemma registered_exists ig pr : exists tr s, Histories.hist Pre (env_of ig pr) stall_cfg tr s /\ contractPhase s = Registered /\ owner s = 77 /\ currentIndex s = 3.
Proof.
  assert (exists s0, construct stall_cfg = Ok s0) as [s0 C0] by (eexists; reflexivity).
  pose proof (construct_ok stall_cfg s0 C0) as (_ & _ & E0).
  assert (own : addr (c_owner stall_cfg)) by (split; reflexivity). assert (dep : is_u256 (c_minDeposit stall_cfg) = true) by reflexivity. assert (pos : 0 < c_number stall_cfg) by (cbn; lia).
  assert (G0 : Setup.good Pre (env_of ig pr) stall_cfg [] s0) by (constructor; [constructor; [reflexivity|exact C0]|reflexivity|rewrite E0; reflexivity|reflexivity]). assert (P0 : contractPhase s0 = Unregistered) by (rewrite E0; reflexivity).
  assert (Fa : Forall addr [101; 102; 103]) by (repeat apply Forall_cons; try apply Forall_nil; split; reflexivity).
  assert (ND : NoDup [101; 102; 103]) by (repeat constructor; cbn; intuition lia).
  destruct (add_all Pre (env_of ig pr) stall_cfg own [101; 102; 103] [] s0 G0 P0 eq_refl eq_refl Fa ND) as (tr1 & s1 & G1 & P1 & A1 & R1 & S1); [cbn; lia|]. cbn [app added flat_map] in A1.
  assert (F : Forall (fun '(a, p) => addr a /\ isOnCurve p = true /\ pt_ok256 p = true) (combine [101; 102; 103] [gen_key; gen_key; gen_key])).
  { assert (I1 : isOnCurve gen_key = true) by (vm_compute; reflexivity). assert (I2 : pt_ok256 gen_key = true) by reflexivity. cbn [combine]. repeat apply Forall_cons; try apply Forall_nil; (split; [split; reflexivity|]); (split; [exact I1|exact I2]). }
  destruct (register_all Pre (env_of ig pr) stall_cfg dep (combine [101; 102; 103] [gen_key; gen_key; gen_key]) tr1 s1 G1 P1 S1 F) as (tr2 & s2 & G2 & P2 & A2 & R2 & S2).
  { discriminate. } { rewrite A1. apply incl_refl. } { rewrite R1. exact ND. } { rewrite R1. reflexivity. }
  exists tr2, s2. destruct G2 as [H2 _ O2 _]. split; [exact H2|]. split; [exact P2|]. split; [rewrite O2; reflexivity|].
  rewrite (j_cnt _ _ _ _ (inv1 _ _ _ _ _ H2)), A2, A1. reflexivity.
Qed.
Example C69_meets_starts : exists ig pr w x y z, begins_of Pre ig pr w x /\ calm_of Pre ig pr w x y /\ a_life (aw_proc y) = Polling /\ a_todo (aw_proc y) = [] /\ contractPhase (aw_st y) = Registered /\
  calm_of Pre ig pr w y z /\ contractPhase (aw_st z) = Nidkg.
Proof.
  destruct in_g2_exists as [ig HG]. destruct pairing_exists as [pr HP]. destruct (registered_exists ig pr) as (tr & s & H & R & O & Ci).
  destruct (started Pre ig pr tr s 1000 HG H O Ci ltac:(rewrite R; discriminate)) as (x & y & B & Rx & L & T & S & N).
  destruct (C69_starts Pre live_keccak ig pr (fun _ _ _ => Ok true) HG stall_cfg (fun a _ => a) some_json some_json_ok (fun g _ => g) unit unit (fun _ => []) (fun _ => Ok tt) (fun _ => []) (fun _ => Ok tt) (fun _ _ => Ok tt) (fun _ _ _ => Ok tt) (fun _ => tt)
              (fun _ _ _ _ _ => Ok []) (fun _ _ _ _ => true) _ (demo_admin_ok _) x y B Rx L T) as (z & Rz & P1 & _).
  { rewrite S. exact R. }
  exists ig, pr, (demo_admin (added tr)), x, y, z. split; [exact B|]. split; [exact Rx|]. split; [exact L|]. split; [exact T|]. split; [rewrite S; exact R|]. split; [exact Rz|exact P1].
Qed.
(** the contract was just deployed: three nodes are added *)
Example C69_meets_setup v : exists ig pr w x z, begins_of v ig pr w x /\ aw_tr x = [] /\ calm_of v ig pr w x z /\ forall a, In a (added (aw_tr z)) <-> In a [101; 102; 103].
Proof.
  destruct in_g2_exists as [ig HG]. destruct pairing_exists as [pr HP].
  assert (Cx : exists s, construct stall_cfg = Ok s /\ owner s = 77 /\ contractPhase s = Unregistered) by (eexists; split; [reflexivity|]; split; reflexivity). destruct Cx as (s & Cs & O & Ph).
  assert (H : Histories.hist v (env_of ig pr) stall_cfg [] s) by (apply hist_deploy; [reflexivity|exact Cs]).
  set (w := demo_admin [101; 102; 103]). set (x := AWorld [] s 0 (AProc demo_fs Stopped [] 0 [] [])).
  assert (B : begins_of v ig pr w x). { split; [exact H|]. split; [exact O|]. split; [cbn [aw_st x]; rewrite Ph; discriminate|]. split; [intros z []|]. split; [exact demo_good|]. repeat split. }
  assert (Fa : Forall (fun a => 0 < a < M160) [101; 102; 103]) by (repeat apply Forall_cons; try apply Forall_nil; split; reflexivity).
  destruct (C69_setup v live_keccak ig pr (fun _ _ _ => Ok true) HG stall_cfg (fun a _ => a) some_json some_json_ok (fun g _ => g) unit unit (fun _ => []) (fun _ => Ok tt) (fun _ => []) (fun _ => Ok tt) (fun _ _ => Ok tt) (fun _ _ _ => Ok tt) (fun _ => tt)
              (fun _ _ _ _ _ => Ok []) (fun _ _ _ _ => true) w (demo_admin_ok _) x x B (acalm_refl _ _ _ _ _ _ _ _ _ _ _ _ _ _ _ _ _ _ _ _ _) eq_refl Fa ltac:(discriminate) ltac:(reflexivity)) as (z & Rz & _ & _ & Az).
  exists ig, pr, w, x, z. split; [exact B|]. split; [reflexivity|]. split; [exact Rz|exact Az].
Qed.
(** round 1 is open without evaluations; the service starts, asks for a round and ends *)
Example C69_meets_restart v : exists ig pr w x z r, begins_of v ig pr w x /\ calm_of v ig pr w x z /\ a_life (aw_proc z) = Stopped /\ aw_st z = aw_st x /\
  aw_tr z = aw_tr x ++ [mkStep (aw_st x) (mkTx 77 0 InitiateRandom) r] /\ is_ok r = false.
Proof.
  destruct in_g2_exists as [ig HG]. destruct pairing_exists as [pr HP]. destruct (demo_open v (fun a _ => a) ig pr HG HP) as (tr & s & H & C & NR & O & GK & VK & Wh & EV).
  pose proof (operating v ig pr tr s 61000 H O GK) as B. set (x := AWorld tr s 61000 (AProc key_files Stopped [] 0 [] tr)) in *.
  assert (Rd : contractPhase s = Ready) by (apply (k_curready _ _ _ _ _ (inv2 _ _ _ _ _ H)); rewrite C; discriminate).
  assert (Cn : roundSubmissionCount s (currentRoundNum s) < c_threshold stall_cfg) by (rewrite C, (m_cnt _ _ _ _ _ (inv3 _ _ _ _ _ H) 1), EV; reflexivity).
  assert (NR' : no_random s (currentRoundNum s)) by (rewrite C; exact NR). assert (Nz : currentRoundNum s <> 0) by (rewrite C; discriminate).
  destruct (C69_restart_unfinished v live_keccak ig pr (fun _ _ _ => Ok true) HG stall_cfg (fun a _ => a) some_json some_json_ok (fun g _ => g) unit unit (fun _ => []) (fun _ => Ok tt) (fun _ => []) (fun _ => Ok tt) (fun _ _ => Ok tt) (fun _ _ _ => Ok tt) (fun _ => tt)
              (fun _ _ _ _ _ => Ok []) (fun _ _ _ _ => true) (demo_admin (added tr)) (demo_admin_ok _) x x B (acalm_refl _ _ _ _ _ _ _ _ _ _ _ _ _ _ _ _ _ _ _ _ _) eq_refl Rd Nz NR' Cn ltac:(discriminate) ltac:(discriminate)) as (z & R & L & S & _ & r & T & Ir).
  exists ig, pr, (demo_admin (added tr)), x, z, r. split; [exact B|]. split; [exact R|]. split; [exact L|]. split; [exact S|]. split; [exact T|exact Ir].
Qed.
(** round 1 has its evaluations; the service starts, completes the round, opens the second one, and asks for the third after
    the interval *)
Example C69_meets_pacing v : exists ig pr w x z p y y1 u u1, begins_of v ig pr w x /\ calm_of v ig pr w x z /\ getRandomAtRound (aw_st z) (currentRoundNum (aw_st x)) = Ok p /\
  calm_of v ig pr w z y /\ move_of v ig pr w AIncluded y y1 /\ a_queue (aw_proc y) = [(InitiateRandom, Awaited)] /\ a_life (aw_proc y1) = Polling /\ currentRoundNum (aw_st y1) = currentRoundNum (aw_st x) + 1 /\
  runs_of v ig pr w (fun l => l = ARestart) y1 u /\ a_queue (aw_proc u) = [(InitiateRandom, Awaited)] /\ move_of v ig pr w AIncluded u u1.
Proof.
  destruct in_g2_exists as [ig HG]. destruct pairing_exists as [pr HP]. destruct (demo_round v (fun a _ => a) ig pr HG HP) as (tr & s & h & H & C & NR & O & GK & VK & Hh & Le & Acc).
  pose proof (operating v ig pr tr s 61000 H O GK) as B. set (x := AWorld tr s 61000 (AProc key_files Stopped [] 0 [] tr)) in *. set (w := demo_admin (added tr)) in *.
  assert (Rd : contractPhase s = Ready) by (apply (k_curready _ _ _ _ _ (inv2 _ _ _ _ _ H)); rewrite C; discriminate).
  assert (Cn : c_threshold stall_cfg <= roundSubmissionCount s (currentRoundNum s)) by (rewrite C, (m_cnt _ _ _ _ _ (inv3 _ _ _ _ _ H) 1), Le; discriminate).
  assert (NR' : no_random s (currentRoundNum s)) by (rewrite C; exact NR). assert (Nz : currentRoundNum s <> 0) by (rewrite C; discriminate).
  assert (NZ : prf_value live_keccak (g1mul h (group_secret stall_dealers)) <> be_bytes 32 0).
  { rewrite prf_value_word. intros X. apply be_inj in X; [|apply live_keccak_ok|split; [lia|reflexivity]].
    match type of X with live_keccak ?b = _ => unfold live_keccak in X; pose proof (Z.mod_pos_bound (Z.of_nat (length b)) 2 eq_refl); lia end. }
  assert (Hh' : hash_to_curve_bn live_keccak EVAL_PREFIX (round_input (currentRoundNum s)) = Ok h) by (rewrite C; exact Hh).
  assert (Acc' : forall a e, In (a, e) (evals tr (currentRoundNum s)) -> 0 <= proof_z e < r_mod /\ evalue e = enc (g1mul h (total stall_dealers (fr (indexPlus e))))) by (rewrite C; exact Acc).
  assert (Lv : zlen (map (fun i => g1mul g1 (total stall_dealers (fr i))) (zseq 3)) = c_number stall_cfg) by (unfold zlen; rewrite map_length, length_zseq; reflexivity).
  pose proof (acalm_refl v (env_of ig pr) stall_cfg live_keccak pr (fun a _ : Fr => a) some_json (fun g (_ : Z) => g) unit unit (fun _ => @nil Z) (fun _ => Ok tt) (fun _ => @nil Z) (fun _ => Ok tt) (fun _ _ => Ok tt) (fun _ _ _ => Ok tt) (fun _ => tt) (fun _ _ _ _ _ => Ok (@nil Z)) (fun _ _ _ _ => true) w x) as Rx.
  destruct (C69_recovers v live_keccak ig pr (fun _ _ _ => Ok true) live_keccak_ok HG HP stall_cfg (fun a _ => a) some_json some_json_ok (fun g _ => g) unit unit (fun _ => []) (fun _ => Ok tt) (fun _ => []) (fun _ => Ok tt) (fun _ _ => Ok tt) (fun _ _ _ => Ok tt) (fun _ => tt)
              (fun _ _ _ _ _ => Ok []) (fun _ _ _ _ => true) w (demo_admin_ok _) x x demo_members stall_dealers _ h B Rx eq_refl Rd Nz NR' Cn ltac:(discriminate) stall_honest GK VK Lv key_files_gpk key_files_vks Hh' NZ Acc') as (z & p & Rz & Nw & Lz & Tz & Qz & Cz & Gz & _).
  pose proof (calm_agood v live_keccak ig pr (fun _ _ _ => Ok true) HG stall_cfg (fun a _ => a) some_json some_json_ok (fun g _ => g) unit unit (fun _ => []) (fun _ => Ok tt) (fun _ => []) (fun _ => Ok tt) (fun _ _ => Ok tt) (fun _ _ _ => Ok tt) (fun _ => tt)
              (fun _ _ _ _ _ => Ok []) (fun _ _ _ _ => true) w (demo_admin_ok _) x z B Rz) as Az. pose proof (AdminInv.g_hist _ _ _ _ _ _ _ _ _ Az) as Hz.
  change (aw_st x) with s in *. rewrite C in Cz.
  assert (Nz' : currentRoundNum (aw_st z) <> 0) by (rewrite Cz; discriminate).
  assert (Rz' : contractPhase (aw_st z) = Ready) by (apply (k_curready _ _ _ _ _ (inv2 _ _ _ _ _ Hz)); exact Nz').
  assert (Nr : ~ no_random (aw_st z) (currentRoundNum (aw_st z))).
  { rewrite Cz. unfold no_random. rewrite C in Gz. rewrite Gz. discriminate. }
  destruct (two_rounds v live_keccak ig pr (fun _ _ _ => Ok true) live_keccak_ok HG stall_cfg (fun a _ => a) some_json some_json_ok (fun g _ => g) unit unit (fun _ => []) (fun _ => Ok tt) (fun _ => []) (fun _ => Ok tt) (fun _ _ => Ok tt) (fun _ _ _ => Ok tt) (fun _ => tt)
              (fun _ _ _ _ _ => Ok []) (fun _ _ _ _ => true) w (demo_admin_ok _) x z B Rz Lz Tz Rz' Nz' Nr) as (y & y1 & u & u1 & Ry & MI & Qy & L1 & C1 & Ru & Qu & Mu).
  { rewrite Cz. reflexivity. } { discriminate. } { reflexivity. } { rewrite Nw. discriminate. }
  exists ig, pr, w, x, z, p, y, y1, u, u1. change (aw_st x) with s. split; [exact B|]. split; [exact Rz|]. split; [exact Gz|]. split; [exact Ry|]. split; [exact MI|]. split; [exact Qy|]. split; [exact L1|]. split; [rewrite C1, Cz, C; reflexivity|].
  split; [exact Ru|]. split; [exact Qu|exact Mu].
Qed.

(** the run splits an iteration into the reads that decide and the tasks left; together they are the iteration of C50 *)
Theorem C69_iteration (w : admin_options) now1 now2 last ch :
  admin_poll (ao w) now1 now2 (ao_start w) last (ao_interval w) ch =
  flat_map (fun t => match t with TAdd _ => [] | TDo x => [x] | TInterval => if ao_interval w <? (now2 - last) / 1000 then [AInitiate] else [] end) (decide w now1 ch).
Proof.
  unfold admin_poll, decide. destruct (contractPhase (ch 0%nat)); try reflexivity. destruct (now1 <? ao_start w); [reflexivity|].
  destruct (currentRoundNum (ch 1%nat) =? 0); [reflexivity|]. destruct (_ && _); cbn [flat_map app]; rewrite app_nil_r; reflexivity.
Qed.
Print Assumptions C69_one_at_a_time.
Print Assumptions C69_start_accepted.
Print Assumptions C69_addition_accepted.
Print Assumptions C69_initiation.
Print Assumptions C69_random_accepted.
Print Assumptions C69_keys.
Print Assumptions C69_pacing.
Print Assumptions C69_restart_unfinished.
Print Assumptions C69_combines.
Print Assumptions C69_recovers.
Print Assumptions C69_starts.
Print Assumptions C69_first_round.
Print Assumptions C69_adds.
Print Assumptions C69_setup.
Print Assumptions C69_iteration.
