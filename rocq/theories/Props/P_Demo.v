(** C65: the demo of the README, from `yarn admin` and `yarn member` to any number of rounds of `yarn random`, ends with the
    right keys and the right randoms in the contract.
    For every keccak, pairing and G2 test of the required kind, every JSON library that reads back what it writes, every
    complete proof system, every working directory with the cached parameters, every group and every choice the scripts
    make while running. *)
From Coq Require Import ZArith String List Bool Lia.
From Verif.Base Require Import Fld Fp EC Primes Curves Group Fermat.
From Verif.Model Require Import Monad Evm Strings Points HashEvm Dkg Lib Serialise Files Cache Client Zkdvrf PairingSol HashSol PseudoRandSol GppSol RealEnv Services Demo.
From Verif.Spec Require Import Dvrf Onchain Histories Serial CacheSpec ClientSpec ServiceSpec DemoSpec.
From Verif.Proofs Require Import ZkdvrfStep ZkdvrfInv1 ZkdvrfInv2 ZkdvrfInv3 BytesProofs JsonExists PairingExists VerifyProofs BytesProofs OnchainProofs DkgProofs CacheProofs ClientProofs ProveProofs InstanceProofs DvrfProofs Forward PipelineProofs PipelineRuns ServiceProofs DemoFiles DemoScripts DemoSetup.
From Verif.Props Require Import P_Dvrf P_Onchain P_Contract P_EndToEnd P_Live P_Client P_Services.
Import ListNotations.
Open Scope Z_scope.

(** a demo configuration (README: demo-config.json, .env): an honest group, one funded wallet per member, no deposit
    required, the admin is the contract's owner *)
Record demo_inputs (c : Zkdvrf.cfg) (d : Z) (wallets : list Z) (secrets : list Fq) (draws : list (list Fr * Fr * Z)) : Prop := {
  di_cfg : cfg_ok c = true; di_admin : 0 < c_owner c; di_deposit : c_minDeposit c = 0; di_degree : 0 <= d <= 22;
  di_honest : honest (mkConfig (c_threshold c) (c_number c)) (map member_random secrets) (map fst draws);
  di_keys : Forall (fun x => mk_pk (member_random x) <> g0) secrets;
  di_draws : length draws = length secrets;
  di_wallets : length wallets = length secrets; di_distinct : NoDup wallets; di_addresses : Forall (fun a => 0 < a < M160) wallets }.
(** the contract has just been deployed *)
Definition deployed (c : Zkdvrf.cfg) (s : st) (log : list event) : Prop := construct c = Ok s /\ log = [].

Section C65.
  Variable keccak : bytes -> Z.
  Variable in_g2 : G2c -> bool.
  Variable pairing : list (G1 * G2c) -> bool.
  Variable halo2 : Z -> bytes -> list Z -> res bool.
  Hypothesis K : keccak_ok keccak.
  Hypothesis HG : in_g2_ok in_g2.
  Hypothesis HP : pairing_ok pairing.
  Notation E := (real_env keccak in_g2 pairing halo2).
  Variable poseidon : Fr -> Fr -> Fr.
  Variable J : json.
  Hypothesis HJ : json_ok J.
  Variable lag : list bytes -> Z -> list bytes.
  Variables vkey pkey : Type.
  Variable vk_write : vkey -> bytes.
  Variable vk_read : bytes -> res vkey.
  Variable pk_write : pkey -> bytes.
  Variable pk_read : bytes -> res pkey.
  Variable keygen_vk : kzg -> config -> res vkey.
  Variable keygen_pk : kzg -> vkey -> config -> res pkey.
  Variable get_vk : pkey -> vkey.
  Variable create_proof : kzg -> pkey -> member_params -> list Fr -> Z -> res bytes.
  Variable verify_proof : kzg -> vkey -> bytes -> list Fr -> bool.
  Variable c : Zkdvrf.cfg.
  Variable d : Z.
  Variable P : kzg.
  Variable vk : vkey.
  Variable pk : pkey.
  Variable wallets : list Z.
  Variable secrets : list Fq.
  Variable draws : list (list Fr * Fr * Z).
  Hypothesis HI : demo_inputs c d wallets secrets draws.
  Hypothesis HK : kzg_of_degree d P.
  Hypothesis HC : proofs_accepted poseidon get_vk create_proof verify_proof (halo2 (c_vk c)) (mkConfig (c_threshold c) (c_number c)) P vk pk.
  Notation setup := (demo_setup keccak pairing poseidon J lag vkey pkey vk_write vk_read pk_write pk_read keygen_vk keygen_pk get_vk create_proof verify_proof E (c_threshold c) (c_number c) d (c_owner c)).
  Notation rounds := (demo_rounds keccak pairing poseidon J lag vkey pkey vk_write vk_read pk_write pk_read keygen_vk keygen_pk get_vk create_proof verify_proof E (c_threshold c) (c_number c) d (c_owner c)).
  Notation random_ts := (random_one keccak pairing poseidon J lag vkey pkey vk_write vk_read pk_write pk_read keygen_vk keygen_pk get_vk create_proof verify_proof E (c_threshold c) (c_number c) d (c_owner c)).
  Notation nidkg_ts := (nidkg_one keccak pairing poseidon J lag vkey pkey vk_write vk_read pk_write pk_read keygen_vk keygen_pk get_vk create_proof verify_proof E (c_threshold c) (c_number c) d (c_owner c)).
  Notation ready := (prepared vk_read pk_read (mkConfig (c_threshold c) (c_number c)) d P vk pk).
  (** sum of the dealt secrets, and of the dealt shares *)
  Notation secret := (group_secret (map fst draws)).
  Notation share i := (total (map fst draws) (fr i)).

  Lemma few : c_number c < 2 ^ 32.
  Proof.
    pose proof (di_cfg _ _ _ _ _ HI) as H. unfold cfg_ok in H. repeat (apply andb_prop in H; destruct H as [H ?]). unfold is_u32 in *.
    match goal with X : (_ <=? c_number c) && _ = true |- _ => apply andb_prop in X as [_ X]; apply Z.ltb_lt in X; exact X end.
  Qed.
  Lemma set_up start_first keys_first W : deployed c (chain W) (elog W) -> ready (files W) ->
    exists tr W', setup start_first keys_first wallets secrets draws W = (W', Ok true) /\
      keyed keccak in_g2 pairing halo2 c J vkey pkey vk_read pk_read d P vk pk wallets secrets draws tr W'.
  Proof.
    intros [C0 L0] R. destruct HI as [A1 A2 A3 A4 A5 A6 A7 A8 A9 A10].
    eapply (setup_ok keccak in_g2 pairing halo2 HG HP c poseidon J HJ lag vkey pkey vk_write vk_read pk_write pk_read keygen_vk keygen_pk get_vk create_proof verify_proof d P vk pk); eauto using few.
    rewrite <- L0. destruct W. reflexivity.
  Qed.
  (** after `yarn admin` and `yarn member`, whichever of two listeners of an event runs first, the admin has compared its
      keys with the contract's and found no difference; the contract is ready, its members are the wallets in order, and
      its keys are those of the secret that the members' dealings sum up to *)
  Theorem C65_setup start_first keys_first W : deployed c (chain W) (elog W) -> ready (files W) ->
    exists tr W', setup start_first keys_first wallets secrets draws W = (W', Ok true) /\
      Histories.hist Pre E c tr (chain W') /\ contractPhase (chain W') = Ready /\ map who (registrations tr) = wallets /\
      getGpk (chain W') = enc2 (g2mul g2 secret) /\ getVkList (chain W') = map (fun i => PairingSol.enc (g1mul g1 (share i))) (zseq (length secrets)) /\
      forall i, 1 <= i <= c_number c -> share_file J (files W') i (mkShareKey i (share i) (g1mul g1 (share i))).
  Proof.
    intros D R. destruct (set_up start_first keys_first W D R) as (tr & W' & X & [[A1 [A2 _ _] _ A4 _ _ _] B C G _ _ S _]). exists tr, W'. split; [exact X|].
    split; [exact A2|]. split; [exact B|]. split; [exact A4|]. split; [exact G|]. split; [|exact S].
    rewrite C. unfold gpp_. cbn [verify_keys]. rewrite map_map, map_length. reflexivity.
  Qed.

  Lemma whole start_first keys_first W l : deployed c (chain W) (elog W) -> ready (files W) -> Z.of_nat (length l) < 2 ^ 256 ->
    Forall (fun x => (Z.to_nat (c_threshold c) <= fst x)%nat /\ length (snd x) = length wallets) l ->
    (forall k h, 1 <= k <= Z.of_nat (length l) -> hash_to_curve_bn keccak EVAL_PREFIX (round_input k) = Ok h -> prf_value keccak (g1mul h secret) <> be_bytes 32 0) ->
    exists tr W' ps, sbind (setup start_first keys_first wallets secrets draws) (fun _ => rounds wallets true l) W = (W', Ok ps) /\
      idle keccak in_g2 pairing halo2 c J vkey pkey vk_read pk_read d P vk pk wallets secrets draws tr W' (Z.of_nat (length l)) /\ length ps = length l /\
      forall i p, nth_error ps i = Some p -> getRandomAtRound (chain W') (1 + Z.of_nat i) = Ok p /\ random_of keccak secret (1 + Z.of_nat i) p.
  Proof.
    intros D R Bl F NZ. destruct (set_up start_first keys_first W D R) as (tr & W1 & X & Y). destruct HI as [A1 A2 A3 A4 A5 A6 A7 A8 A9 A10]. apply keyed_idle in Y.
    destruct (rounds_ok keccak in_g2 pairing halo2 K HG HP c poseidon J HJ lag vkey pkey vk_write vk_read pk_write pk_read keygen_vk keygen_pk get_vk create_proof verify_proof d P vk pk
      wallets secrets draws A5 few A4 A1 A2 A8 A9 A10 l tr W1 0 true) as (tr' & W' & ps & X' & Y' & L & Q & _); auto.
    { intros j Hj h Hh. apply (NZ j h); [lia|exact Hh]. } { discriminate. } { lia. }
    exists tr', W', ps. rewrite (sbind_ok _ _ _ _ _ X). split; [exact X'|]. split; [exact Y'|]. split; [exact L|]. intros i p Hi. exact (Q i p Hi).
  Qed.
  (** and after that, any number of rounds: in each of them any members up to the threshold or more submit before the admin
      looks, the others come too late; the admin gets a random for every round, it is the round's input hashed to the curve
      to the power of the group's secret, and it is what the contract returns for that round.
      (A random whose hash is zero could not be stored: zero means "none".) *)
  Theorem C65_demo start_first keys_first W l : deployed c (chain W) (elog W) -> ready (files W) -> Z.of_nat (length l) < 2 ^ 256 ->
    Forall (fun x => (Z.to_nat (c_threshold c) <= fst x)%nat /\ length (snd x) = length wallets) l ->
    (forall k h, 1 <= k <= Z.of_nat (length l) -> hash_to_curve_bn keccak EVAL_PREFIX (round_input k) = Ok h -> prf_value keccak (g1mul h secret) <> be_bytes 32 0) ->
    exists tr W' ps, sbind (setup start_first keys_first wallets secrets draws) (fun _ => rounds wallets true l) W = (W', Ok ps) /\
      Histories.hist Pre E c tr (chain W') /\ currentRoundNum (chain W') = Z.of_nat (length l) /\ length ps = length l /\
      forall i p, nth_error ps i = Some p -> getRandomAtRound (chain W') (1 + Z.of_nat i) = Ok p /\ random_of keccak secret (1 + Z.of_nat i) p.
  Proof.
    intros D R Bl F NZ. destruct (whole start_first keys_first W l D R Bl F NZ) as (tr & W' & ps & X & [[_ [A2 _ _] _ _ _ _ _ _ _ _] C _ _] & L & Q).
    exists tr, W', ps. auto.
  Qed.
  (** a member whose script reaches the contract after the random is refused, whatever it drew; nothing changes there *)
  Theorem C65_late_member start_first keys_first W l W' ps a r : deployed c (chain W) (elog W) -> ready (files W) -> Z.of_nat (length l) < 2 ^ 256 -> l <> [] ->
    Forall (fun x => (Z.to_nat (c_threshold c) <= fst x)%nat /\ length (snd x) = length wallets) l ->
    (forall k h, 1 <= k <= Z.of_nat (length l) -> hash_to_curve_bn keccak EVAL_PREFIX (round_input k) = Ok h -> prf_value keccak (g1mul h secret) <> be_bytes 32 0) ->
    sbind (setup start_first keys_first wallets secrets draws) (fun _ => rounds wallets true l) W = (W', Ok ps) -> In a wallets ->
    exists W'' e, random_ts (round_input (Z.of_nat (length l))) (a, r) W' = (W'', Err e) /\ chain W'' = chain W' /\ elog W'' = elog W'.
  Proof.
    intros D R Bl Ne F NZ X I. destruct (whole start_first keys_first W l D R Bl F NZ) as (tr & W1 & ps1 & X1 & [U C Dn _] & L & Q).
    assert (W1 = W') by congruence. subst W1. clear X X1 Q L. destruct HI as [A1 A2 A3 A4 A5 A6 A7 A8 A9 A10].
    assert (Hl : 1 <= Z.of_nat (length l)) by (destruct l; [congruence|cbn [length]; lia]).
    apply In_nth_error in I as [j Hj].
    destruct (late_ok keccak in_g2 pairing halo2 c poseidon J HJ lag vkey pkey vk_write vk_read pk_write pk_read keygen_vk keygen_pk get_vk create_proof verify_proof d P vk pk
      wallets secrets draws A5 few A4 A8 A10 tr W' (Z.of_nat (length l)) (Z.of_nat j) a r U C Hl) as (W'' & e & X & _ & Ch & El).
    - destruct Dn as [Z0|N]; [lia|exact N].
    - unfold znth. rewrite (proj2 (Z.ltb_ge _ 0)) by lia. rewrite Nat2Z.id. exact Hj.
    - exists W'', e. auto.
  Qed.
  (** with fewer submissions than the threshold the admin goes on waiting and the round has no random *)
  Theorem C65_waits start_first keys_first W m nonces : deployed c (chain W) (elog W) -> ready (files W) -> (m < Z.to_nat (c_threshold c))%nat ->
    exists W', sbind (setup start_first keys_first wallets secrets draws) (fun _ => rounds wallets true [(m, nonces)]) W = (W', Err "still waiting for the event") /\
      currentRoundNum (chain W') = 1 /\ getRandomAtRound (chain W') 1 = Err "Answer does not exist for the round yet".
  Proof.
    intros D R Hm. destruct (set_up start_first keys_first W D R) as (tr & W1 & X & Y). destruct HI as [A1 A2 A3 A4 A5 A6 A7 A8 A9 A10]. apply keyed_idle in Y.
    destruct (short_ok keccak in_g2 pairing halo2 K c poseidon J HJ lag vkey pkey vk_write vk_read pk_write pk_read keygen_vk keygen_pk get_vk create_proof verify_proof d P vk pk
      wallets secrets draws A5 few A4 A1 A2 A8 A9 A10 tr W1 0 true m nonces Y) as (tr' & W' & X' & _ & Rn & NR); auto; [discriminate|lia|reflexivity|].
    exists W'. rewrite (sbind_ok _ _ _ _ _ X). cbn [demo_rounds]. rewrite (sbind_err _ _ _ _ _ X'). split; [reflexivity|]. split; [exact Rn|].
    apply no_random_iff in NR. unfold getRandomAtRound. change (0 + 1) with 1 in NR. rewrite NR. reflexivity.
  Qed.
  (** nidkg.ts does not wait for the admin's startNidkg(): started before it, the submission is refused *)
  Theorem C65_too_early x W : contractPhase (chain W) <> Nidkg -> (forall u, snd (nidkg_ts x W) <> Ok u) /\ chain (fst (nidkg_ts x W)) = chain W.
  Proof.
    intros N. destruct x as [[a i] [[coeffs r] seed]]. rewrite nidkg_eq. unfold sbind. destruct (run _ W) as [W1 [y|e|e]] eqn:X.
    - assert (C1 : chain W1 = chain W) by (unfold run in X; destruct (nidkg_program _ _ _ _ _ _ _ _ _ _ _ _ _ _ _ _ _ _ _ _ _ _ _ _ (files W)) as [w r0]; assert (X' : W1 = World (effects (files W) w) (chain W) (elog W)) by congruence; rewrite X'; reflexivity).
      assert (Y : exists pp zk, y = SubmitPublicParams pp zk).
      { unfold run in X. destruct (nidkg_program _ _ _ _ _ _ _ _ _ _ _ _ _ _ _ _ _ _ _ _ _ _ _ _ (files W)) as [w r0] eqn:Z0. assert (r0 = Ok y) by congruence. subst r0. unfold nidkg_program in Z0.
        apply cbind_inv in Z0 as (? & ? & ? & _ & Z0 & _). apply cbind_inv in Z0 as (? & ? & ? & _ & Z0 & _). apply cbind_inv in Z0 as (? & zk & ? & _ & Z0 & _). apply cbind_inv in Z0 as (? & inst & ? & _ & Z0 & _).
        rewrite lift_run in Z0. destruct (mapM hex_num inst) as [pp| |]; cbn [bind] in Z0; [|discriminate|discriminate]. exists pp, zk. congruence. }
      destruct Y as (pp & zk & ->). unfold send. destruct (apply Pre E (chain W1) (mkTx a 0 (SubmitPublicParams pp zk))) as [[s' ev]|e|e] eqn:A; [exfalso|split; [discriminate|exact C1]|split; [discriminate|exact C1]].
      destruct (apply_ok _ _ _ _ _ _ A) as [_ St]. apply N. rewrite <- C1. inversion St; cbn [what] in *; try discriminate. assumption.
    - split; [discriminate|]. cbn [fst]. unfold run in X. destruct (nidkg_program _ _ _ _ _ _ _ _ _ _ _ _ _ _ _ _ _ _ _ _ _ _ _ _ (files W)) as [w r0]. assert (X' : W1 = World (effects (files W) w) (chain W) (elog W)) by congruence. rewrite X'. reflexivity.
    - split; [discriminate|]. cbn [fst]. unfold run in X. destruct (nidkg_program _ _ _ _ _ _ _ _ _ _ _ _ _ _ _ _ _ _ _ _ _ _ _ _ (files W)) as [w r0]. assert (X' : W1 = World (effects (files W) w) (chain W) (elog W)) by congruence. rewrite X'. reflexivity.
  Qed.
End C65.

(** the admin's comparison: whatever the contract and the files are, if the script gets to the end, it has logged no
    difference exactly when all numbers in its files are those of the contract *)
Section Comparison.
  Variable keccak : bytes -> Z.
  Variable pairing : list (G1 * G2c) -> bool.
  Variable poseidon : Fr -> Fr -> Fr.
  Variable J : json.
  Variable lag : list bytes -> Z -> list bytes.
  Variables vkey pkey : Type.
  Variable vk_write : vkey -> bytes.
  Variable vk_read : bytes -> res vkey.
  Variable pk_write : pkey -> bytes.
  Variable pk_read : bytes -> res pkey.
  Variable keygen_vk : kzg -> config -> res vkey.
  Variable keygen_pk : kzg -> vkey -> config -> res pkey.
  Variable get_vk : pkey -> vkey.
  Variable create_proof : kzg -> pkey -> member_params -> list Fr -> Z -> res bytes.
  Variable verify_proof : kzg -> vkey -> bytes -> list Fr -> bool.
  Variable E : env.
  Variables t n d admin : Z.
  Lemma sbind_inv {A B} (m : script A) (k : A -> script B) W W' b : sbind m k W = (W', Ok b) -> exists W1 a, m W = (W1, Ok a) /\ k a W1 = (W', Ok b).
  Proof. unfold sbind. destruct (m W) as [W1 [a| |]]; intros H; [exists W1, a; auto|discriminate H|discriminate H]. Qed.
  Lemma run_load {A} (c : codec A) p W W' a : run (load_json c p) W = (W', Ok a) -> W' = W /\ exists tx, files W p = Some (File tx) /\ dec c tx = Ok a.
  Proof.
    unfold run. destruct (load_json c p (files W)) as [w r] eqn:L. intros H. injection H as <- ->. apply ProveProofs.lj_inv in L as [-> X]. split; [destruct W; reflexivity|exact X].
  Qed.
  Lemma run_lift {A} (r : res A) W W' a : run (lift r) W = (W', Ok a) -> W' = W /\ r = Ok a.
  Proof. unfold run, lift. intros H. injection H as <- ->. split; [destruct W; reflexivity|reflexivity]. Qed.
  Lemma same_points_iff l : forall l' b, same_points l l' = Ok b -> ((Nat.eqb (length l') (length l) && b) = true <-> mapM point_arg l = Ok l').
  Proof.
    induction l as [|p l IH]; intros l' b H.
    - injection H as <-. destruct l' as [|p' l']; cbn [mapM length Nat.eqb andb]; split; intros X; try reflexivity; discriminate X.
    - destruct l' as [|p' l']; [discriminate H|]. cbn [same_points] in H. apply bind_ok in H as (q & Q & H). apply bind_ok in H as (b' & B & H). injection H as <-. specialize (IH l' b' B).
      cbn [mapM length Nat.eqb]. rewrite Q. cbn [bind]. split.
      + intros X. apply andb_prop in X as [X1 X]. apply andb_prop in X as [X X4]. apply andb_prop in X as [X2 X3]. apply Z.eqb_eq in X2, X3.
        rewrite (proj1 IH) by (rewrite X1, X4; reflexivity). cbn [bind]. destruct q, p'. cbn [fst snd] in *. subst. reflexivity.
      + intros X. apply bind_ok in X as (r & R & X). injection X as -> ->. apply IH in R. apply andb_prop in R as [R1 R2]. rewrite R1, R2, !Z.eqb_refl. reflexivity.
  Qed.
  Theorem C65_comparison W W' b :
    admin_nidkg keccak pairing poseidon J lag vkey pkey vk_write vk_read pk_write pk_read keygen_vk keygen_pk get_vk create_proof verify_proof E t n d admin W = (W', Ok b) ->
    exists tg g tv vks, files W' gpk_path = Some (File tg) /\ dec (j_point2 J) tg = Ok g /\ files W' vks_path = Some (File tv) /\ dec (j_points J) tv = Ok vks /\
      let k := getGpk (chain W') in
      (b = true <-> mapM hex_num [s_x0 g; s_x1 g; s_y0 g; s_y1 g] = Ok [gx0 k; gx1 k; gy0 k; gy1 k] /\
                    mapM (fun p => let* x := hex_num (s_x p) in let* y := hex_num (s_y p) in Ok (x, y)) vks = Ok (getVkList (chain W'))).
  Proof.
    unfold admin_nidkg. intros H. apply sbind_inv in H as (W1 & l & _ & H). apply sbind_inv in H as (W2 & [] & _ & H). apply sbind_inv in H as (W3 & [] & _ & H).
    apply sbind_inv in H as (W4 & g & Lg & H). apply run_load in Lg as (-> & tg & Fg & Dg). apply sbind_inv in H as (W4 & k & Lk & H). apply run_lift in Lk as (-> & Lk).
    apply sbind_inv in H as (W4 & [] & S & H). apply sbind_inv in H as (W5 & k' & V1 & H). unfold view in V1. injection V1 as <- V1. apply sbind_inv in H as (W5 & vl & V2 & H). unfold view in V2. injection V2 as <- V2.
    apply sbind_inv in H as (W5 & vks & Lv & H). apply run_load in Lv as (-> & tv & Fv & Dv). apply sbind_inv in H as (W5 & b' & Sp & H). apply run_lift in Sp as (-> & Sp). unfold ret in H. injection H as <- <-.
    assert (F4 : files W4 = files W3). { unfold send in S. destruct (apply _ _ _ _) as [[s' ev]| |]; [|discriminate S|discriminate S]. injection S as <-. reflexivity. }
    exists tg, g, tv, vks. split; [congruence|]. split; [exact Dg|]. split; [exact Fv|]. split; [exact Dv|]. cbv zeta. apply same_points_iff in Sp. change (mapM _ vks) with (mapM point_arg vks).
    rewrite V1, V2. apply bind_ok in Lk as (x0 & X0 & Lk). apply bind_ok in Lk as (x1 & X1 & Lk). apply bind_ok in Lk as (y0 & Y0 & Lk). apply bind_ok in Lk as (y1 & Y1 & Lk). injection Lk as <-.
    cbn [mapM gx0 gx1 gy0 gy1]. rewrite X0, X1, Y0, Y1. cbn [bind]. rewrite <- Sp, <- andb_assoc, !andb_true_iff, !Z.eqb_eq. clear. split.
    - intros ((((-> & ->) & ->) & ->) & B). split; [reflexivity|exact B].
    - intros (Q & B). injection Q as -> -> -> ->. auto.
  Qed.
End Comparison.

(** submitPP of the node service (node.ts:207-241): the keys are read from the contract, a dealing is proved and verified,
    and the contract accepts it *)
Section Submits.
  Variable v : variant.
  Variable keccak : bytes -> Z.
  Variable in_g2 : G2c -> bool.
  Variable pairing : list (G1 * G2c) -> bool.
  Variable halo2 : Z -> bytes -> list Z -> res bool.
  Variable c : Zkdvrf.cfg.
  Notation E := (real_env keccak in_g2 pairing halo2).
  Notation hist := (Histories.hist v E c).
  Variable poseidon : Fr -> Fr -> Fr.
  Variable J : json.
  Hypothesis HJ : json_ok J.
  Variable lag : list bytes -> Z -> list bytes.
  Variables vkey pkey : Type.
  Variable vk_write : vkey -> bytes.
  Variable vk_read : bytes -> res vkey.
  Variable pk_write : pkey -> bytes.
  Variable pk_read : bytes -> res pkey.
  Variable keygen_vk : kzg -> config -> res vkey.
  Variable keygen_pk : kzg -> vkey -> config -> res pkey.
  Variable get_vk : pkey -> vkey.
  Variable create_proof : kzg -> pkey -> member_params -> list Fr -> Z -> res bytes.
  Variable verify_proof : kzg -> vkey -> bytes -> list Fr -> bool.
  Variable o : options.
  Hypothesis HO : options_ok c o.
  Variable P : kzg.
  Variable vk : vkey.
  Variable pk : pkey.
  Notation cfg := (mkConfig (o_threshold o) (o_members o)).
  Hypothesis Hd : 0 <= o_degree o <= 22.
  Hypothesis HK : kzg_of_degree (o_degree o) P.
  Hypothesis HC : proofs_accepted poseidon get_vk create_proof verify_proof (halo2 (c_vk c)) cfg P vk pk.
  Notation submit := (node_submit_pp keccak pairing poseidon J lag vkey pkey vk_write vk_read pk_write pk_read keygen_vk keygen_pk get_vk create_proof verify_proof o).
  Theorem C49_submits tr s fs keys i coeffs r seed mp : hist tr s -> contractPhase s = Nidkg ->
    znth (map who (registrations tr)) i = Some (o_me o) -> ~ In (o_me o) (map psender (submissions tr)) ->
    getPkList s = map enck keys -> zlen coeffs = o_threshold o -> member_params_new poseidon cfg keys coeffs r = Ok mp ->
    prepared vk_read pk_read cfg (o_degree o) P vk pk fs ->
    exists w pp proof s' ev, submit (fun _ => s) coeffs r seed fs = (w, Ok (SubmitPublicParams pp proof)) /\
      apply v E s (mkTx (o_me o) 0 (SubmitPublicParams pp proof)) = Ok (s', ev) /\ getPpList s' = getPpList s ++ [pp] /\
      exists inst, pp = map val_r inst /\ from_instance cfg inst = Ok (mp_public_params mp, keys).
  Proof.
    intros Hh Ph Zi Ns Pk Lc Mp R. destruct (index_of v keccak in_g2 pairing halo2 c o tr s i Hh Zi) as [Gi Ri].
    pose proof (client_run keccak pairing c poseidon J lag vkey pkey vk_write vk_read pk_write pk_read keygen_vk keygen_pk get_vk create_proof verify_proof o HO) as CR.
    pose proof HO as [P0 U D Ot On Om]. assert (N1 : 1 <= number_of_members cfg) by (cbn [number_of_members]; clear -On Ri; lia).
    assert (Lk : zlen keys = number_of_members cfg). { unfold member_params_new in Mp. apply bind_ok in Mp as (u & A & _). apply assert_ok in A. apply Z.eqb_eq in A. exact A. }
    assert (Sz : length (public_shares (mp_public_params mp)) = length keys /\ length (ciphers (mp_public_params mp)) = length keys).
    { pose proof Mp as H. unfold member_params_new in H. apply bind_ok in H as (u & _ & H). apply bind_ok in H as (a0 & _ & H). apply bind_ok in H as (sh & Hsh & H). apply bind_ok in H as (rs & _ & H). apply bind_ok in H as (cs & Hc & H).
      assert (E0 : mp = mkMP cfg coeffs sh r keys (mkPP (map (fun s => g1mul g1 s) sh) cs (gkmul gk rs) (g1mul g1 a0) (g2mul g2 a0))) by congruence. rewrite E0. cbn [mp_public_params public_shares ciphers]. rewrite map_length. clear H E0.
      assert (Ln : Z.to_nat (number_of_members cfg) = length keys) by (rewrite <- Lk; unfold zlen; apply Nat2Z.id). split.
      - unfold shares in Hsh. apply bind_ok in Hsh as (rest & Hr & Hsh). assert (E1 : sh = fold_left fadd coeffs (f0 : Fr) :: rest) by congruence. rewrite E1.
        apply mapM_inv in Hr. apply F2_length in Hr. unfold range2 in Hr. rewrite map_length, seq_length in Hr. cbn [length]. clear -Hr N1 Ln. lia.
      - apply mapM_inv in Hc. apply F2_length in Hc. rewrite seq_length in Hc. clear -Hc Ln. lia. }
    destruct Sz as [S1 S2]. destruct (C12_encodes (mp_public_params mp) keys S1) as [inst In'].
    set (w0 := [(MEM_PUBLIC_KEYS_PATH, Client.enc (j_points J) (map point_text (getPkList s)))]). set (fs0 := effects fs w0).
    assert (R0 : prepared vk_read pk_read cfg (o_degree o) P vk pk fs0) by (apply ready_effects; [constructor; [apply safe_placed, pl_mpks|constructor]|exact R]).
    assert (M0 : mpks_file J fs0 keys). { unfold fs0, w0. cbn [effects fold_left]. apply holds_saved; [apply (ok_points J HJ)|]. rewrite Pk. clear. induction keys as [|Q l IH]; [reflexivity|]. cbn [map mapM]. rewrite gk_text. cbn [bind]. rewrite IH. reflexivity. }
    destruct (submission_run vkey pkey vk_read pk_read cfg (o_degree o) P vk pk poseidon J HJ lag vk_write pk_write keygen_vk keygen_pk get_vk create_proof verify_proof (halo2 (c_vk c)) HC Hd HK N1 (i + 1) coeffs r seed fs0 keys mp inst)
      as (proof & Bp & H2 & Run & _); auto. { cbn [number_of_members]. clear -Ri On. lia. }
    destruct (C11_instance_size cfg (mp_public_params mp) keys inst Lk S2 In') as [X Y].
    destruct (F_submit v E c tr s (o_me o) (map val_r inst) proof Hh Ph Om) as (s' & ev & A & _ & _).
    { apply (j_rin _ _ _ _ (inv1 _ _ _ _ _ Hh)). unfold znth in Zi. destruct (i <? 0); [discriminate|]. eapply nth_error_In; exact Zi. } { exact Ns. } { apply all_u256. } { exact Bp. }
    { rewrite map_length. unfold zlen in X. rewrite X, Y. cbn [number_of_members]. rewrite On. reflexivity. }
    { pose proof (j_pk _ _ _ _ (inv1 _ _ _ _ _ Hh)) as Jp. unfold getPkList in Pk. rewrite <- Jp, Pk, skipn_map. assert (Ln : c_number c = Z.of_nat (length keys)) by (unfold zlen in Lk; cbn [number_of_members] in Lk; clear -Lk On; lia).
      replace (Z.to_nat (5 * c_number c + 14)) with (5 * length keys + 14)%nat by (clear -Ln; lia). rewrite (instance_tail (mp_public_params mp) keys inst (length keys) In' S1 S2 eq_refl), flat_enck. reflexivity. }
    { exact H2. }
    exists (w0 ++ proof_writes J (i + 1) proof inst), (map val_r inst), proof, s', ev. split; [|split; [exact A|split]].
    - unfold node_submit_pp. apply (cb_run _ _ fs w0 tt (proof_writes J (i + 1) proof inst)).
      { pose proof (proj1 (placed_save (j_points J) MEM_PUBLIC_KEYS_PATH (map point_text (getPkList s)) fs pl_mpks (pr_fs _ _ _ _ _ _ _ _ R))) as Z0. unfold save_json in Z0. unfold js_write. rewrite Z0. reflexivity. }
      fold fs0. rewrite Gi, lift_ok. etransitivity; [|exact Run]. apply cbind_ext; [exact (CR _ _)|]. intros _ s1. apply cbind_ext; [exact (CR _ _)|]. intros _ s2. reflexivity.
    - destruct (apply_ok _ _ _ _ _ _ A) as [_ St]. inversion St; cbn [what] in *; try discriminate.
      match goal with H : SubmitPublicParams _ _ = SubmitPublicParams _ _ |- _ => inversion H; subst end.
      unfold getPpList. destruct (_ =? _), (is_pre v); reflexivity.
    - exists inst. split; [reflexivity|]. exact (C12_round_trip cfg (mp_public_params mp) keys inst Lk S1 S2 In').
  Qed.
End Submits.

(** ** a demo that meets all this: three members, threshold two, two rounds, in the second of which all three submit *)
Definition d_cfg : Zkdvrf.cfg := mkCfg 2 3 77 1 1 1 1 0.
Definition d_draws : list (list Fr * Fr * Z) := combine live_dealers [1; 2; 3].
Definition d_srs : kzg := mkKzg 1 (repeat (repeat 7 64) 2) (repeat (repeat 8 64) 2) (repeat 1 128) (repeat 2 128).
Definition d_fs : fs :=
  set (set (set (set (set demo_fs DKG_PROOFS_DIR Dir) KZG_PARAMS_DIR Dir) (params_file KZG_PARAMS_DIR 1) (File (write_custom d_srs)))
    (vk_file true KZG_PARAMS_DIR (mkConfig 2 3) 1) (File [])) (pk_file true KZG_PARAMS_DIR (mkConfig 2 3) 1) (File []).
Lemma d_inputs : demo_inputs d_cfg 1 [101; 102; 103] [fq 5; fq 6; fq 7] d_draws.
Proof.
  constructor; cbn [c_owner c_minDeposit c_threshold c_number d_cfg]; try reflexivity; try lia.
  - exact live_honest.
  - assert (B : forall k, 0 < k < 8 -> mk_pk (member_random (fq k)) <> g0). { intros k Hk. apply key_neq0. assert (8 < q_mod) by reflexivity. lia. }
    constructor; [apply B; lia|]. constructor; [apply B; lia|]. constructor; [apply B; lia|constructor].
  - repeat constructor; cbn [In]; lia.
  - repeat constructor.
Qed.
Lemma d_kzg : kzg_of_degree 1 d_srs.
Proof.
  unfold kzg_of_degree, d_srs. cbn [kzg_k kzg_g kzg_lagrange kzg_g2 kzg_s_g2]. repeat split; try reflexivity; repeat constructor.
Qed.
Lemma set_dir (f : fs) p n q : set f p n q = Some Dir -> (q = p /\ n = Dir) \/ f q = Some Dir.
Proof. unfold set, path_eqb. intros H. destruct (list_eq_dec _ _ _) as [E|E]; [left; split; congruence|right; exact H]. Qed.
Lemma d_dirs q : d_fs q = Some Dir -> In q (DKG_PROOFS_DIR :: KZG_PARAMS_DIR :: dirs).
Proof.
  unfold d_fs. generalize (write_custom d_srs). intros b X. apply set_dir in X as [[_ X]|X]; [discriminate X|]. apply set_dir in X as [[_ X]|X]; [discriminate X|]. apply set_dir in X as [[_ X]|X]; [discriminate X|].
  apply set_dir in X as [[-> _]|X]; [right; left; reflexivity|]. apply set_dir in X as [[-> _]|X]; [left; reflexivity|]. right. right.
  unfold demo_fs in X. destruct (existsb (path_eqb q) dirs) eqn:Y; [|discriminate]. apply existsb_exists in Y as (x & I & Y). unfold path_eqb in Y. destruct (list_eq_dec _ _ _) as [->|]; [|discriminate]. exact I.
Qed.
Lemma d_last q : In q (DKG_PROOFS_DIR :: KZG_PARAMS_DIR :: dirs) -> last q 0 <> 110 /\ last q 0 <> 116.
Proof. cbn [dirs In]. intros I. repeat destruct I as [<-|I]; try contradiction; split; vm_compute; discriminate. Qed.
Lemma d_prepared : prepared (fun _ => Ok tt) (fun _ => Ok tt) (mkConfig 2 3) 1 d_srs tt tt d_fs.
Proof.
  assert (Dr : forall q, In q (DKG_PROOFS_DIR :: KZG_PARAMS_DIR :: dirs) -> d_fs q = Some Dir).
  { intros q I. cbn [dirs In] in I. repeat destruct I as [<-|I]; try contradiction; vm_compute; reflexivity. }
  constructor.
  - constructor; [intros x I; apply Dr; right; right; exact I|]. intros x m X. apply d_dirs, d_last in X as [X _]. apply X. unfold jp. rewrite !app_assoc. change (str ".json") with ([46; 106; 115; 111] ++ [110]). rewrite app_assoc. apply last_app.
  - apply Dr. left. reflexivity.
  - intros i X. apply d_dirs, d_last in X as [_ X]. destruct (safe_proof i) as [_ [S|S]]; [|exact (X S)]. unfold proof_path, join in S. cbn [concat] in S. change (str ".dat") with ([46; 100; 97] ++ [116]) in S. rewrite app_nil_r, !app_assoc, last_app in S. discriminate S.
  - apply Dr. right. left. reflexivity.
  - vm_compute. reflexivity.
  - exists []. split; vm_compute; reflexivity.
  - exists []. split; vm_compute; reflexivity.
Qed.
Notation d_client f ig pr := (f live_keccak pr (fun a _ : Fr => a) some_json (fun g (_ : Z) => g) unit unit (fun _ => @nil Z) (fun _ => Ok tt) (fun _ => @nil Z) (fun _ => Ok tt)
  (fun _ _ => Ok tt) (fun _ _ _ => Ok tt) (fun _ => tt) (fun _ _ _ _ _ => Ok []) (fun _ _ _ _ => true) (real_env live_keccak ig pr (fun _ _ _ => Ok true)) 2 3 1 77).
Example C65_meets : exists ig pr s0 W ps, deployed d_cfg s0 [] /\
  sbind (d_client demo_setup ig pr true false [101; 102; 103] [fq 5; fq 6; fq 7] d_draws)
    (fun _ => d_client demo_rounds ig pr [101; 102; 103] true [(2%nat, [fr 8; fr 9; fr 10]); (3%nat, [fr 8; fr 9; fr 10])]) (World d_fs s0 []) = (W, Ok ps) /\
  length ps = 2%nat /\ exists p, getRandomAtRound (chain W) 2 = Ok p /\ random_of live_keccak (group_secret (map fst d_draws)) 2 p.
Proof.
  destruct in_g2_exists as [ig HG]. destruct pairing_exists as [pr HP].
  assert (exists s0, construct d_cfg = Ok s0) as [s0 C0] by (eexists; reflexivity).
  destruct (C65_demo live_keccak ig pr (fun _ _ _ => Ok true) live_keccak_ok HG HP (fun a _ : Fr => a) some_json some_json_ok (fun g (_ : Z) => g) unit unit (fun _ => @nil Z) (fun _ => Ok tt) (fun _ => @nil Z) (fun _ => Ok tt)
    (fun _ _ => Ok tt) (fun _ _ _ => Ok tt) (fun _ => tt) (fun _ _ _ _ _ => Ok []) (fun _ _ _ _ => true) d_cfg 1 d_srs tt tt [101; 102; 103] [fq 5; fq 6; fq 7] d_draws d_inputs d_kzg) with
    (start_first := true) (keys_first := false) (W := World d_fs s0 []) (l := [(2%nat, [fr 8; fr 9; fr 10]); (3%nat, [fr 8; fr 9; fr 10])]) as (tr & W & ps & X & _ & _ & L & Q).
  - intros pks coeffs r mp inst seed _ _ _ _. exists []. repeat split.
  - split; [exact C0|reflexivity].
  - exact d_prepared.
  - reflexivity.
  - constructor; [split; [apply le_n|reflexivity]|]. constructor; [split; [apply le_S, le_n|reflexivity]|constructor].
  - intros k h _ _. rewrite prf_value_word. intros X. apply be_inj in X; [|apply live_keccak_ok|split; [lia|reflexivity]].
    unfold live_keccak in X. match type of X with 1 + ?m mod 2 = _ => pose proof (Z.mod_pos_bound m 2 eq_refl) end. lia.
  - exists ig, pr, s0, W, ps. split; [split; [exact C0|reflexivity]|]. split; [exact X|]. split; [exact L|].
    destruct ps as [|p0 [|p1 ps]]; [discriminate L|discriminate L|]. destruct (Q 1%nat p1 eq_refl) as [Q1 Q2]. exists p1. split; [exact Q1|exact Q2].
Qed.

Print Assumptions C65_setup.
Print Assumptions C65_demo.
Print Assumptions C65_late_member.
Print Assumptions C65_waits.
Print Assumptions C65_too_early.
Print Assumptions C65_meets.
Print Assumptions C49_submits.
Print Assumptions C65_comparison.
