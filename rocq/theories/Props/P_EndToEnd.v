(** C52, C53: the contracts in their deployed environment together with the client.
    Ranges over both contracts, every 256-bit keccak, every membership test and pairing check with the assumed behaviour,
    every Halo2 verifier, every constructor argument and every history. *)
From Coq Require Import ZArith String List Bool Lia.
From Verif.Base Require Import Fld Fp EC Primes Curves Group Fermat.
From Verif.Model Require Import Monad Evm Strings Points HashEvm Dkg Lib Zkdvrf PairingSol HashSol PseudoRandSol GppSol RealEnv.
From Verif.Spec Require Import Dvrf Onchain Refinement Histories.
From Verif.Proofs Require Import ZkdvrfStep ZkdvrfInv1 ZkdvrfInv2 ZkdvrfInv3 Forward HashProofs BytesProofs HashSolProofs OnchainProofs InstanceProofs DkgProofs DvrfProofs GppProofs VerifyProofs PairingExists.
From Verif.Props Require Import P_Dvrf P_Onchain P_Contract P_Refine.
Import ListNotations.
Open Scope Z_scope.

Lemma digits_len f : forall x acc, (length (digits f x acc) <= f + length acc)%nat.
Proof.
  induction f as [|f IH]; intros x acc; cbn [digits]; [lia|]. destruct (x / 10 =? 0); cbn [length]; [lia|].
  specialize (IH (x / 10) ((48 + x mod 10) :: acc)). cbn [length] in IH. lia.
Qed.
Transparent to_dec INPUT_PREFIX M32 M256 M160.
Lemma input_short k : Z.of_nat (length (round_input k)) < 2 ^ 64.
Proof.
  unfold round_input, to_dec. rewrite app_length. pose proof (digits_len 78 k []) as H. change (length INPUT_PREFIX) with 15%nat.
  cbn [length] in H. assert (Z.of_nat 200 < 2 ^ 64) by reflexivity. lia.
Qed.

Section Deployed.
  Variable v : variant.
  Variable keccak : bytes -> Z.
  Variable in_g2 : G2c -> bool.
  Variable pairing : list (G1 * G2c) -> bool.
  Variable halo2 : Z -> bytes -> list Z -> res bool.
  Hypothesis K : keccak_ok keccak.
  Hypothesis HG : in_g2_ok in_g2.
  Hypothesis HP : pairing_ok pairing.
  Variable c : cfg.
  Notation E := (real_env keccak in_g2 pairing halo2).
  Notation hist := (Histories.hist v E c).

  Theorem C38_real_env_coherent : coherent E.
  Proof. exact (env_coherent keccak in_g2 pairing halo2). Qed.

  Lemma full_verdict k p g : (v = Plain -> verify_pseudo_rand E (round_input k) p g = Ok true) ->
    (v = Pre -> exists h, hash_to_g1 E (round_input k) = Ok h /\ verify_pseudo_rand_fast E h p g = Ok true) ->
    verifyPseudoRand keccak in_g2 pairing (round_input k) p g = Ok true.
  Proof.
    intros A B. destruct v; [exact (A eq_refl)|]. destruct (B eq_refl) as (h & Eh & V).
    exact (eq_trans (pr_full keccak in_g2 pairing (round_input k) h p g Eh) V).
  Qed.

  (** every random the contract reports is one the client's verification accepts, for the reported global key *)
  Theorem C52_random_verifies tr s k p : hist tr s -> getRandomAtRound s k = Ok p -> k <> 0 ->
    exists (S : G1) (sec : Fr), rproof p = enc S /\ getGpk s = enc2 (g2mul g2 sec) /\
      pr_verify keccak pairing (mkPseudoRandom S (be_bytes 32 (rvalue p))) (round_input k) (g2mul g2 sec) = Ok tt.
  Proof.
    intros Hh R Nk. destruct (C30_random_is_verified v E c tr s k p Hh R Nk) as (_ & _ & V & A & B).
    pose proof (full_verdict k (rproof p) (getGpk s) A B) as F.
    destruct (pr_inv keccak K in_g2 pairing HG (round_input k) (rproof p) (getGpk s) (input_short k) F) as (S & sec & E1 & E2 & Ver).
    exists S, sec. split; [exact E1|]. split; [exact E2|]. rewrite V. exact Ver.
  Qed.

  (** every accepted evaluation is one the client accepts, under the key of the submitter's slot *)
  Theorem C52_evaluation_verifies tr s k a e cfg : hist tr s -> In (a, e) (evals tr k) -> number_of_members cfg = c_number c ->
    exists i (S V : G1), znth (map who (registrations tr)) i = Some a /\ indexPlus e = i + 1 /\ evalue e = enc S /\
      znth (getVkList s) i = Some (enc V) /\ 0 <= proof_c e < r_mod /\
      pe_verify keccak (mkPartialEval (i + 1) S (fr (proof_z e)) (fr (proof_c e))) cfg (round_input k) V = Ok tt.
  Proof.
    intros Hh I N. destruct (C32_submissions v E c tr s k Hh) as (_ & _ & H & _). destruct (H a e I) as (_ & i & vk & Z1 & IP & Z2 & _ & A & B). clear H.
    assert (F : verifyPartialEval keccak (round_input k) (evalue e) (proof_z e) (proof_c e) vk = Ok true).
    { destruct v; [exact (A eq_refl)|]. destruct (B eq_refl) as (h & Eh & V). exact (eq_trans (full_fast keccak (round_input k) h _ _ _ _ Eh) V). }
    assert (R : 1 <= i + 1 <= number_of_members cfg).
    { apply znth_range in Z1. rewrite map_length in Z1. pose proof (inv1 _ _ _ _ _ Hh) as J.
      pose proof (j_le _ _ _ _ J). pose proof (NoDup_incl_length (j_rnd _ _ _ _ J) (j_rin _ _ _ _ J)). rewrite map_length in *. lia. }
    destruct (pe_inv keccak K cfg (round_input k) _ _ _ _ (i + 1) R (input_short k) F) as (S & V & E1 & E2 & Rc & Ver).
    exists i, S, V. rewrite <- E2. auto 10.
  Qed.

  (** once the contract is Ready, from instance vectors the client can decode: the keys stored are the client's *)
  Theorem C52_keys tr s cfg insts pps : hist tr s -> contractPhase s = Ready -> number_of_members cfg = c_number c -> insts <> [] ->
    getPpList s = map (map val_r) insts -> Forall2 (fun inst pp => exists pks, from_instance cfg inst = Ok (pp, pks)) insts pps ->
    exists gpp (sec : Fr), dkg_global_public_params pps = Ok gpp /\ getVkList s = map enc (verify_keys gpp) /\
      g_ga gpp = g1mul g1 sec /\ getGpk s = enc2 (g2mul g2 sec).
  Proof.
    intros Hh R N NE L D. destruct (C29_keys_set_once v E c tr s Hh) as [_ H]. destruct (H R) as (gpk & G & _). rewrite L, <- N in G.
    destruct (C15_same_keys in_g2 pairing HG HP cfg insts pps gpk (getGpk s) (getVkList s) NE D G) as (gpp & sec & A & B & C' & D' & E').
    exists gpp, sec. rewrite C'. auto.
  Qed.
End Deployed.

Lemma prand_ext p p' : rproof p = rproof p' -> rvalue p = rvalue p' -> p = p'.
Proof. destruct p, p'. cbn. intros -> ->. reflexivity. Qed.

(** two runs of the deployed system (of either contract, with any members and any owner) that agree on the global key
    report the same random for a round: nobody can choose it *)
Theorem C52_random_determined v v' keccak in_g2 pairing halo2 halo2' c c' tr tr' s s' k p p' : keccak_ok keccak -> in_g2_ok in_g2 -> pairing_ok pairing ->
  hist v (real_env keccak in_g2 pairing halo2) c tr s -> hist v' (real_env keccak in_g2 pairing halo2') c' tr' s' -> k <> 0 ->
  getGpk s = getGpk s' -> getRandomAtRound s k = Ok p -> getRandomAtRound s' k = Ok p' -> p = p'.
Proof.
  intros K HG HP H H' N G R R'.
  destruct (C52_random_verifies v keccak in_g2 pairing halo2 K HG c tr s k p H R N) as (S & sec & A & B & C).
  destruct (C52_random_verifies v' keccak in_g2 pairing halo2' K HG c' tr' s' k p' H' R' N) as (S' & sec' & A' & B' & C').
  destruct (C30_random_is_verified _ _ _ _ _ _ _ H R N) as (_ & _ & V & _). destruct (C30_random_is_verified _ _ _ _ _ _ _ H' R' N) as (_ & _ & V' & _).
  assert (X : g2mul g2 sec = g2mul g2 sec') by (assert (Y : mem2 in_g2 (getGpk s) = Some (g2mul g2 sec)) by (apply (mem2_iff in_g2 HG); eauto);
    assert (Y' : mem2 in_g2 (getGpk s) = Some (g2mul g2 sec')) by (rewrite G; apply (mem2_iff in_g2 HG); eauto); congruence). rewrite <- X in C'.
  assert (Y : S = S'); [|assert (Z : rproof p = rproof p') by (rewrite A, A', Y; reflexivity); apply prand_ext; [exact Z|rewrite V, V', Z; reflexivity]].
  destruct (msg_hash keccak K (round_input k) (input_short k)) as (h & E & _).
  apply (pr_verify_iff keccak pairing HP _ (round_input k) sec h E) in C as [C _]. apply (pr_verify_iff keccak pairing HP _ (round_input k) sec h E) in C' as [C' _].
  cbn [pr_proof] in *. congruence.
Qed.

(** ** C53: what the client's checks accept, the contract accepts *)
Definition no_random (s : st) (k : Z) : Prop := getRandomAtRound s k = Err "Answer does not exist for the round yet"%string.
Lemma no_random_iff s k : no_random s k <-> rvalue (roundToRandom s k) = 0.
Proof. unfold no_random, getRandomAtRound. destruct (Z.eqb_spec (rvalue (roundToRandom s k)) 0); cbn [negb]; split; congruence. Qed.
Lemma u256 x : 0 <= x < 2 ^ 256 -> is_u256 x = true.
Proof. intros H. unfold is_u256. change M256 with (2 ^ 256). destruct (Z.leb_spec 0 x), (Z.ltb_spec x (2 ^ 256)); auto; lia. Qed.
Lemma vq_u256 (a : Fq) : is_u256 (fval (a : Fp q_mod)) = true.
Proof. apply u256. pose proof (v_range a) as H. unfold v in H. assert (q_mod < 2 ^ 256) by reflexivity. lia. Qed.
Lemma vr_u256 (a : Fr) : is_u256 (val_r a) = true.
Proof. apply u256. pose proof (fval_range r_mod a eq_refl) as H. unfold val_r. assert (r_mod < 2 ^ 256) by reflexivity. lia. Qed.
Lemma enc_u256 (P : G1) : pt_ok256 (enc P) = true.
Proof. unfold pt_ok256, enc. cbn [fst snd]. unfold px, py. rewrite !vq_u256. reflexivity. Qed.
Lemma enc2_u256 (Q : G2c) : g2_ok256 (enc2 Q) = true.
Proof. unfold g2_ok256, enc2. destruct (xy Q) as [x y]. cbn [gx0 gx1 gy0 gy1]. rewrite !vq_u256. reflexivity. Qed.
(** what a transaction leaves alone *)
Definition same_setup (s s' : st) : Prop :=
  owner s' = owner s /\ contractPhase s' = contractPhase s /\ getVkList s' = getVkList s /\ getGpk s' = getGpk s /\ getPkList s' = getPkList s.

Section Live.
  Variable v : variant.
  Variable keccak : bytes -> Z.
  Variable in_g2 : G2c -> bool.
  Variable pairing : list (G1 * G2c) -> bool.
  Variable halo2 : Z -> bytes -> list Z -> res bool.
  Hypothesis K : keccak_ok keccak.
  Hypothesis HG : in_g2_ok in_g2.
  Hypothesis HP : pairing_ok pairing.
  Variable c : cfg.
  Notation E := (real_env keccak in_g2 pairing halo2).
  Notation hist := (Histories.hist v E c).

  (** once all parameters are in, anyone can make the contract Ready by sending the client's global key *)
  Theorem C53_setup_completes tr s cfg pps pkss insts gpp a : hist tr s -> contractPhase s = NidkgComplete -> 0 < a < M160 -> 0 < c_number c ->
    number_of_members cfg = c_number c -> getPpList s = map (map val_r) insts ->
    Forall2 (fun pp pks => zlen pks = number_of_members cfg /\ length (public_shares pp) = length pks /\ length (ciphers pp) = length pks) pps pkss ->
    Forall2 (fun '(pp, pks) inst => instance_of pp pks = Ok inst) (combine pps pkss) insts ->
    dkg_global_public_params pps = Ok gpp -> (exists sec : Fr, g_ga gpp = g1mul g1 sec /\ g_g2a gpp = g2mul g2 sec) ->
    exists s' ev, apply v E s (mkTx a 0 (ComputeVk (enc2 (g_g2a gpp)))) = Ok (s', ev) /\ contractPhase s' = Ready /\
      getVkList s' = map enc (verify_keys gpp) /\ getGpk s' = enc2 (g_g2a gpp) /\ owner s' = owner s.
  Proof.
    intros Hh P A Hn N L F I G (sec & G1' & G2').
    pose proof (inv0 _ _ _ _ _ Hh) as J0. pose proof (inv2 _ _ _ _ _ Hh) as J2.
    assert (LN : length insts = length pps).
    { rewrite <- (Forall2_len I), combine_length, <- (Forall2_len F). apply Nat.min_id. }
    assert (LP : Z.of_nat (length pps) = c_number c).
    { rewrite <- (k_eq _ _ _ _ _ J2) by (rewrite P; cbn; lia). pose proof (k_pp _ _ _ _ _ J2) as X. unfold getPpList in L. rewrite L in X.
      apply (f_equal (@length _)) in X. rewrite !map_length in X. lia. }
    assert (NE : pps <> []) by (intros ->; cbn in LP; lia).
    destruct (createGpp_ok in_g2 pairing HG HP cfg pps pkss insts (enc2 (g_g2a gpp)) NE) as (gpp' & Eg & C'); auto.
    { unfold zlen. lia. } { rewrite N. pose proof (i_ppr _ _ J0). lia. }
    assert (gpp' = gpp) by congruence. subst gpp'. specialize (C' sec G1' (f_equal enc2 G2')).
    unfold apply. rewrite require_true by (unfold tx_ok; cbn [sender tvalue what]; rewrite addr_ok, enc2_u256 by auto; reflexivity). cbn [bind].
    cbn [payable what tvalue]. rewrite require_true by reflexivity. cbn [bind]. unfold dispatch. cbn [what]. unfold computeVk. cbn [contractPhase set_balance].
    rewrite P, require_true by reflexivity. cbn [bind memberCount set_balance ppList create_gpp real_env].
    unfold getPpList in L. rewrite (i_n _ _ J0), L, <- N. rewrite (map_ext (map val_r) (map vr)) by reflexivity. rewrite C'. cbn [bind].
    do 2 eexists. split; [reflexivity|]. split; [reflexivity|]. split; [|split; reflexivity].
    unfold getVkList. cbn [vkList set_contractPhase set_gpkVal set_vkList set_balance].
    destruct (k_vk _ _ _ _ _ J2) as (-> & _); [rewrite P; discriminate|]. reflexivity.
  Qed.

  (** the owner can open the next round as soon as the previous one is finished *)
  Theorem C53_round_opens tr s : hist tr s -> contractPhase s = Ready -> 0 < owner s < M160 -> currentRoundNum s + 1 < 2 ^ 256 ->
    (currentRoundNum s = 0 \/ ~ no_random s (currentRoundNum s)) ->
    exists s' ev, apply v E s (mkTx (owner s) 0 InitiateRandom) = Ok (s', ev) /\ currentRoundNum s' = currentRoundNum s + 1 /\
      same_setup s s' /\ roundToRandom s' = roundToRandom s.
  Proof.
    intros Hh P A B R. pose proof (inv3 _ _ _ _ _ Hh) as J3. pose proof (m_last _ _ _ _ _ J3 0) as R0.
    unfold apply. rewrite require_true by (unfold tx_ok; cbn [sender tvalue what]; rewrite addr_ok by auto; reflexivity). cbn [bind payable what tvalue].
    rewrite require_true by reflexivity. cbn [bind]. unfold dispatch. cbn [what]. unfold initiateRandom, onlyOwner. cbn [sender owner set_balance contractPhase currentRoundNum roundToRandom].
    rewrite Z.eqb_refl, P, !require_true by reflexivity. cbn [bind].
    assert (X : (if currentRoundNum s =? 0 then Ok tt else require (negb (rvalue (roundToRandom s (currentRoundNum s)) =? 0)) "Earlier round not completed") = Ok tt).
    { destruct (Z.eqb_spec (currentRoundNum s) 0) as [|N]; auto. destruct R as [|R]; [lia|]. rewrite no_random_iff in R. destruct (Z.eqb_spec (rvalue (roundToRandom s (currentRoundNum s))) 0); [contradiction|]. reflexivity. }
    rewrite X. cbn [bind]. unfold add256. rewrite chk_ok by (change M256 with (2 ^ 256); lia). cbn [bind].
    destruct v; cbn [is_pre bind]; [do 2 eexists; repeat split|].
    destruct (msg_hash keccak K (round_input (currentRoundNum s + 1)) (input_short _)) as (h & _ & Eh). cbn [hash_to_g1 real_env]. unfold hashToG1.
    fold (round_input (currentRoundNum s + 1)). rewrite Eh. cbn [bind]. do 2 eexists. repeat split.
  Qed.

  (** in an open round, every member that has not submitted yet can submit any evaluation the client accepts under its key *)
  Theorem C53_evaluation_accepted tr s k i a (V : G1) cfg (e : Dkg.partial_eval) : hist tr s -> k = currentRoundNum s -> 1 <= k -> no_random s k ->
    znth (map who (registrations tr)) i = Some a -> 0 < a < M160 -> ~ In a (map fst (evals tr k)) ->
    znth (getVkList s) i = Some (enc V) -> number_of_members cfg = c_number c -> pe_index e = i + 1 -> pe_verify keccak e cfg (round_input k) V = Ok tt ->
    exists s' ev, apply v E s (mkTx a 0 (SubmitPartialEval (mkPeval (pe_index e) (enc (pe_value e)) (val_r (pe_z e)) (val_r (pe_c e))))) = Ok (s', ev) /\
      roundSubmissionCount s' k = roundSubmissionCount s k + 1 /\ same_setup s s' /\ currentRoundNum s' = currentRoundNum s /\ roundToRandom s' = roundToRandom s.
  Proof.
    intros Hh -> Hk NR Zi A NI Zv N IE Ver. set (k := currentRoundNum s) in *. apply no_random_iff in NR.
    pose proof (inv0 _ _ _ _ _ Hh) as J0. pose proof (inv1 _ _ _ _ _ Hh) as J1. pose proof (inv2 _ _ _ _ _ Hh) as J2. pose proof (inv3 _ _ _ _ _ Hh) as J3.
    pose proof (i_ppr _ _ J0) as BN.
    pose proof (znth_range _ _ _ Zi) as Ri. rewrite map_length in Ri.
    assert (RL : Z.of_nat (length (registrations tr)) <= c_number c).
    { pose proof (j_le _ _ _ _ J1). pose proof (NoDup_incl_length (j_rnd _ _ _ _ J1) (j_rin _ _ _ _ J1)). rewrite map_length in *. lia. }
    assert (B32 : M32 = 2 ^ 32) by reflexivity.
    rewrite znth_map in Zi. destruct (znth (registrations tr) i) as [x|] eqn:Zx; [|discriminate]. assert (Ea : who x = a) by (cbn in Zi; congruence).
    destruct (j_reg _ _ _ _ J1 i x Zx) as (_ & Pk & _). rewrite Ea in Pk.
    assert (Ia : In a (map who (registrations tr))) by (apply in_map_iff; exists x; split; auto; eapply znth_in; eauto).
    assert (Na : nodeAddress (addrToNode s a) = a) by (apply (j_in _ _ _ _ J1), (j_rin _ _ _ _ J1), Ia).
    assert (La : lastSubmittedRound s a < k).
    { pose proof (m_last _ _ _ _ _ J3 a) as Ra. fold k in Ra. destruct (Z.eq_dec (lastSubmittedRound s a) k) as [Eq|]; [|lia]. exfalso. apply NI. rewrite <- Eq.
      apply (m_lastin _ _ _ _ _ J3). lia. }
    assert (Cn : 0 <= roundSubmissionCount s k + 1 < M32).
    { rewrite (m_cnt _ _ _ _ _ J3 k). assert (Z.of_nat (length (evals tr k)) <= c_number c); [|lia].
      pose proof (j_le _ _ _ _ J1). assert (length (map fst (evals tr k)) <= length (added tr))%nat; [|rewrite map_length in *; lia].
      apply NoDup_incl_length; [apply (m_nd _ _ _ _ _ J3)|]. intros b Hb. apply (j_rin _ _ _ _ J1). apply in_map_iff in Hb as ((b' & eb) & <- & Hb).
      destruct (m_ev _ _ _ _ _ J3 k b' eb Hb) as (ib & vb & Zb & _). eapply znth_in. exact Zb. }
    assert (RI : roundInput s k = round_input k).
    { rewrite (k_input _ _ _ _ _ J2 k). fold k. destruct (Z.leb_spec 1 k), (Z.leb_spec k k); auto; lia. }
    assert (VV : verifyPartialEval keccak (round_input k) (enc (pe_value e)) (val_r (pe_z e)) (val_r (pe_c e)) (enc V) = Ok true).
    { destruct (C16_agree keccak cfg e (round_input k) V K) as (b & Eb & Hb); [lia|apply input_short|]. rewrite Eb. f_equal. apply Hb, Ver. }
    unfold apply.
    rewrite require_true by (unfold tx_ok; cbn [sender tvalue what indexPlus evalue proof_z proof_c]; rewrite addr_ok, enc_u256, !vr_u256 by auto;
      unfold is_u32; rewrite IE, B32; destruct (Z.leb_spec 0 (i + 1)), (Z.ltb_spec (i + 1) (2 ^ 32)); try lia; reflexivity).
    cbn [bind payable what tvalue]. rewrite require_true by reflexivity. cbn [bind]. unfold dispatch. cbn [what]. unfold submitPartialEval. cbn [sender set_balance currentRoundNum addrToNode roundToRandom lastSubmittedRound roundInput vkList roundHash].
    fold k. rewrite Na, Z.eqb_refl, NR, Z.eqb_refl, !require_true by (auto; apply Z.ltb_lt; exact La). cbn [bind].
    rewrite Pk. unfold add32. rewrite chk_ok by lia. cbn [bind indexPlus evalue proof_z proof_c]. rewrite IE, Z.eqb_refl, require_true by reflexivity. cbn [bind].
    rewrite (proj2 (at_ok (vkList s) i (enc V)) Zv). cbn [bind].
    match goal with |- context [let* ok := ?x in _] => assert (X : x = Ok true) end.
    { destruct v eqn:Ev; cbn [is_pre]; cbn [verify_partial_eval verify_partial_eval_fast real_env].
      - rewrite RI. exact VV.
      - pose proof (k_hash _ _ _ _ _ J2 k) as KH. cbn [is_pre andb] in KH. fold k in KH.
        destruct (Z.leb_spec 1 k), (Z.leb_spec k k); try lia. cbn [andb] in KH. rewrite <- (full_fast keccak _ _ _ _ _ _ KH). exact VV. }
    rewrite X. cbn [bind]. rewrite require_true by reflexivity. cbn [bind].
    cbn [set_roundToEval set_lastSubmittedRound set_balance roundSubmissionCount roundToEval]. rewrite chk_ok by exact Cn. cbn [bind].
    destruct (_ =? _); do 2 eexists; (split; [reflexivity|]); (split; [cbn [set_roundSubmissionCount roundSubmissionCount]; unfold upd; rewrite Z.eqb_refl; reflexivity|]); repeat split.
  Qed.

  (** and the owner can store any random the client accepts (in zkdvrf_pre: after the threshold is reached) *)
  Theorem C53_random_accepted tr s k (sec : Fr) (pr : Dkg.pseudo_random) value : hist tr s -> k = currentRoundNum s -> 1 <= k -> no_random s k -> 0 < owner s < M160 ->
    (v = Pre -> c_threshold c <= roundSubmissionCount s k) -> getGpk s = enc2 (g2mul g2 sec) ->
    0 < value < 2 ^ 256 -> pr_value pr = be_bytes 32 value -> pr_verify keccak pairing pr (round_input k) (g2mul g2 sec) = Ok tt ->
    exists s' ev, apply v E s (mkTx (owner s) 0 (SubmitRandom (mkPrand (enc (pr_proof pr)) value))) = Ok (s', ev) /\
      getRandomAtRound s' k = Ok (mkPrand (enc (pr_proof pr)) value) /\ same_setup s s' /\ currentRoundNum s' = currentRoundNum s.
  Proof.
    intros Hh -> Hk NR A T G BV EV Ver. set (k := currentRoundNum s) in *. apply no_random_iff in NR.
    pose proof (inv0 _ _ _ _ _ Hh) as J0. pose proof (inv2 _ _ _ _ _ Hh) as J2.
    assert (EP : pr = mkPseudoRandom (pr_proof pr) (be_bytes 32 value)) by (rewrite <- EV; destruct pr; reflexivity).
    rewrite EP in Ver. destruct (proj2 (pr_agree keccak K in_g2 pairing HG (round_input k) (pr_proof pr) value sec (input_short k) ltac:(lia)) Ver) as [VV VK].
    assert (RI : roundInput s k = round_input k).
    { rewrite (k_input _ _ _ _ _ J2 k). fold k. destruct (Z.leb_spec 1 k), (Z.leb_spec k k); auto; lia. }
    unfold apply.
    rewrite require_true by (unfold tx_ok; cbn [sender tvalue what rproof rvalue]; rewrite addr_ok, enc_u256, (u256 value) by (auto; lia); reflexivity).
    cbn [bind payable what tvalue]. rewrite require_true by reflexivity. cbn [bind]. unfold dispatch. cbn [what]. unfold submitRandom, onlyOwner.
    cbn [sender set_balance currentRoundNum owner roundToRandom threshold roundSubmissionCount roundHash roundInput gpkVal rproof rvalue].
    fold k. rewrite Z.eqb_refl, NR, !require_true by reflexivity. cbn [bind].
    match goal with |- context [bind ?x (fun _ => bind ?y _)] => assert (X : x = Ok tt); [|assert (Y : y = Ok true)] end.
    { destruct v; cbn [is_pre]; auto. rewrite (i_t _ _ J0), require_true; auto. apply Z.leb_le, T. reflexivity. }
    { unfold getGpk in G. rewrite G. destruct v eqn:Ev; cbn [is_pre]; cbn [verify_pseudo_rand verify_pseudo_rand_fast real_env].
      - rewrite RI. exact VV.
      - pose proof (k_hash _ _ _ _ _ J2 k) as KH. cbn [is_pre andb] in KH. fold k in KH.
        destruct (Z.leb_spec 1 k), (Z.leb_spec k k); try lia. cbn [andb] in KH. rewrite <- (pr_full keccak in_g2 pairing _ _ _ _ KH). exact VV. }
    rewrite X. cbn [bind]. rewrite Y. cbn [bind Zkdvrf.keccak real_env]. rewrite <- VK, Z.eqb_refl, !require_true by reflexivity. cbn [bind].
    do 2 eexists. split; [reflexivity|]. split; [|repeat split]. unfold getRandomAtRound. cbn [set_roundToRandom roundToRandom]. unfold upd. rewrite Z.eqb_refl. cbn [rvalue].
    destruct (Z.eqb_spec value 0); [lia|]. reflexivity.
  Qed.
End Live.
