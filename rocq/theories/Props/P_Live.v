(** C53, continued: from deployment, cooperating participants with honest DKG contributions reach Ready, and from then on can
    complete every round; the stored random is the client's.  Also the concrete instances for C52 and C53. *)
From Coq Require Import ZArith String List Bool Lia.
From Verif.Base Require Import Fld Fp EC Primes Curves Group Fermat.
From Verif.Model Require Import Monad Evm Strings Points HashEvm Dkg Lib Zkdvrf PairingSol HashSol PseudoRandSol GppSol RealEnv.
From Verif.Spec Require Import Dvrf Onchain Refinement Histories.
From Verif.Proofs Require Import ZkdvrfStep ZkdvrfInv1 ZkdvrfInv2 ZkdvrfInv3 Forward Setup HashProofs BytesProofs HashSolProofs OnchainProofs InstanceProofs DkgProofs DvrfProofs GppProofs VerifyProofs PairingExists.
From Verif.Props Require Import P_Dvrf P_Onchain P_Contract P_Refine P_EndToEnd.
Import ListNotations.
Open Scope Z_scope.

(** the coordinates of a Grumpkin key, as registered *)
Definition enck (P : Gk) : pt := (val_r (fst (xy P)), val_r (snd (xy P))).

Section Generic.
  Variable K : Fld.
  Add Field KfL : (flaw K).
  Lemma curve_alt (x y b a : K) : (y * y = x * x * x + b -> b = - a -> y * y + a = x * (x * x))%fld.
  Proof. intros -> ->. ring. Qed.
End Generic.
Lemma isOnCurve_vals (x y : Fr) : isOnCurve (val_r x, val_r y) = (val_r (y * y + fr 17)%fld =? val_r (x * (x * x))%fld).
Proof. reflexivity. Qed.
Lemma bk_opp : bk = (- fr 17)%fld. Proof. apply (Fp_ext r_mod). reflexivity. Qed.
Lemma enck_on_curve (P : Gk) : P <> g0 -> isOnCurve (enck P) = true.
Proof.
  intros N. destruct P as [[|x y] H].
  - exfalso. apply N. apply EC_ext. reflexivity.
  - unfold enck. cbn [xy EC.pt fst snd]. rewrite isOnCurve_vals. apply Z.eqb_eq. f_equal. apply (curve_alt Fr x y bk (fr 17)); [exact (proj1 (on_aff Fr bk x y) H)|exact bk_opp].
Qed.
(** C27: what the registration test means *)
Theorem C27_on_curve x y : isOnCurve (x, y) = true <-> (y * y + 17) mod r_mod = (x * x * x) mod r_mod.
Proof.
  unfold isOnCurve. cbn [fst snd]. unfold addmod, mulmod. change grumpkin_r with r_mod. rewrite Z.eqb_eq, Zplus_mod_idemp_l, Zmult_mod_idemp_r, Z.mul_assoc. reflexivity.
Qed.
Theorem C27_key_is_curve_point (P : Gk) : P <> g0 -> isOnCurve (enck P) = true.
Proof. exact (enck_on_curve P). Qed.
Lemma enck_u256 (P : Gk) : pt_ok256 (enck P) = true.
Proof. unfold pt_ok256, enck. cbn [fst snd]. rewrite !vr_u256. reflexivity. Qed.

Lemma flat_enck pks : flat (map enck pks) = map val_r (flat_map (fun pk : Gk => [fst (xy pk); snd (xy pk)]) pks).
Proof. induction pks as [|p l IH]; cbn [map flat_map app]; auto. unfold flat in *. cbn [flat_map app map]. rewrite IH. reflexivity. Qed.
Lemma skipn_app2 {A} (a b c : list A) k : (length a + length b)%nat = k -> skipn k (a ++ b ++ c) = c.
Proof. intros <-. rewrite app_assoc. rewrite skipn_app, app_length. rewrite skipn_all2 by (rewrite app_length; lia). rewrite Nat.sub_diag. reflexivity. Qed.
Lemma flat4 (l : list G1) : length (flat_map point_to_public l) = (4 * length l)%nat.
Proof. induction l; cbn [flat_map length]; auto. rewrite app_length, IHl, point_to_public_len. lia. Qed.
Lemma instance_tail pp (pks : list Gk) inst n : instance_of pp pks = Ok inst -> length (public_shares pp) = n -> length (ciphers pp) = n -> length pks = n ->
  skipn (5 * n + 14) inst = flat_map (fun pk : Gk => [fst (xy pk); snd (xy pk)]) pks.
Proof.
  intros E S C P. rewrite instance_shares in E by congruence.
  match type of E with Ok ?x = _ => assert (X : inst = x) by congruence end. subst inst. clear E.
  rewrite !app_assoc. rewrite <- !app_assoc. set (T := flat_map _ pks).
  transitivity (skipn (5 * n + 14) ((point_to_public (ga pp) ++ flat_map point_to_public (public_shares pp) ++ point2_to_public (g2a pp) ++ [fst (xy (gr pp)); snd (xy (gr pp))]) ++ ciphers pp ++ T)).
  - f_equal. rewrite <- !app_assoc. reflexivity.
  - apply skipn_app2. rewrite !app_length, point_to_public_len, point2_to_public_len, flat4, S, C. cbn [length]. lia.
Qed.
Lemma all_u256 l : forallb is_u256 (map val_r l) = true.
Proof. induction l; cbn [map forallb]; auto. rewrite vr_u256, IHl. reflexivity. Qed.

Section Live.
  Variable v : variant.
  Variable keccak : bytes -> Z.
  Variable in_g2 : G2c -> bool.
  Variable pairing : list (G1 * G2c) -> bool.
  Variable halo2 : Z -> bytes -> list Z -> res bool.
  Variable poseidon : Fr -> Fr -> Fr.
  Hypothesis K : keccak_ok keccak.
  Hypothesis HG : in_g2_ok in_g2.
  Hypothesis HP : pairing_ok pairing.
  Variable c : Zkdvrf.cfg.
  Notation E := (real_env keccak in_g2 pairing halo2).
  Notation hist := (Histories.hist v E c).

  Variable cfg : config.
  Variable members : list member_key.
  Variable dealers : list (list Fr * Fr).
  Hypothesis HH : honest cfg members dealers.
  Hypothesis HN : number_of_members cfg = c_number c.
  Hypothesis HT : Dkg.threshold cfg = c_threshold c.
  Variable pps : list member_pp.
  Variable gpp : global_pp.
  Hypothesis HD : deal_all poseidon cfg members dealers = Ok pps.
  Hypothesis HGPP : dkg_global_public_params pps = Ok gpp.

  (** every member is a dealer, has its own address, a key that is not the identity, and a proof the Halo2 verifier accepts *)
  Lemma honest_setup s0 addrs insts zks : cfg_ok c = true -> construct c = Ok s0 -> 0 < c_owner c ->
    length dealers = length members -> length addrs = length members -> NoDup addrs -> Forall (fun a => 0 < a < M160) addrs ->
    Forall (fun m => mk_pk m <> g0) members ->
    Forall2 (fun pp inst => instance_of pp (map mk_pk members) = Ok inst) pps insts ->
    Forall2 (fun inst zk => forallb is_byte zk = true /\ halo2 (c_vk c) zk (map val_r inst) = Ok true) insts zks ->
    exists tr s, hist tr s /\ forallb accepted tr = true /\ contractPhase s = Ready /\ owner s = c_owner c /\ currentRoundNum s = 0 /\
      map who (registrations tr) = addrs /\ getPkList s = map (fun m => enck (mk_pk m)) members /\
      getVkList s = map enc (verify_keys gpp) /\ getGpk s = enc2 (g_g2a gpp) /\ getPpList s = map (map val_r) insts.
  Proof.
    intros CO C PO LD LA NA FA FK FI FZ.
    destruct (cfg_facts _ _ _ HH) as (Ht & Htn & Hn). pose proof (h_members _ _ _ HH) as HL. pose proof (h_dealers _ _ _ HH) as Hd. pose proof (h_coeffs _ _ _ HH) as Hc. pose proof (h_keys _ _ _ HH) as Hkp.
    assert (EP : pps = map (pp_of poseidon members) dealers).
    { pose proof (deal_all_ok poseidon cfg members dealers) as X. rewrite X in HD by auto. congruence. }
    assert (WP : Forall (fun pp => length (public_shares pp) = length members /\ length (ciphers pp) = length members) pps).
    { rewrite EP. apply Forall_forall. intros pp I. apply in_map_iff in I as (d & <- & _). unfold pp_of. cbn [public_shares ciphers].
      rewrite !map_length, ?combine_length, ?length_zseq, ?map_length, ?Nat.min_id. split; reflexivity. }
    assert (LP : length pps = length members) by (rewrite EP, map_length; exact LD).
    assert (B1 : 0 < c_owner c < M160).
    { split; auto. unfold cfg_ok in CO. repeat (apply andb_prop in CO; destruct CO as [CO ?]). unfold is_addr in *.
      match goal with H : (_ <=? c_owner c) && _ = true |- _ => apply andb_prop in H as [_ H]; apply Z.ltb_lt in H; exact H end. }
    assert (B2 : is_u256 (c_minDeposit c) = true).
    { unfold cfg_ok in CO. repeat (apply andb_prop in CO; destruct CO as [CO ?]). assumption. }
    assert (LM : Z.of_nat (length members) = c_number c) by (rewrite <- HN; exact HL).
    assert (LI : length insts = length members) by (rewrite <- LP; symmetry; exact (Forall2_len FI)).
    destruct (setup_all v E c B1 B2 ltac:(lia) s0 addrs (map (fun m => enck (mk_pk m)) members) (combine (map (map val_r) insts) zks)) as (tr & s & G & P & W & Kk & PL); auto.
    - lia.
    - rewrite map_length. congruence.
    - rewrite combine_length, map_length, <- (Forall2_len FZ), Nat.min_id. congruence.
    - apply Forall_forall. intros p I. apply in_map_iff in I as (m & <- & I). rewrite Forall_forall in FK. split; [apply enck_on_curve, FK, I|apply enck_u256].
    - assert (FL : Forall (fun inst => Z.of_nat (length inst) = 7 * c_number c + 14 /\ skipn (5 * length members + 14) inst = flat_map (fun pk : Gk => [fst (xy pk); snd (xy pk)]) (map mk_pk members)) insts).
      { clear - FI WP HL HN. revert WP. induction FI as [|pp inst pps insts A F IH]; intros W; constructor; inversion W as [|? ? [W1 W2] W']; subst; auto.
        assert (LM : length (map mk_pk members) = length members) by apply map_length. split.
        - destruct (C11_instance_size cfg pp (map mk_pk members) inst) as [X Y]; auto; [unfold zlen in *; rewrite LM; exact HL|congruence|]. unfold zlen in X. rewrite X, Y, HN. reflexivity.
        - apply (instance_tail pp); auto. }
      clear - FZ FL LM. revert FL. induction FZ as [|inst zk insts zks [Z1 Z2] F IH]; intros FL; cbn [map combine]; constructor; inversion FL as [|? ? [L1 L2] FL']; subst; auto.
      split; [apply all_u256|]. split; [exact Z1|]. split; [rewrite map_length; exact L1|]. split; [|exact Z2].
      rewrite skipn_map. replace (Z.to_nat (5 * c_number c + 14)) with (5 * length members + 14)%nat by lia. rewrite L2.
      rewrite <- (map_map mk_pk enck), flat_enck. reflexivity.
    - assert (PL' : getPpList s = map (map val_r) insts).
      { unfold getPpList. rewrite PL. clear - FZ. induction FZ as [|a b l l' _ F IH]; cbn [map combine]; auto. f_equal. exact IH. }
      assert (SEC : exists sec : Fr, g_ga gpp = g1mul g1 sec /\ g_g2a gpp = g2mul g2 sec).
      { destruct (C06_dkg_public poseidon cfg members dealers HH) as (pps' & gpp' & A & B & C' & D'). assert (pps' = pps) by congruence. subst pps'. assert (gpp' = gpp) by congruence. subst gpp'. eauto. }
      assert (F2 : Forall2 (fun pp (pks : list Gk) => zlen pks = number_of_members cfg /\ length (public_shares pp) = length pks /\ length (ciphers pp) = length pks) pps (map (fun _ => map mk_pk members) pps)).
      { clear - WP HL. induction WP as [|pp l [A B] F IH]; cbn [map]; constructor; auto. unfold zlen in *. rewrite map_length. auto. }
      assert (F3 : Forall2 (fun '(pp, pks) inst => instance_of pp pks = Ok inst) (combine pps (map (fun _ => map mk_pk members) pps)) insts).
      { clear - FI. induction FI as [|pp inst l l' A F IH]; cbn [map combine]; constructor; auto. }
      destruct (C53_setup_completes v keccak in_g2 pairing halo2 HG HP c tr s cfg pps _ insts gpp (c_owner c) (g_hist _ _ _ _ _ G) P B1 ltac:(lia) HN PL' F2 F3 HGPP SEC) as (s' & ev & A & R & VK & GK & O).
      set (t := mkTx (c_owner c) 0 (ComputeVk (enc2 (g_g2a gpp)))) in *.
      assert (G' : good v E c (tr ++ [mkStep s t (Ok (s', ev))]) s') by (apply good_step; auto; discriminate).
      exists (tr ++ [mkStep s t (Ok (s', ev))]), s'. destruct G' as [H1 H2 H3 H4]. split; [exact H1|]. split; [exact H2|]. split; [exact R|]. split; [exact H3|].
      assert (R' : registrations (tr ++ [mkStep s t (Ok (s', ev))]) = registrations tr) by (rewrite registrations_app, registrations_one; apply app_nil_r).
      split; [rewrite (k_cur _ _ _ _ _ (inv2 _ _ _ _ _ H1)), H4; reflexivity|]. rewrite R'. split; [exact W|]. split; [|split; [exact VK|split; [exact GK|]]].
      2:{ rewrite <- PL'. unfold getPpList. rewrite (k_pp _ _ _ _ _ (inv2 _ _ _ _ _ H1)), (k_pp _ _ _ _ _ (inv2 _ _ _ _ _ (g_hist _ _ _ _ _ G))), submissions_app, submissions_one. cbn [what t]. rewrite app_nil_r. reflexivity. }
      unfold getPkList. rewrite (j_pk _ _ _ _ (inv1 _ _ _ _ _ H1)), R'. exact Kk.
  Qed.
  Theorem C53_honest_setup s0 addrs insts zks : cfg_ok c = true -> construct c = Ok s0 -> 0 < c_owner c ->
    length dealers = length members -> length addrs = length members -> NoDup addrs -> Forall (fun a => 0 < a < M160) addrs ->
    Forall (fun m => mk_pk m <> g0) members ->
    Forall2 (fun pp inst => instance_of pp (map mk_pk members) = Ok inst) pps insts ->
    Forall2 (fun inst zk => forallb is_byte zk = true /\ halo2 (c_vk c) zk (map val_r inst) = Ok true) insts zks ->
    exists tr s, hist tr s /\ forallb accepted tr = true /\ contractPhase s = Ready /\ owner s = c_owner c /\ currentRoundNum s = 0 /\
      map who (registrations tr) = addrs /\ getPkList s = map (fun m => enck (mk_pk m)) members /\
      getVkList s = map enc (verify_keys gpp) /\ getGpk s = enc2 (g_g2a gpp).
  Proof.
    intros CO C PO LD LA NA FA FK FI FZ. destruct (honest_setup s0 addrs insts zks CO C PO LD LA NA FA FK FI FZ) as (tr & s & A1 & A2 & A3 & A4 & A5 & A6 & A7 & A8 & A9 & _).
    exists tr, s. auto 10.
  Qed.

  Lemma same_trans a b d : same_setup a b -> same_setup b d -> same_setup a d.
  Proof. unfold same_setup. intuition congruence. Qed.

  Definition sol_eval (e : Dkg.partial_eval) : peval := mkPeval (pe_index e) (enc (pe_value e)) (val_r (pe_z e)) (val_r (pe_c e)).
  Lemma eval_all k (idxs : list Z) (es : list Dkg.partial_eval) : 1 <= k -> NoDup idxs ->
    Forall2 (fun i e => 1 <= i <= c_number c /\ pe_index e = i /\ exists V, get (verify_keys gpp) (i - 1) = Ok V /\ pe_verify keccak e cfg (round_input k) V = Ok tt) idxs es ->
    forall tr s, hist tr s -> currentRoundNum s = k -> no_random s k -> Forall (fun a => 0 < a < M160) (map who (registrations tr)) ->
    Z.of_nat (length (registrations tr)) = c_number c -> getVkList s = map enc (verify_keys gpp) ->
    (forall i a, In i idxs -> znth (map who (registrations tr)) (i - 1) = Some a -> ~ In a (map fst (evals tr k))) ->
    exists tr' s', hist (tr ++ tr') s' /\ forallb accepted tr' = true /\ same_setup s s' /\ currentRoundNum s' = k /\ roundToRandom s' = roundToRandom s /\
      registrations (tr ++ tr') = registrations tr /\ roundSubmissionCount s' k = roundSubmissionCount s k + zlen idxs /\
      Forall (fun x => exists i, In i idxs /\ znth (map who (registrations tr)) (i - 1) = Some (sender (txn x))) tr' /\
      map snd (evals (tr ++ tr') k) = map snd (evals tr k) ++ map sol_eval es.
  Proof.
    intros Hk. induction 2 as [|i e idxs es (Ri & Ie & V & GV & Ver) F IH]; intros tr s Hh Ck NR Fa LR VK NI.
    - exists [], s. rewrite app_nil_r. split; [exact Hh|]. split; [reflexivity|]. split; [repeat split|]. split; [exact Ck|]. split; [reflexivity|]. split; [reflexivity|]. split; [unfold zlen; cbn [length]; lia|]. split; [constructor|]. cbn [map]. rewrite app_nil_r. reflexivity.
    - inversion H as [|? ? Hni Hnd]; subst x l.
      destruct (znth_some (map who (registrations tr)) (i - 1)) as [a Za]; [rewrite map_length; lia|].
      assert (Aa : 0 < a < M160) by (rewrite Forall_forall in Fa; apply Fa; eapply znth_in; eauto).
      assert (Zv : znth (getVkList s) (i - 1) = Some (enc V)).
      { rewrite VK, znth_map. apply get_inv in GV as [G0 G1]. unfold znth. destruct (Z.ltb_spec (i - 1) 0); [lia|]. rewrite G1. reflexivity. }
      destruct (C53_evaluation_accepted v keccak in_g2 pairing halo2 K c tr s k (i - 1) a V cfg e Hh (eq_sym Ck) Hk NR Za Aa) as (s1 & ev & A & Cnt & Sm & Rd & Rr); auto.
      { apply (NI i a); [left; reflexivity|exact Za]. } { lia. }
      match type of A with apply _ _ _ ?t0 = _ => set (t := t0) in * end. set (tr1 := tr ++ [mkStep s t (Ok (s1, ev))]).
      assert (H1 : hist tr1 s1) by (apply hist_ok; auto).
      assert (R1 : registrations tr1 = registrations tr) by (unfold tr1; rewrite registrations_app, registrations_one; apply app_nil_r).
      assert (E1 : map fst (evals tr1 k) = map fst (evals tr k) ++ [a]).
      { unfold tr1. rewrite evals_app, evals_one, map_app. cbn [what t]. rewrite Ck, Z.eqb_refl. reflexivity. }
      destruct (IH Hnd tr1 s1 H1) as (tr' & s' & H2 & A2 & Sm2 & C2 & RR2 & R2 & Cn2 & Sn2 & Es2).
      + congruence.
      + apply no_random_iff. rewrite Rr. apply no_random_iff. exact NR.
      + rewrite R1. exact Fa.
      + rewrite R1. exact LR.
      + destruct Sm as (_ & _ & -> & _). exact VK.
      + intros j b Ij Zb. rewrite R1 in Zb. rewrite E1. intros X. apply in_app_or in X as [X|[<-|[]]].
        * exact (NI j b (or_intror Ij) Zb X).
        * pose proof (znth_NoDup _ _ _ _ (j_rnd _ _ _ _ (inv1 _ _ _ _ _ Hh)) Za Zb) as X. assert (j = i) by lia. subst j. contradiction.
      + exists (mkStep s t (Ok (s1, ev)) :: tr'), s'. unfold tr1 in H2, R2. rewrite <- app_assoc in H2, R2. cbn [app] in H2, R2. split; [exact H2|]. split; [exact A2|]. split; [exact (same_trans _ _ _ Sm Sm2)|].
        split; [exact C2|]. split; [congruence|]. split; [rewrite R2; exact R1|]. split; [rewrite Cn2, Cnt; unfold zlen; cbn [length]; lia|].
        split; [constructor; [exists i; split; [left; reflexivity|exact Za]|]; rewrite R1 in Sn2; apply (Forall_impl _ (fun x X => match X with ex_intro _ j (conj Ij Zj) => ex_intro _ j (conj (or_intror Ij) Zj) end) Sn2)|].
        unfold tr1 in Es2. rewrite <- app_assoc in Es2. cbn [app] in Es2. rewrite Es2, evals_app, evals_one. cbn [what t]. rewrite Ck, Z.eqb_refl, map_app, <- app_assoc. reflexivity.
  Qed.

  (** from any Ready state with these keys whose last round is finished, an honest quorum and the owner finish the next round, and
      the stored random is the one the quorum computed.  (The contract represents "no random" by the value 0, so a random whose
      keccak is 0 would not be readable.) *)
  Theorem C53_honest_round tr s idxs nonce k gpp' pr : hist tr s -> contractPhase s = Ready -> 0 < owner s < M160 ->
    Forall (fun a => 0 < a < M160) (map who (registrations tr)) -> getVkList s = map enc (verify_keys gpp) -> getGpk s = enc2 (g_g2a gpp) ->
    (currentRoundNum s = 0 \/ ~ no_random s (currentRoundNum s)) -> k = currentRoundNum s + 1 -> k < 2 ^ 256 -> quorum cfg idxs ->
    dvrf_run keccak pairing poseidon cfg members dealers idxs nonce (round_input k) = Ok (gpp', pr) -> pr_value pr <> be_bytes 32 0 ->
    exists tr' s', hist (tr ++ tr') s' /\ forallb accepted tr' = true /\ same_setup s s' /\ currentRoundNum s' = k /\
      registrations (tr ++ tr') = registrations tr /\ getRandomAtRound s' k = Ok (mkPrand (enc (pr_proof pr)) (of_be (pr_value pr))) /\
      zlen idxs <= roundSubmissionCount s' k /\
      Forall (fun x => sender (txn x) = owner s \/ exists i, In i idxs /\ znth (map who (registrations tr)) (i - 1) = Some (sender (txn x))) tr'.
  Proof.
    intros Hh P O Fa VK GK R Ek Bk (Lq & Iq & Fq') Run NZ.
    pose proof (m_last _ _ _ _ _ (inv3 _ _ _ _ _ Hh) 0) as R0.
    destruct (C53_round_opens v keccak in_g2 pairing halo2 K c tr s Hh P O ltac:(lia) R) as (s1 & ev & A & C1 & Sm1 & Rr1).
    match type of A with apply _ _ _ ?t0 = _ => set (t := t0) in * end. set (tr1 := tr ++ [mkStep s t (Ok (s1, ev))]).
    assert (H1 : hist tr1 s1) by (apply hist_ok; auto). rewrite <- Ek in C1.
    assert (R1 : registrations tr1 = registrations tr) by (unfold tr1; rewrite registrations_app, registrations_one; apply app_nil_r).
    assert (LR : Z.of_nat (length (registrations tr)) = c_number c) by (apply (j_phase _ _ _ _ (inv1 _ _ _ _ _ Hh)); rewrite P; discriminate).
    assert (EV0 : forall a, ~ In a (map fst (evals tr1 k))).
    { intros a I. unfold tr1 in I. rewrite evals_app, evals_one, map_app in I. cbn [what t] in I. destruct (currentRoundNum s =? k); cbn [map app] in I; rewrite app_nil_r in I.
      all: pose proof (m_range _ _ _ _ _ (inv3 _ _ _ _ _ Hh) k a I); pose proof (m_last _ _ _ _ _ (inv3 _ _ _ _ _ Hh) a); lia. }
    assert (NR1 : no_random s1 k).
    { apply no_random_iff. rewrite Rr1. rewrite (r_last _ _ _ _ _ (inv3 _ _ _ _ _ Hh) k). destruct (randoms tr k) as [|p l] eqn:ER; [reflexivity|].
      pose proof (r_range _ _ _ _ _ (inv3 _ _ _ _ _ Hh) k) as X. rewrite ER in X. specialize (X ltac:(discriminate)). lia. }
    (* the client's run *)
    unfold dvrf_run in Run. rewrite HD in Run. cbn [bind] in Run. rewrite HGPP in Run. cbn [bind] in Run.
    apply bind_ok in Run as (es & Es & Run). apply bind_ok in Run as (pr' & Cb & Run). apply bind_ok in Run as ([] & Vr & Run).
    assert (pr' = pr) by congruence. subst pr'. clear Run gpp'.
    apply mapM_inv in Es.
    assert (F2 : Forall2 (fun i e => 1 <= i <= c_number c /\ pe_index e = i /\ exists V, get (verify_keys gpp) (i - 1) = Ok V /\ pe_verify keccak e cfg (round_input k) V = Ok tt) idxs es).
    { clear - Es Fq' HN HD HGPP HH. induction Es as [|i e l l' ME F IH]; constructor; inversion Fq' as [|? ? F0 F1]; subst; auto.
      unfold member_eval in ME. apply bind_ok in ME as (m & Gm & ME). apply bind_ok in ME as (kk & Gk' & ME). apply bind_ok in ME as ([] & _ & ME). apply bind_ok in ME as (e' & Ge & ME).
      apply bind_ok in ME as (V & GV & ME). apply bind_ok in ME as ([] & Pv & ME). assert (e' = e) by congruence. subst e'.
      split; [rewrite <- HN; exact F0|]. split; [|eauto].
      destruct (C03_share_keys poseidon cfg members dealers HH pps gpp HD HGPP i m Gm) as (kk' & Gk2 & Ix & _). assert (kk' = kk) by congruence. subst kk'. rewrite <- Ix.
      destruct (evaluate_ok keccak kk (round_input k) (nonce i)) as (h & _ & Ee). rewrite Ge in Ee. match type of Ee with Ok _ = Ok ?y => assert (X : e = y) by congruence end. rewrite X. reflexivity. }
    destruct (eval_all k idxs es ltac:(lia) (increasing_NoDup _ Iq) F2 tr1 s1 H1 C1 NR1) as (tr2 & s2 & H2 & A2 & Sm2 & C2 & RR2 & R2 & Cn2 & Sn2 & _).
    { rewrite R1. exact Fa. } { rewrite R1. exact LR. } { destruct Sm1 as (_ & _ & -> & _). exact VK. } { intros i a _ _. apply EV0. }
    assert (SEC : exists sec : Fr, g_g2a gpp = g2mul g2 sec).
    { destruct (C06_dkg_public poseidon cfg members dealers HH) as (p' & g' & X1 & X2 & _ & X4). assert (p' = pps) by congruence. subst p'. assert (g' = gpp) by congruence. subst g'. eauto. }
    destruct SEC as (sec & SEC). rewrite SEC in Vr, GK.
    pose proof (same_trans _ _ _ Sm1 Sm2) as Sm. pose proof Sm as (S1 & S2 & S3 & S4 & S5).
    destruct (msg_hash keccak K (round_input k) (input_short k)) as (h & Eh & _).
    pose proof (proj1 (pr_verify_iff keccak pairing HP pr (round_input k) sec h Eh) Vr) as [_ PV]. rewrite prf_value_word in PV.
    set (val := keccak (word (fst (enc (pr_proof pr))) ++ word (snd (enc (pr_proof pr))))) in *.
    assert (BV : 0 <= val < 2 ^ 256) by apply K.
    assert (NV : val <> 0) by (intros X; rewrite X in PV; contradiction).
    destruct (C53_random_accepted v keccak in_g2 pairing halo2 K HG c (tr1 ++ tr2) s2 k sec pr val H2 (eq_sym C2) ltac:(lia)) as (s3 & ev3 & A3 & GR & Sm3 & C3).
    - apply no_random_iff. rewrite RR2. apply no_random_iff. exact NR1.
    - rewrite S1. exact O.
    - intros _. rewrite Cn2, Lq, HT, (m_cnt _ _ _ _ _ (inv3 _ _ _ _ _ H1) k). lia.
    - rewrite S4. exact GK.
    - lia.
    - exact PV.
    - exact Vr.
    - match type of A3 with apply _ _ _ ?t0 = _ => set (t3 := t0) in * end.
      exists (mkStep s t (Ok (s1, ev)) :: tr2 ++ [mkStep s2 t3 (Ok (s3, ev3))]), s3.
      pose proof (hist_ok v E c _ _ _ _ _ H2 A3) as H3. unfold tr1 in H3, R2. rewrite <- !app_assoc in H3. cbn [app] in H3. split; [exact H3|].
      split; [cbn [forallb]; rewrite forallb_app, A2; reflexivity|]. split; [exact (same_trans _ _ _ Sm Sm3)|]. split; [congruence|]. split.
      + rewrite registrations_app. change (mkStep s t (Ok (s1, ev)) :: tr2 ++ [mkStep s2 t3 (Ok (s3, ev3))]) with (([mkStep s t (Ok (s1, ev))] ++ tr2) ++ [mkStep s2 t3 (Ok (s3, ev3))]).
        rewrite registrations_app, registrations_one. cbn [what t3]. rewrite app_nil_r, <- registrations_app, app_assoc, R2. exact R1.
      + split; [rewrite GR; do 2 f_equal; rewrite PV, of_be_be by lia; symmetry; apply Z.mod_small; change (256 ^ Z.of_nat 32) with (2 ^ 256); exact BV|].
        rewrite (m_cnt _ _ _ _ _ (inv3 _ _ _ _ _ H3) k). pose proof (m_cnt _ _ _ _ _ (inv3 _ _ _ _ _ H2) k) as Y. rewrite Cn2, (m_cnt _ _ _ _ _ (inv3 _ _ _ _ _ H1) k) in Y.
        assert (X : evals (tr ++ mkStep s t (Ok (s1, ev)) :: tr2 ++ [mkStep s2 t3 (Ok (s3, ev3))]) k = evals (tr1 ++ tr2) k ++ evals [mkStep s2 t3 (Ok (s3, ev3))] k).
        { rewrite <- evals_app. f_equal. unfold tr1. rewrite <- !app_assoc. reflexivity. }
        split; [rewrite X, app_length; lia|]. constructor; [left; reflexivity|]. apply Forall_app. split; [|constructor; [left; exact S1|constructor]].
        rewrite R1 in Sn2. exact (Forall_impl _ (fun x X => or_intror X) Sn2).
  Qed.
End Live.

(** a concrete instance: three members (threshold two), both contracts; the hypotheses of C52 and C53 are met by its history *)
Definition live_dealers : list (list Fr * Fr) := [([fr 11; fr 12], fr 13); ([fr 21; fr 22], fr 23); ([fr 31; fr 32], fr 33)].
Lemma live_honest : honest (mkConfig 2 3) demo_members live_dealers.
Proof. constructor; [exists 2, 3; auto|reflexivity|repeat constructor|discriminate|repeat constructor]. Qed.
Definition live_cfg : Zkdvrf.cfg := mkCfg 2 3 77 1 1 1 1 1000.
Definition live_keccak : bytes -> Z := fun b => 1 + Z.of_nat (length b) mod 2.
Lemma live_keccak_ok : keccak_ok live_keccak.
Proof. intros b. unfold live_keccak. assert (2 < 2 ^ 256) by reflexivity. pose proof (Z.mod_pos_bound (Z.of_nat (length b)) 2 eq_refl). lia. Qed.
Lemma key_neq0 k : 0 < k < q_mod -> mk_pk (member_random (fq k)) <> g0.
Proof.
  intros H X. assert (Y : zmul (v (fq k)) gk = g0) by exact X. rewrite v_of in Y by lia.
  apply (zmul_order Gk q_mod gk k q_prime gk_neq0 (Gk_exponent gk)) in Y. apply Z.divide_pos_le in Y; lia.
Qed.
Lemma all_instances pks pps : Forall (fun pp => length (public_shares pp) = length pks) pps -> exists insts, Forall2 (fun pp inst => instance_of pp pks = Ok inst) pps insts.
Proof.
  induction 1 as [|pp l H F [insts IH]]; [exists []; constructor|]. destruct (C12_encodes pp pks H) as [i E]. exists (i :: insts). constructor; auto.
Qed.
Lemma live_deal (poseidon : Fr -> Fr -> Fr) : deal_all poseidon (mkConfig 2 3) demo_members live_dealers = Ok (map (pp_of poseidon demo_members) live_dealers).
Proof. apply deal_all_ok; [reflexivity|cbn; lia|reflexivity|]. exact (h_coeffs _ _ _ live_honest). Qed.
Lemma live_width (poseidon : Fr -> Fr -> Fr) : Forall (fun pp => length (public_shares pp) = 3%nat) (map (pp_of poseidon demo_members) live_dealers).
Proof. apply Forall_map, Forall_forall. intros d _. cbn [pp_of public_shares]. rewrite map_length. apply length_zseq. Qed.
Example C53_meets v (poseidon : Fr -> Fr -> Fr) : exists in_g2 pairing halo2 tr s p, in_g2_ok in_g2 /\ pairing_ok pairing /\
  hist v (real_env live_keccak in_g2 pairing halo2) live_cfg tr s /\ forallb accepted tr = true /\ contractPhase s = Ready /\
  getRandomAtRound s 1 = Ok p /\ map who (registrations tr) = [101; 102; 103].
Proof.
  destruct in_g2_exists as [ig HG]. destruct pairing_exists as [pr HP]. set (h2 := fun (_ : Z) (_ : bytes) (_ : list Z) => Ok true).
  exists ig, pr, h2.
  destruct (C06_dkg_public poseidon _ _ _ live_honest) as (pps & gpp & D & G & _).
  pose proof D as D'. rewrite live_deal in D'. assert (X : pps = map (pp_of poseidon demo_members) live_dealers) by congruence. clear D'.
  assert (W : Forall (fun pp => length (public_shares pp) = 3%nat) pps) by (rewrite X; apply live_width).
  destruct (all_instances (map mk_pk demo_members) pps W) as [insts FI].
  assert (LI : length insts = 3%nat) by (rewrite <- (Forall2_len FI), X, map_length; reflexivity).
  clear X.
  destruct (construct live_cfg) as [s0| |] eqn:C; try discriminate.
  destruct (C53_honest_setup v live_keccak ig pr h2 poseidon HG HP live_cfg _ _ _ live_honest eq_refl pps gpp D G s0 [101; 102; 103] insts [[]; []; []]) as (tr & s & H & A & R & O & C0 & Wh & _ & VK & GK); auto.
  - reflexivity.
  - repeat constructor; cbn; intuition lia.
  - repeat constructor; reflexivity.
  - repeat constructor; apply key_neq0; split; reflexivity.
  - destruct insts as [|i1 [|i2 [|i3 [|]]]]; try discriminate. repeat constructor.
  - assert (Q : quorum (mkConfig 2 3) [1; 3]) by (split; [reflexivity|]; cbn; repeat constructor; lia).
    destruct (C01_any_quorum live_keccak poseidon _ _ _ live_honest pr HP [1; 3] (fun _ => fr 9) (round_input 1) Q) as (h & gpp' & p & Eh & Run & Pp & G2' & _ & Vr).
    rewrite G2' in Vr. destruct (proj1 (pr_verify_iff live_keccak pr HP p (round_input 1) _ h Eh) Vr) as [_ PV].
    destruct (C53_honest_round v live_keccak ig pr h2 poseidon live_keccak_ok HG HP live_cfg _ _ _ live_honest eq_refl eq_refl pps gpp D G tr s [1; 3] (fun _ => fr 9) 1 gpp' p H R) as (tr' & s' & H' & A' & (S1 & S2 & _) & C' & R' & GR & _); auto.
    + rewrite O. split; reflexivity.
    + rewrite Wh. repeat constructor; reflexivity.
    + lia.
    + reflexivity.
    + rewrite PV, prf_value_word. intros X. apply be_inj in X; [|apply live_keccak_ok|split; [lia|reflexivity]].
      unfold live_keccak in X. pose proof (Z.mod_pos_bound (Z.of_nat (length (word (fst (enc (pr_proof p))) ++ word (snd (enc (pr_proof p)))))) 2 eq_refl). lia.
    + exists (tr ++ tr'), s', (mkPrand (enc (pr_proof p)) (of_be (pr_value p))). split; [exact HG|]. split; [exact HP|]. split; [exact H'|].
      split; [rewrite forallb_app, A, A'; reflexivity|]. split; [congruence|]. split; [exact GR|]. rewrite R'; exact Wh.
Qed.

Print Assumptions C53_honest_setup.
Print Assumptions C53_honest_round.
Print Assumptions C53_meets.
