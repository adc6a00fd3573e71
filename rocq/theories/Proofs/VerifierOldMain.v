(** The outcome of contracts/Halo2Verifier-3-5-g2.sol. *)
From Coq Require Import ZArith NArith List String Bool Lia.
From Verif.Base Require Import Fld Fp EC Primes Curves Group.
From Verif.Model Require Import Monad Evm Points PairingSol Dkg Yul Halo2VerifierSol VerifierCall Halo2VerifierOldSol VerifierOldCall.
From Verif.Spec Require Import Plonk PlonkVerifier PlonkCall.
From Verif.Proofs Require Import HashSolProofs InstanceProofs OnchainProofs YulSim YulSym YulCon YulMore VerifierSetup VerifierTools VerifierGates
  VerifierLagrange VerifierOpen VerifierAlgebra VerifierRun VerifierFront VerifierTail VerifierKey VerifierInput VerifierPoints VerifierTop
  VerifierSpec VerifierMain VerifierCallProofs VerifierOldSym VerifierOldRun.
Import ListNotations.
Open Scope string_scope.
Open Scope Z_scope.

Lemma old_main_parts : old_main = (old_front ++ [main_04] ++ [old_main_05; old_main_06; old_main_07; old_main_08] ++ tail)%list.
Proof. reflexivity. Qed.
Lemma old_fresh : forallb (fresh "vk") old_main = true. Proof. vm_compute. reflexivity. Qed.

Section Main.
  Variable keccak : bytes -> Z.
  Variable in_g2 : G2c -> bool.
  Variable pairing : list (G1 * G2c) -> bool.
  Variable cdo : list Z.
  Variable code : Z -> list Z.
  Hypothesis Hpos : Forall (fun w => 0 <= w) cdo.
  Variable k : vkey.
  Hypothesis Hok : key_ok k.
  Hypothesis Hk : key_words k = old_key.
  Notation B := (EVM keccak in_g2 pairing cdo code).
  Notation cdw := (e_cdw (0 :: cdo)).
  Lemma old_kwd : kwd k = old_word. Proof. unfold kwd, old_word. rewrite Hk. reflexivity. Qed.
  Lemma old_insts : k_instances k = 49%nat.
  Proof. apply Nat2Z.inj. exact (f_equal (fun l => nth 1 l 0) Hk). Qed.
  Lemma old_degree : k_degree k = 18%nat.
  Proof. apply Nat2Z.inj. exact (f_equal (fun l => nth 2 l 0) Hk). Qed.
  Lemma old_domain_eq : domain k = (2 ^ 18)%N.
  Proof. unfold domain. rewrite old_degree. reflexivity. Qed.
  Lemma old_kcx i : kwd k i = kcx (kwd k) i.
  Proof. destruct i as [|[|[|i]]]; try reflexivity; cbn [kcx]; rewrite old_kwd; reflexivity. Qed.
  Lemma Hpos' : Forall (fun w => 0 <= w) (0 :: cdo). Proof. constructor; [lia|exact Hpos]. Qed.
  Definition out (m0 : mem) : outcome B := run B LIMIT functions [("vk", 0)] m0 old_main.
  Lemma old_front_run (m0 : mem) : exists m : mem,
    run B LIMIT functions [("vk", 0)] m0 old_front =
      Cont (M := B) [("success", flag (forallb (fun b => b) (bchecks 49 cdw))); ("r", r_mod); ("q", q_mod); ("vk", 0)] m /\
    (forall i, (i < 85)%nat -> m (0x6c0 + 32 * Z.of_nat i) = kwd k i) /\
    (forall i, (i < 8)%nat -> m (0x1160 + 32 * Z.of_nat i) = nth i (chal_words 49 (e_v8) (e_kec keccak) cdw (kwd k)) 0 mod r_mod).
  Proof.
    destruct (old_run_front word_bin word_ter e_v8 (e_kec keccak) cdw) as (mm & E & L).
    assert (He0 : Re (CON word_bin word_ter e_v8 (e_kec keccak) (fun a => cdw (a + 32)) []) B (crel code []) [("vk", YulCon.K 0)] [("vk", 0)]).
    { constructor; [split; [reflexivity|exact eq_refl]|constructor]. }
    assert (Hm0 : Rc code [] [] m0) by (intros a v Ev; discriminate Ev).
    destruct (con_sound keccak in_g2 pairing cdo code [] (fun a => cdw (a + 32)) (fun a Ha => cdw_shift cdo a Ha) LIMIT functions old_front _ _ _ _ _ _ He0 Hm0 E)
      as (e1 & m1 & R1 & He & Hm).
    rewrite checks_flags in He. change 1 with (flag true) in He. rewrite fold_flags in He. cbn [andb] in He.
    inversion He as [|[? ?] [n1 v1] ? e2 [N1 V1] He2]; subst. inversion He2 as [|[? ?] [n2 v2] ? e3 [N2 V2] He3]; subst.
    inversion He3 as [|[? ?] [n3 v3] ? e4 [N3 V3] He4]; subst. inversion He4 as [|[? ?] [n4 v4] ? e5 [N4 V4] He5]; subst.
    inversion He5; subst. cbn [fst snd crel] in *. subst.
    exists m1. split; [exact R1|]. split.
    - intros i Hi. pose proof (Hm _ _ (look_loaded _ _ _ _ L (loaded_key _ _ _ _ _ _ i Hi))) as X. cbn [crel] in X. rewrite X.
      unfold kwd. rewrite (key_shape k Hok), old_kwd. reflexivity.
    - intros i Hi. rewrite old_kwd. exact (Hm _ _ (look_loaded _ _ _ _ L (loaded_chal _ _ _ _ _ _ i Hi))).
  Qed.
  Lemma old_rejects (m0 : mem) : ~ inputs_ok 49 cdw -> out m0 = Rev.
  Proof.
    intros H. destruct (old_front_run m0) as (m & R & _).
    assert (E : forallb (fun b => b) (bchecks 49 cdw) = false).
    { destruct (forallb (fun b => b) (bchecks 49 cdw)) eqn:E; [|reflexivity].
      exfalso. apply H. apply (checks_ok 49 cdw (cdw_pos (0 :: cdo) Hpos')). exact E. }
    rewrite E in R. unfold out. rewrite old_main_parts, (run_cont B LIMIT functions _ _ old_front _ _ _ R).
    apply run_rev. exact (check_stmt keccak in_g2 pairing cdo code LIMIT false 0 m).
  Qed.

  Section Given.
    Variable p : proof.
    Variable insts : list Fr.
    Hypothesis HR : reads (0 :: cdo) 49 p insts.
    Lemma HR' : reads (0 :: cdo) (k_instances k) p insts. Proof. rewrite old_insts. exact HR. Qed.
    Notation c := (challenges_of (hs keccak k p insts)).
    Notation Tr := (tro keccak in_g2 pairing cdo code (VerifierInput.pt p) (ev p insts) (kwd k) (vkp k) (k_n_inv k) (k_omega k) (k_omega_inv k) (k_omega_inv_l k)
      (theta c) (beta c) (gamma c) (y c) (x c) (zeta c) (nu c) (mu c)).
    Notation e0 := (senv Fr fr G1 (@gadd G1) g1smul (VerifierInput.pt p) (ev p insts) 0).
    Notation body := [old_main_05; old_main_06; old_main_07; old_main_08].
    Notation H1 := (holds (kwd k) (vkp k) (k_n_inv k) (k_omega k) (k_omega_inv k) (k_omega_inv_l k) (theta c) (beta c) (gamma c) (y c) (x c) (zeta c) (nu c) (mu c)).
    Notation H2 := (holds (kcx (kwd k)) (vkp k) (k_n_inv k) (k_omega k) (k_omega_inv k) (k_omega_inv_l k) (theta c) (beta c) (gamma c) (y c) (x c) (zeta c) (nu c) (mu c)).
    Lemma to_kcx w m : H1 w m -> H2 w m.
    Proof.
      intros H a v E. apply H. revert E. unfold slook. cbn [wr bs]. destruct (alook a w); [exact (fun E => E)|].
      rewrite (sbase_ext _ _ (kwd k) (kcx (kwd k)) _ _ _ _ _ _ _ _ _ _ _ _ _ a old_kcx). exact (fun E => E).
    Qed.
    Lemma of_kcx w m : H2 w m -> H1 w m.
    Proof.
      intros H a v E. apply H. revert E. unfold slook. cbn [wr bs]. destruct (alook a w); [exact (fun E => E)|].
      rewrite (sbase_ext _ _ (kwd k) (kcx (kwd k)) _ _ _ _ _ _ _ _ _ _ _ _ _ a old_kcx). exact (fun E => E).
    Qed.
    Lemma old_outcome_given (m0 : mem) L : Tr e0 [] body e0 (w6 Fr G1 L (VerifierInput.pt p 0x11c4)) ->
      if accepted in_g2 pairing k p L then returns_one keccak in_g2 pairing cdo code (out m0) else out m0 = Rev.
    Proof.
      destruct (old_front_run m0) as (m & R & Mk & Mc). intros HT.
      assert (Eb : forallb (fun b => b) (bchecks 49 cdw) = true).
      { apply (checks_ok 49 cdw (cdw_pos (0 :: cdo) Hpos')). exact (reads_inputs (0 :: cdo) 49 p insts HR). }
      rewrite Eb in R. cbn [flag] in R.
      rewrite <- old_insts in Mc. pose proof (base_ok keccak (0 :: cdo) k Hok p insts HR' m Mk Mc) as Hm.
      destruct (HT [("success", 1); ("r", r_mod); ("q", q_mod); ("vk", 0)] m) as (e' & m' & R' & He & Hm').
      { repeat constructor. }
      { apply to_kcx. exact Hm. }
      assert (E' : e' = [("success", 1); ("r", r_mod); ("q", q_mod); ("vk", 0)]).
      { clear -He. inversion He as [|[? ?] [n1 v1] ? e2 [N1 V1] He2]; subst. inversion He2 as [|[? ?] [n2 v2] ? e3 [N2 V2] He3]; subst.
        inversion He3 as [|[? ?] [n3 v3] ? e4 [N3 V3] He4]; subst. inversion He4 as [|[? ?] [n4 v4] ? e5 [N4 V4] He5]; subst.
        inversion He5; subst. cbn [fst snd rel] in *. subst. reflexivity. }
      subst e'. destruct (pairs_of_mem keccak in_g2 k p insts m' L (of_kcx _ _ Hm')) as (H0 & HD).
      pose proof (run_tail keccak in_g2 pairing cdo code LIMIT m' 0 H0) as HTl. cbv zeta in HTl. rewrite HD in HTl.
      assert (EO : out m0 = run B LIMIT functions [("success", 1); ("r", r_mod); ("q", q_mod); ("vk", 0)] m' tail).
      { unfold out. rewrite old_main_parts, (run_cont B LIMIT functions _ _ old_front _ _ _ R).
        rewrite (run_cont B LIMIT functions _ _ [main_04] _ _ _ (check_stmt keccak in_g2 pairing cdo code LIMIT true 0 m)).
        exact (run_cont B LIMIT functions _ _ body _ _ _ R'). }
      rewrite EO. unfold accepted. destruct (in_g2 (k_g2 k) && in_g2 (k_neg_s_g2 k)); exact HTl.
    Qed.
    Lemma old_outcome_any (m0 : mem) : returns_one keccak in_g2 pairing cdo code (out m0) \/ out m0 = Rev.
    Proof.
      destruct (old_arithmetic_any keccak in_g2 pairing cdo code (VerifierInput.pt p) (ev p insts) (call_ok (0 :: cdo) (k_instances k) p insts HR') (kwd k) (vkp k) (k_n_inv k) (k_omega k)
        (k_omega_inv k) (k_omega_inv_l k) (theta c) (beta c) (gamma c) (y c) (x c) (zeta c) (nu c) (mu c)) as (L & HT).
      pose proof (old_outcome_given m0 L HT) as HO. destruct (accepted in_g2 pairing k p L); [left|right]; exact HO.
    Qed.
    Hypothesis Hd : domain_ok k.
    Hypothesis Hg : generic k c.
    Lemma full_old : fpow (k_omega k) (2 ^ 18) = f1.
    Proof. pose proof (full_k k Hd) as E. rewrite old_domain_eq in E. exact E. Qed.
    Lemma generic_old : fpow (x c) (2 ^ 18) <> f1.
    Proof. pose proof (proj1 (proj2 Hg)) as E. unfold xn in E. rewrite old_domain_eq in E. exact E. Qed.
    Lemma old_outcome_spec (m0 : mem) :
      if accepted in_g2 pairing k p (opening_point k insts p c) then returns_one keccak in_g2 pairing cdo code (out m0) else out m0 = Rev.
    Proof.
      apply old_outcome_given. rewrite <- (lhs_ok k Hok p insts (len_insts (0 :: cdo) (k_instances k) p insts HR') c Hd), old_insts, old_domain_eq.
      exact (old_arithmetic keccak in_g2 pairing cdo code (VerifierInput.pt p) (ev p insts) (call_ok (0 :: cdo) (k_instances k) p insts HR') (kwd k) (vkp k) (k_n_inv k) (k_omega k)
        (k_omega_inv k) (k_omega_inv_l k) (theta c) (beta c) (gamma c) (y c) (x c) (zeta c) (nu c) (mu c)
        (wl_k k Hd) full_old generic_old (d_k k c Hd Hg) (p_k k c Hd Hg)).
    Qed.
  End Given.
  (** the call starts with no variables *)
  Lemma start (m0 : mem) : out m0 = addt B "vk" 0 (run B LIMIT functions [] m0 old_main).
  Proof. exact (run_fresh B "vk" 0 LIMIT functions old_main [] m0 old_fresh). Qed.
  Lemma out_ret (m0 : mem) : returns_one keccak in_g2 pairing cdo code (out m0) ->
    returns_one keccak in_g2 pairing cdo code (run B LIMIT old_functions [] m0 old_main).
  Proof.
    intros (m & E & H). exists m. split; [|exact H]. rewrite old_functions_same. pose proof (start m0) as X. rewrite E in X. clear E.
    destruct (run B LIMIT functions [] m0 old_main) as [e1 m1|m1 a1 l1| |]; cbn [addt] in X; try discriminate X. symmetry. exact X.
  Qed.
  Lemma out_rev (m0 : mem) : out m0 = Rev -> run B LIMIT old_functions [] m0 old_main = Rev.
  Proof.
    intros E. rewrite old_functions_same. pose proof (start m0) as X. rewrite E in X. clear E.
    destruct (run B LIMIT functions [] m0 old_main) as [e1 m1|m1 a1 l1| |]; cbn [addt] in X; try discriminate X. reflexivity.
  Qed.
End Main.

(** *** As a call *)
Lemma wd_skip cd cd' i : skipn 3 cd = skipn 3 cd' -> (3 <= i)%nat -> wd cd i = wd cd' i.
Proof. intros E Hi. unfold wd. replace i with (3 + (i - 3))%nat by lia. rewrite <- !nth_skipn_Z, E. reflexivity. Qed.
Lemma reads_skip cd cd' n p is : skipn 3 cd = skipn 3 cd' -> reads cd n p is -> reads cd' n p is.
Proof.
  intros E (H1 & H2 & H3 & H4). split; [exact H1|]. split; [exact H2|]. split.
  - rewrite <- H3. apply map_ext_in. intros i Hi. apply in_seq in Hi. symmetry. apply (wd_skip cd cd' i E). lia.
  - intros i Hi. rewrite <- (wd_skip cd cd' i E) by lia. exact (H4 i Hi).
Qed.
Lemma old_call_reads b insts p is : Forall byte_ok b ->
  reads (0 :: abi_args_old b insts) 49 p is <-> (proof_ok p /\ List.length is = 49%nat /\ b = proof_bytes p /\ insts = map scalar_word is).
Proof.
  intros Hb. rewrite <- (call_reads 0 b insts 49 p is Hb). split; apply reads_skip; reflexivity.
Qed.
Lemma old_zeros b insts : inputs_ok 49 (e_cdw (0 :: abi_args_old b insts)) -> forall i, (145 + 49 <= i)%nat -> wd (0 :: abi_args_old b insts) i = 0.
Proof.
  intros (H1 & H2 & _) i Hi.
  assert (H1' : Z.of_nat (List.length b) = 0x1180) by exact H1. destruct (div_140 _ H1') as [Hw _].
  assert (H2' : wd (abi_args 0 b insts) 144 = 49) by exact H2. rewrite (abi_count 0 b insts Hw) in H2'.
  rewrite <- (wd_skip (abi_args 0 b insts) (0 :: abi_args_old b insts) i eq_refl) by lia. apply (abi_zeros 0 b insts 49 Hw); lia.
Qed.
Lemma abi_old_pos b insts : Forall byte_ok b -> Forall (fun w => 0 <= w) insts -> Forall (fun w => 0 <= w) (abi_args_old b insts).
Proof.
  intros Hb Hi. unfold abi_args_old. rewrite !Forall_app. repeat split; [|repeat constructor; lia|apply words_from_pos; exact Hb|repeat constructor; lia|exact Hi].
  repeat constructor; lia.
Qed.
Section Verdict.
  Variable keccak : bytes -> Z.
  Variable in_g2 : G2c -> bool.
  Variable pairing : list (G1 * G2c) -> bool.
  Variable code : Z -> list Z.
  Variable k : vkey.
  Hypothesis Hok : key_ok k.
  Hypothesis Hk : key_words k = old_key.
  Notation verify := (verifyProof_old keccak in_g2 pairing code).
  Notation O b insts := (out keccak in_g2 pairing (abi_args_old b insts) code initial_memory).
  Lemma old_verify_one b insts : returns_one keccak in_g2 pairing (abi_args_old b insts) code (O b insts) -> verify b insts = Ok true.
  Proof. intros H. exact (decode_one keccak in_g2 pairing code _ _ (out_ret keccak in_g2 pairing _ code initial_memory H)). Qed.
  Lemma old_verify_rev b insts : O b insts = Rev -> verify b insts = Err "".
  Proof. intros H. exact (f_equal (decode_result keccak in_g2 pairing code) (out_rev keccak in_g2 pairing _ code initial_memory H)). Qed.
  Section Call.
    Variable b : bytes.
    Variable insts : list Z.
    Hypothesis Hb : Forall byte_ok b.
    Hypothesis Hi : Forall (fun w => 0 <= w) insts.
    Notation cd := (abi_args_old b insts).
    Lemma old_verify_reads : (exists p is, reads (0 :: cd) 49 p is) \/ verify b insts = Err "".
    Proof.
      pose proof (Hpos' _ (abi_old_pos b insts Hb Hi)) as Hp.
      pose proof (checks_ok 49 _ (cdw_pos _ Hp)) as H.
      destruct (forallb (fun b => b) (bchecks 49 (e_cdw (0 :: cd)))) eqn:E.
      - left. pose proof (proj1 H eq_refl) as HI. exact (inputs_reads _ Hp 49 (old_zeros b insts HI) HI).
      - right. apply old_verify_rev. apply (old_rejects keccak in_g2 pairing _ code (abi_old_pos b insts Hb Hi) k Hok Hk).
        intros X. apply H in X. discriminate X.
    Qed.
    Lemma old_verify_total : verify b insts = Ok true \/ verify b insts = Err "".
    Proof.
      destruct old_verify_reads as [(p & is & HR)|H]; [|right; exact H].
      destruct (old_outcome_any keccak in_g2 pairing _ code (abi_old_pos b insts Hb Hi) k Hok Hk p is HR initial_memory) as [X|X];
        [left; exact (old_verify_one b insts X)|right; exact (old_verify_rev b insts X)].
    Qed.
    Lemma old_verify_inv : verify b insts = Ok true -> exists p is,
      proof_ok p /\ List.length is = 49%nat /\ b = proof_bytes p /\ insts = map scalar_word is.
    Proof.
      intros E. destruct old_verify_reads as [(p & is & HR)|H]; [|rewrite H in E; discriminate E].
      exists p, is. exact (proj1 (old_call_reads b insts p is Hb) HR).
    Qed.
  End Call.
  Lemma old_verify_spec p is : domain_ok k -> proof_ok p -> List.length is = 49%nat ->
    generic k (challenges_of (hs keccak k p is)) ->
    verify (proof_bytes p) (map scalar_word is) =
      if in_g2 (k_g2 k) && in_g2 (k_neg_s_g2 k) && pairing [(opening_point k is p (challenges_of (hs keccak k p is)), k_g2 k); (p_w' p, k_neg_s_g2 k)]
      then Ok true else Err "".
  Proof.
    intros Hd Hp Hl Hg.
    pose proof (abi_old_pos (proof_bytes p) (map scalar_word is) (word_bytes_ok _) (scalars_pos is)) as Hpos.
    pose proof (proj2 (old_call_reads (proof_bytes p) (map scalar_word is) p is (word_bytes_ok _)) (conj Hp (conj Hl (conj eq_refl eq_refl)))) as HR.
    pose proof (old_outcome_spec keccak in_g2 pairing _ code Hpos k Hok Hk p is HR Hd Hg initial_memory) as H.
    change (in_g2 (k_g2 k) && in_g2 (k_neg_s_g2 k) && pairing [(opening_point k is p (challenges_of (hs keccak k p is)), k_g2 k); (p_w' p, k_neg_s_g2 k)])
      with (accepted in_g2 pairing k p (opening_point k is p (challenges_of (hs keccak k p is)))).
    destruct (accepted in_g2 pairing k p (opening_point k is p (challenges_of (hs keccak k p is))));
      [exact (old_verify_one _ _ H)|exact (old_verify_rev _ _ H)].
  Qed.
End Verdict.
