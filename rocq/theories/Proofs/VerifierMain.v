(** The verifier from beginning to end. *)
From Coq Require Import ZArith NArith List String Bool Lia.
From Verif.Base Require Import Fld Fp EC Primes Curves Group.
From Verif.Model Require Import Monad Evm Points PairingSol Yul Halo2VerifierSol VerifierCall.
From Verif.Spec Require Import Plonk PlonkVerifier.
From Verif.Proofs Require Import HashSolProofs InstanceProofs OnchainProofs YulSim YulSym YulCon YulFuel VerifierSetup VerifierTools VerifierGates
  VerifierLagrange VerifierOpen VerifierAlgebra VerifierRun VerifierFront VerifierTail VerifierKey VerifierInput VerifierPoints VerifierTop
  VerifierSpec VerifierBatch VerifierHead.
Import ListNotations.
Open Scope string_scope.
Open Scope Z_scope.

Lemma loaded_key n vbin v8 kec cdw kc i : (i < 85)%nat -> In (0x6c0 + 32 * Z.of_nat i, YulCon.K (nth i (shape kc) 0)) (loaded n vbin v8 kec cdw kc).
Proof.
  intros Hi. apply in_or_app. left. apply in_map_iff. exists (i, nth i (shape kc) 0). split; [reflexivity|].
  assert (E : nth i (combine (seq 0 85) (shape kc)) (0%nat, 0) = (i, nth i (shape kc) 0)).
  { rewrite combine_nth by reflexivity. rewrite seq_nth by exact Hi. reflexivity. }
  rewrite <- E. apply nth_In. rewrite combine_length, seq_length. exact Hi.
Qed.
Lemma loaded_chal n vbin v8 kec cdw kc i : (i < 8)%nat ->
  In (0x1160 + 32 * Z.of_nat i, YulCon.V (vbin MOD (nth i (chal_words n v8 kec cdw kc) 0) r_mod)) (loaded n vbin v8 kec cdw kc).
Proof.
  intros Hi. apply in_or_app. right. apply in_map_iff. exists (i, nth i (chal_words n v8 kec cdw kc) 0). split; [reflexivity|].
  assert (E : nth i (combine (seq 0 8) (chal_words n v8 kec cdw kc)) (0%nat, 0) = (i, nth i (chal_words n v8 kec cdw kc) 0)).
  { rewrite combine_nth by reflexivity. rewrite seq_nth by exact Hi. reflexivity. }
  rewrite <- E. apply nth_In. rewrite combine_length, seq_length. exact Hi.
Qed.
Lemma look_loaded mm (l : list (Z * cv)) a v : map (fun p => zlook (fst p) mm) l = map (fun p => Some (snd p)) l -> In (a, v) l -> zlook a mm = Some v.
Proof.
  induction l as [|q l IH]; intros E H; [destruct H|destruct H as [H|H]].
  - subst q. exact (f_equal (hd None) E). - exact (IH (f_equal (@tl _) E) H).
Qed.
Lemma main_parts : main = (front ++ [main_04] ++ [main_05; main_06; main_07; main_08] ++ tail)%list. Proof. reflexivity. Qed.

Lemma decode_two in_g2 x1 y1 a1 b1 c1 d1 x2 y2 a2 b2 c2 d2 P1 P2 Q1 Q2 :
  decode (x1, y1) = Some P1 -> decode2 b1 a1 d1 c1 = Some Q1 -> decode (x2, y2) = Some P2 -> decode2 b2 a2 d2 c2 = Some Q2 ->
  decode_pairs in_g2 [x1; y1; a1; b1; c1; d1; x2; y2; a2; b2; c2; d2] =
  if in_g2 Q1 && in_g2 Q2 then Some [(P1, Q1); (P2, Q2)] else None.
Proof.
  intros H1 H2 H3 H4. cbn [decode_pairs]. rewrite H1, H2, H3, H4. destruct (in_g2 Q2), (in_g2 Q1); reflexivity.
Qed.

Lemma seq_from s : forall n, seq s n = map (fun i => s + i)%nat (seq 0 n).
Proof.
  intros n. apply (nth_ext _ _ 0%nat 0%nat); [rewrite map_length, !seq_length; reflexivity|rewrite seq_length].
  intros i Hi. symmetry. rewrite (nth_indep _ 0%nat (s + 0)%nat) by (rewrite map_length, seq_length; exact Hi).
  rewrite (map_nth (fun i => s + i)%nat), !seq_nth by exact Hi. reflexivity.
Qed.

Section RunApp.
  Variable M : machine.
  Variables (lim : nat) (fs : list (string * func)).
  Lemma run_cont e m l e' m' l' : run M lim fs e m l = Cont e' m' -> run M lim fs e m (l ++ l') = run M lim fs e' m' l'.
  Proof. unfold run. intros E. rewrite exec_app, E. reflexivity. Qed.
  Lemma run_rev e m l l' : run M lim fs e m l = Rev -> run M lim fs e m (l ++ l') = Rev.
  Proof. unfold run. intros E. rewrite exec_app, E. reflexivity. Qed.
End RunApp.

Section Looks.
  Variable K : Fld.
  Variable G : Type.
  Variable kc : nat -> Z.
  Variable vkp : Z -> G.
  Variables n_inv omega omega_inv omega_inv_l theta beta gamma y x zeta nu mu : K.
  Notation sb := (sbase K G kc vkp n_inv omega omega_inv omega_inv_l theta beta gamma y x zeta nu mu).
  Variables L R : G.
  Notation S := (Smem (w6 K G L R) sb True).
  Definition final_words : list (Z * sv K G) :=
    [(0x7a0, C 0); (0x1420, X L); (0x1440, Y L); (0x1460, X R); (0x1480, Y R); (0x860, C (kc 13)); (0x880, C (kc 14)); (0x8a0, C (kc 15));
     (0x8c0, C (kc 16)); (0x8e0, C (kc 17)); (0x900, C (kc 18)); (0x920, C (kc 19)); (0x940, C (kc 20))].
  Lemma final_look : map (fun q => slook S (fst q)) final_words = map (fun q => Some (snd q)) final_words.
  Proof. reflexivity. Qed.
  Lemma final_in a v : In (a, v) final_words -> slook S a = Some v.
  Proof.
    generalize final_look. generalize final_words. intros l. induction l as [|q l IH]; intros E H; [destruct H|].
    destruct H as [->|H]; [exact (f_equal (hd None) E)|exact (IH (f_equal (@tl _) E) H)].
  Qed.
End Looks.

Section Main.
  Variable keccak : bytes -> Z.
  Variable in_g2 : G2c -> bool.
  Variable pairing : list (G1 * G2c) -> bool.
  Variable calldata : list Z.
  Variable code : Z -> list Z.
  Hypothesis Hpos : Forall (fun w => 0 <= w) calldata.
  Variable vka : Z.
  Variable k : vkey.
  Hypothesis Hok : key_ok k.
  Hypothesis Hcode : code vka = key_words k.
  Variable lim : nat.
  Hypothesis lim_ok : (LIMIT <= lim)%nat.
  Hypothesis n_lim : (k_instances k + 8 < lim)%nat.
  Hypothesis d_lim : (k_degree k < lim)%nat.
  Notation B := (EVM keccak in_g2 pairing calldata code).
  Notation cdw := (e_cdw calldata).
  Notation chals := (chal_words (k_instances k) (e_v8) (e_kec keccak) cdw (kwd k)).
  Lemma code_shape : code vka = shape (kwd k). Proof. rewrite Hcode. exact (key_shape k Hok). Qed.
  Definition outcome_of (m0 : mem) : outcome B := run B lim functions [("vk", vka)] m0 main.
  Notation n := (k_instances k).
  Lemma n_big : 64 * Z.of_nat n + 0x12e0 + 2048 < BIG.
  Proof. destruct Hok as (_ & _ & H & _). change BIG with (2 ^ 80). clear -H. lia. Qed.
  Lemma d_big : Z.of_nat (k_degree k) < BIG.
  Proof. destruct Hok as (_ & _ & _ & H). change BIG with (2 ^ 80). clear -H. lia. Qed.
  Lemma head_words : e_kec keccak (kwd k 0 :: map (wv calldata n) (seq 0 (n + 10))) None = c_th n (e_kec keccak) cdw (kwd k).
  Proof.
    unfold c_th. f_equal. change ([kwd k 0] ++ ?l)%list with (kwd k 0 :: l). f_equal. rewrite seq_app, map_app. f_equal.
    - unfold ins, inst_addrs. rewrite map_map. apply map_ext_in. intros i Hi. apply in_seq in Hi. unfold wv.
      replace (Nat.ltb i n) with true by (symmetry; apply Nat.ltb_lt; lia). reflexivity.
    - unfold prf. change (10 - 0)%nat with 10%nat. change (0 + n)%nat with n. rewrite (seq_from n 10), map_map. apply map_ext. intros i. unfold wv.
      replace (Nat.ltb (n + i) n) with false by (symmetry; apply Nat.ltb_ge; lia). do 4 f_equal. lia.
  Qed.
  Lemma head_flags : ((([word_bin EQ 0x1180 (cdw 0x64); word_bin EQ (Z.of_nat n) (cdw 0x1204)] ++ inst_flags calldata n ++ pts_flags calldata 5) ++
    later_checks word_bin word_ter cdw) = all_checks n word_bin word_ter cdw)%list.
  Proof.
    unfold all_checks, inst_flags, inst_addrs. rewrite map_map, <- !app_assoc. reflexivity.
  Qed.
  Lemma block_03 : main_03 = Block (block_body main_03). Proof. reflexivity. Qed.
  Lemma split_03 : block_body main_03 = (part 0 12 main_03 ++ skipn 12 (block_body main_03))%list. Proof. reflexivity. Qed.
  Lemma front_run (m0 : mem) : exists (z : Z) (m : mem),
    run B lim functions [("vk", vka)] m0 front =
      Cont (M := B) [("success", flag (forallb (fun b => b) (bchecks (k_instances k) cdw))); ("r", r_mod); ("q", q_mod); ("vk", z)] m /\
    (forall i, (i < 85)%nat -> m (0x6c0 + 32 * Z.of_nat i) = kwd k i) /\
    (forall i, (i < 8)%nat -> m (0x1160 + 32 * Z.of_nat i) = nth i chals 0 mod r_mod).
  Proof.
    assert (E0 : exec B (run_func B lim functions) lim [("vk", vka)] m0 [main_00; main_01; main_02] = Cont (M := B) (Eb keccak in_g2 pairing calldata code vka 1) m0) by reflexivity.
    destruct (head_run keccak in_g2 pairing calldata code lim vka n n_lim n_big (kwd k 0) (skipn 2 (key_words k)) Hcode m0) as (m1 & R1 & Q0 & Q1).
    rewrite head_words in Q0, Q1.
    set (s1 := fold_left (word_bin AND) _ _) in R1.
    set (th := c_th n (e_kec keccak) cdw (kwd k)) in *.
    destruct (run_rest word_bin word_ter e_v8 (e_kec keccak) cdw (kwd k) th s1 (0x1224 + 32 * Z.of_nat n) (Z.of_nat n)) as (e & mm & E & L).
    assert (He0 : Re (CON word_bin word_ter e_v8 (e_kec keccak) cdw (shape (kwd k))) B (crel code (shape (kwd k)))
        (rest_env word_bin word_ter e_v8 (e_kec keccak) cdw (kwd k) (Z.of_nat n) s1 (0x1224 + 32 * Z.of_nat n)) (q_env keccak in_g2 pairing calldata code vka n s1)).
    { repeat (constructor; [split; [reflexivity|first [reflexivity|exact code_shape]]|]). constructor. }
    assert (Hm0 : Rc code (shape (kwd k)) [(0, V th); (0x1160, V (word_bin MOD th r_mod))] m1).
    { intros a v Ev. cbn [zlook] in Ev. destruct (Z.eqb_spec a 0) as [->|_]; [apply some_inj in Ev; subst v; exact Q0|].
      destruct (Z.eqb_spec a 0x1160) as [->|_]; [apply some_inj in Ev; subst v; exact Q1|discriminate Ev]. }
    destruct (con_sound keccak in_g2 pairing calldata code (shape (kwd k)) cdw (fun _ _ => eq_refl) LIMIT functions _ _ _ _ _ _ _ He0 Hm0 E) as (e1 & m2 & R2 & He & Hm).
    apply (run_more_cont _ _ lim _ _ _ _ _ _ lim_ok) in R2.
    pose proof (skipn_Re _ _ _ (List.length e) _ _ He) as Ht. rewrite skipn_app, skipn_all, Nat.sub_diag in Ht. change (skipn 0 ?l) with l in Ht. cbn [app] in Ht.
    pose proof (Re_length _ _ _ _ _ He) as Le. rewrite app_length in Le. change (List.length [("success", _); ("r", _); ("q", _); ("vk", _)]) with 4%nat in Le.
    assert (Es : fold_left (word_bin AND) (later_checks word_bin word_ter cdw) s1 = flag (forallb (fun b => b) (bchecks n cdw))).
    { unfold s1. rewrite <- fold_left_app. rewrite head_flags. rewrite checks_flags. change 1 with (flag true). rewrite fold_flags. reflexivity. }
    rewrite Es in Ht. set (tl := skipn (List.length e) e1) in *.
    assert (Etl : exists z, tl = [("success", flag (forallb (fun b => b) (bchecks n cdw))); ("r", r_mod); ("q", q_mod); ("vk", z)]).
    { clear -Ht. inversion Ht as [|[? ?] [n1 v1] ? e2 [N1 V1] He2]; subst. inversion He2 as [|[? ?] [n2 v2] ? e3 [N2 V2] He3]; subst.
      inversion He3 as [|[? ?] [n3 v3] ? e4 [N3 V3] He4]; subst. inversion He4 as [|[? ?] [n4 v4] ? e5 [N4 V4] He5]; subst.
      inversion He5; subst. cbn [fst snd crel] in *. subst. exists v4. reflexivity. }
    destruct Etl as (z & Etl). exists z, m2. split; [|split].
    - rewrite <- Etl. unfold run. change front with ([main_00; main_01; main_02] ++ [main_03])%list. rewrite exec_app, E0. cbn [cont].
      rewrite block_03, exec_cons, step_block, split_03, exec_app, R1. cbn [cont]. unfold run in R2. rewrite R2. cbn [leave cont exec].
      change (List.length (Eb keccak in_g2 pairing calldata code vka 1)) with 4%nat.
      replace (List.length e1 - 4)%nat with (List.length e) by (clear -Le; lia). reflexivity.
    - intros i Hi. unfold kwd. rewrite (key_shape k Hok). exact (Hm _ _ (look_loaded _ _ _ _ L (loaded_key n _ _ _ _ _ i Hi))).
    - intros i Hi. exact (Hm _ _ (look_loaded _ _ _ _ L (loaded_chal n _ _ _ _ _ i Hi))).
  Qed.
  Lemma check_stmt s z (m : mem) : run B lim functions [("success", flag s); ("r", r_mod); ("q", q_mod); ("vk", z)] m [main_04] =
    if s then Cont (M := B) [("success", flag s); ("r", r_mod); ("q", q_mod); ("vk", z)] m else Rev.
  Proof. destruct s; reflexivity. Qed.
  Lemma rejects (m0 : mem) : ~ inputs_ok (k_instances k) cdw -> outcome_of m0 = Rev.
  Proof.
    intros H. destruct (front_run m0) as (z & m & R & _).
    assert (E : forallb (fun b => b) (bchecks (k_instances k) cdw) = false).
    { destruct (forallb (fun b => b) (bchecks (k_instances k) cdw)) eqn:E; [|reflexivity].
      exfalso. apply H. apply (checks_ok (k_instances k) cdw (cdw_pos calldata Hpos)). exact E. }
    rewrite E in R. unfold outcome_of. rewrite main_parts, (run_cont B lim functions _ _ front _ _ _ R).
    apply run_rev. exact (check_stmt false z m).
  Qed.

  Section Given.
    Variable p : proof.
    Variable insts : list Fr.
    Hypothesis HR : reads calldata (k_instances k) p insts.
    Notation c := (challenges_of (hs keccak k p insts)).
    Notation Holds := (holds (kwd k) (vkp k) (k_n_inv k) (k_omega k) (k_omega_inv k) (k_omega_inv_l k) (theta c) (beta c) (gamma c) (y c) (x c) (zeta c) (nu c) (mu c)).
    Notation Tr := (tr keccak in_g2 pairing calldata code lim (pt p) (ev p insts) (kwd k) (vkp k) (k_n_inv k) (k_omega k) (k_omega_inv k) (k_omega_inv_l k)
      (theta c) (beta c) (gamma c) (y c) (x c) (zeta c) (nu c) (mu c)).
    Notation e0 := (senv Fr fr G1 (@gadd G1) g1smul (pt p) (ev p insts)).
    Definition pairs (L : G1) : list (G1 * G2c) := [(L, k_g2 k); (p_w' p, k_neg_s_g2 k)].
    Definition accepted (L : G1) : bool := in_g2 (k_g2 k) && in_g2 (k_neg_s_g2 k) && pairing (pairs L).
    Lemma g2_of_key : decode2 (kwd k 14) (kwd k 13) (kwd k 16) (kwd k 15) = Some (k_g2 k).
    Proof. apply decode2_words. reflexivity. Qed.
    Lemma neg_of_key : decode2 (kwd k 18) (kwd k 17) (kwd k 20) (kwd k 19) = Some (k_neg_s_g2 k).
    Proof. apply decode2_words. reflexivity. Qed.
    Lemma pairs_of_mem (m : mem) L : Holds (w6 Fr G1 L (pt p 0x11c4)) m ->
      m 0x7a0 = 0 /\ decode_pairs in_g2 (pair_words m) = if in_g2 (k_g2 k) && in_g2 (k_neg_s_g2 k) then Some (pairs L) else None.
    Proof.
      intros H. assert (HH : forall i q, nth_error (final_words Fr G1 (kwd k) L (pt p 0x11c4)) i = Some q -> rel (snd q) (m (fst q))).
      { intros i [a v] Hq. apply nth_error_In in Hq. exact (H a v (final_in Fr G1 _ _ _ _ _ _ _ _ _ _ _ _ _ _ _ _ a v Hq)). }
      clear H.
      assert (E0 : m 0x7a0 = 0) by exact (HH 0%nat _ eq_refl).
      assert (L1 : m 0x1420 = px L) by exact (HH 1%nat _ eq_refl). assert (L2 : m 0x1440 = py L) by exact (HH 2%nat _ eq_refl).
      assert (R1 : m 0x1460 = px (p_w' p)) by exact (HH 3%nat _ eq_refl).
      assert (R2 : m 0x1480 = py (p_w' p)) by exact (HH 4%nat _ eq_refl).
      assert (G : m 0x860 = kwd k 13 /\ m 0x880 = kwd k 14 /\ m 0x8a0 = kwd k 15 /\ m 0x8c0 = kwd k 16).
      { repeat split; [exact (HH 5%nat _ eq_refl)|exact (HH 6%nat _ eq_refl)|exact (HH 7%nat _ eq_refl)|exact (HH 8%nat _ eq_refl)]. }
      assert (N0 : m 0x8e0 = kwd k 17 /\ m 0x900 = kwd k 18 /\ m 0x920 = kwd k 19 /\ m 0x940 = kwd k 20).
      { repeat split; [exact (HH 9%nat _ eq_refl)|exact (HH 10%nat _ eq_refl)|exact (HH 11%nat _ eq_refl)|exact (HH 12%nat _ eq_refl)]. }
      clear HH. split; [exact E0|]. destruct G as (G1 & G2 & G3 & G4). destruct N0 as (N1 & N2 & N3 & N4).
      unfold pair_words. apply decode_two.
      - rewrite L1, L2. exact (decode_enc L).
      - rewrite G1, G2, G3, G4. exact g2_of_key.
      - rewrite R1, R2. exact (decode_enc (p_w' p)).
      - rewrite N1, N2, N3, N4. exact neg_of_key.
    Qed.
    Notation body := [main_05; main_06; main_07; main_08].
    (** the outcome, once the arithmetic is known to arrive at some point *)
    Lemma outcome_given (m0 : mem) : exists z, forall L, Tr (e0 z) [] body (e0 z) (w6 Fr G1 L (pt p 0x11c4)) ->
      if accepted L then returns_one keccak in_g2 pairing calldata code (outcome_of m0) else outcome_of m0 = Rev.
    Proof.
      destruct (front_run m0) as (z & m & R & Mk & Mc). exists z. intros L HT.
      assert (Eb : forallb (fun b => b) (bchecks (k_instances k) cdw) = true).
      { apply (checks_ok (k_instances k) cdw (cdw_pos calldata Hpos)). exact (reads_inputs calldata (k_instances k) p insts HR). }
      rewrite Eb in R. cbn [flag] in R.
      assert (Hm : Holds [] m) by exact (base_ok keccak calldata k Hok p insts HR m Mk Mc).
      destruct (HT [("success", 1); ("r", r_mod); ("q", q_mod); ("vk", z)] m) as (e' & m' & R' & He & Hm').
      { repeat constructor. }
      { exact Hm. }
      assert (E' : e' = [("success", 1); ("r", r_mod); ("q", q_mod); ("vk", z)]).
      { clear -He. inversion He as [|[? ?] [n1 v1] ? e2 [N1 V1] He2]; subst. inversion He2 as [|[? ?] [n2 v2] ? e3 [N2 V2] He3]; subst.
        inversion He3 as [|[? ?] [n3 v3] ? e4 [N3 V3] He4]; subst. inversion He4 as [|[? ?] [n4 v4] ? e5 [N4 V4] He5]; subst.
        inversion He5; subst. cbn [fst snd rel] in *. subst. reflexivity. }
      subst e'. destruct (pairs_of_mem m' L Hm') as (H0 & HD).
      pose proof (run_tail keccak in_g2 pairing calldata code lim m' z H0) as HTl. cbv zeta in HTl. rewrite HD in HTl.
      assert (EO : outcome_of m0 = run B lim functions [("success", 1); ("r", r_mod); ("q", q_mod); ("vk", z)] m' tail).
      { unfold outcome_of. rewrite main_parts, (run_cont B lim functions _ _ front _ _ _ R).
        rewrite (run_cont B lim functions _ _ [main_04] _ _ _ (check_stmt true z m)).
        exact (run_cont B lim functions _ _ body _ _ _ R'). }
      rewrite EO. unfold accepted. destruct (in_g2 (k_g2 k) && in_g2 (k_neg_s_g2 k)); exact HTl.
    Qed.
    Lemma inst_words i : (i < k_instances k)%nat -> cd_load calldata (0x1224 + 32 * Z.of_nat i) = Some (vr (ev p insts (0x1224 + 32 * Z.of_nat i))).
    Proof.
      intros Hi. rewrite (cd_inst calldata (k_instances k) p insts HR). unfold ev. destruct (Z.ltb_spec (0x1224 + 32 * Z.of_nat i) 0x1200); [lia|].
      replace (0x1224 + 32 * Z.of_nat i - 0x1224) with (Z.of_nat i * 32) by lia. rewrite Z.div_mul, Nat2Z.id by lia. reflexivity.
    Qed.
    Lemma outcome_any (m0 : mem) : returns_one keccak in_g2 pairing calldata code (outcome_of m0) \/ outcome_of m0 = Rev.
    Proof.
      destruct (outcome_given m0) as (z & HO).
      destruct (arithmetic_any z keccak in_g2 pairing calldata code lim lim_ok (pt p) (ev p insts) (call_ok calldata (k_instances k) p insts HR) (kwd k) (vkp k) (k_n_inv k) (k_omega k)
        (k_omega_inv k) (k_omega_inv_l k) (theta c) (beta c) (gamma c) (y c) (x c) (zeta c) (nu c) (mu c)
        (k_instances k) (k_degree k) n_lim d_lim n_big d_big eq_refl eq_refl inst_words) as (L & HT).
      specialize (HO L HT). destruct (accepted L); [left|right]; exact HO.
    Qed.
    Hypothesis Hd : domain_ok k.
    Hypothesis Hg : generic k c.
    Lemma outcome_spec (m0 : mem) :
      if accepted (opening_point k insts p c) then returns_one keccak in_g2 pairing calldata code (outcome_of m0) else outcome_of m0 = Rev.
    Proof.
      destruct (outcome_given m0) as (z & HO). apply HO. clear HO. rewrite <- (lhs_ok k Hok p insts (len_insts calldata (k_instances k) p insts HR) c Hd).
      exact (arithmetic z keccak in_g2 pairing calldata code lim lim_ok (pt p) (ev p insts) (call_ok calldata (k_instances k) p insts HR) (kwd k) (vkp k) (k_n_inv k) (k_omega k)
        (k_omega_inv k) (k_omega_inv_l k) (theta c) (beta c) (gamma c) (y c) (x c) (zeta c) (nu c) (mu c)
        (k_instances k) (k_degree k) n_lim d_lim n_big d_big eq_refl eq_refl inst_words (domain k) eq_refl (wl_k k Hd) (full_k k Hd) (proj1 (proj2 Hg)) (d_k k c Hd Hg) (p_k k c Hd Hg)).
    Qed.
  End Given.
End Main.
