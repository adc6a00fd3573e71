(** The arithmetic part of the verifier, run by the EVM. *)
From Coq Require Import ZArith NArith List String Bool Lia.
From Verif.Base Require Import Fld Fp EC Primes Curves Group.
From Verif.Model Require Import Monad Evm Points PairingSol Dkg Yul Halo2VerifierSol VerifierCall.
From Verif.Spec Require Import Plonk.
From Verif.Proofs Require Import InstanceProofs OnchainProofs YulSim YulSym YulFuel VerifierSetup VerifierTools VerifierGates VerifierLagrange VerifierOpen
  VerifierAlgebra VerifierBatch VerifierLagRun VerifierLagAlg.
Import ListNotations.
Open Scope string_scope.
Open Scope Z_scope.

Lemma some_eq {A} (a b : A) : Some a = Some b -> a = b.
Proof. intros E. injection E. auto. Qed.

Section Run.
  Variable vka : Z. (* the address of the key *)
  Variable keccak : bytes -> Z.
  Variable in_g2 : G2c -> bool.
  Variable pairing : list (G1 * G2c) -> bool.
  Variable calldata : list Z.
  Variable code : Z -> list Z.
  Variable lim : nat. (* the bound on loop iterations *)
  Hypothesis lim_ok : (LIMIT <= lim)%nat.
  Variable pt : Z -> G1.
  Variable ev : Z -> Fr.
  Hypothesis Hcd : forall a v, scd Fr G1 pt ev a = Some v -> exists z, cd_load calldata a = Some z /\ rel v z.
  Variable kc : nat -> Z.
  Variable vkp : Z -> G1.
  Variables n_inv omega omega_inv omega_inv_l : Fr.
  Variables theta beta gamma y x zeta nu mu : Fr.
  Notation B := (EVM keccak in_g2 pairing calldata code).
  Notation A := (SM Fr fr G1 (@gadd G1) g1smul pt ev).
  Notation sb := (sbase Fr G1 kc vkp n_inv omega omega_inv omega_inv_l theta beta gamma y x zeta nu mu).
  Notation e0 := (senv Fr fr G1 (@gadd G1) g1smul pt ev vka).
  Notation Renv := (Renv keccak in_g2 pairing calldata code (scd Fr G1 pt ev)).
  Definition holds (w : list (Z * sv Fr G1)) (m : mem) : Prop := Rm (Smem w sb True) m.
  (** run on the EVM from any state described by [en], [w], the program goes on to a state described by [en'], [w'] *)
  Definition tr (en : vars A) (w : list (Z * sv Fr G1)) (l : list stmt) (en' : vars A) (w' : list (Z * sv Fr G1)) : Prop :=
    forall e m, Renv en e -> holds w m ->
      exists e' m', run B lim functions e m l = Cont e' m' /\ Renv en' e' /\ holds w' m'.
  Lemma covers_holds w m m' : covers sb w m -> Rm m m' -> holds w m'.
  Proof.
    intros (_ & Hb & H1 & H2) HR a v E. unfold slook in E. cbn [wr bs] in E. apply HR. unfold slook.
    destruct (alook a w) as [u|] eqn:Eu.
    - injection E as ->. rewrite (H1 _ _ Eu). reflexivity.
    - destruct (alook a (wr m)) as [u|] eqn:Ew.
      + assert (N0 : alook a (wr m) <> None) by (rewrite Ew; discriminate). specialize (H2 a N0 Eu). congruence.
      + rewrite Hb. exact E.
  Qed.
  Lemma reaches_tr en w l en' w' : reaches Fr fr G1 (@gadd G1) g1smul pt ev sb en w l en' w' -> tr en w l en' w'.
  Proof.
    intros (m1 & E & Cv) e m He Hm.
    destruct (sym_sound keccak in_g2 pairing calldata code (scd Fr G1 pt ev) Hcd LIMIT functions l en e _ m en' m1 He Hm E (proj1 Cv))
      as (e' & m' & R & He' & Hm').
    exists e', m'. split; [exact (run_more_cont _ _ _ _ _ _ _ _ _ lim_ok R)|]. split; [exact He'|]. exact (covers_holds _ _ _ Cv Hm').
  Qed.
  Lemma tr_nil en w : tr en w [] en w.
  Proof. intros e m He Hm. exists e, m. split; [reflexivity|]. auto. Qed.
  Lemma tr_app en w l en1 w1 l' en2 w2 : tr en w l en1 w1 -> tr en1 w1 l' en2 w2 -> tr en w (l ++ l') en2 w2.
  Proof.
    intros H1 H2 e m He Hm. destruct (H1 e m He Hm) as (e1 & m1 & R1 & He1 & Hm1). destruct (H2 e1 m1 He1 Hm1) as (e2 & m2 & R2 & He2 & Hm2).
    exists e2, m2. split; [|auto]. unfold run in *. rewrite exec_app, R1. cbn [cont]. exact R2.
  Qed.
  Lemma tr_block en w l en' w' : tr en w l en' w' -> tr en w [Block l] (skipn (List.length en' - List.length en) en') w'.
  Proof.
    intros H e m He Hm. destruct (H e m He Hm) as (e1 & m1 & R1 & He1 & Hm1).
    exists (skipn (List.length en' - List.length en) e1), m1. split; [|split; [|exact Hm1]].
    - unfold run in *. rewrite exec_cons, step_block, R1. cbn [leave cont exec].
      pose proof (Re_length _ _ _ _ _ He) as L. pose proof (Re_length _ _ _ _ _ He1) as L1.
      unfold vars in *. cbn [val SYM SM EVM] in *. rewrite L, L1. reflexivity.
    - apply skipn_Re. exact He1.
  Qed.
  Lemma tr_eq (en : vars A) w l (en' : vars A) w' (j : list (Z * sv Fr G1)) : sexec Fr fr G1 (@gadd G1) g1smul pt ev en (Smem w sb True) l = Cont (M := A) en' (Smem (w' ++ j)%list sb True) ->
    covers sb w' (Smem (w' ++ j)%list sb True) -> tr en w l en' w'.
  Proof. intros E Cv. apply reaches_tr. eexists; split; [exact E|exact Cv]. Qed.
  Lemma covers_refl w : covers sb w (Smem (w ++ [])%list sb True).
  Proof. apply covers_app. reflexivity. Qed.

  Lemma tr_06_gen xn_ i_ ll lb l0 ie : tr e0 (lag_words Fr G1 xn_ i_ ll lb l0 ie) [main_06] e0
    [(0x12e0, F xn_); (0x13a0, F (numerator Fr fr ev theta beta gamma y x ll lb l0 ie * i_)%fld)].
  Proof.
    apply reaches_tr. exact (reach_main_06 vka Fr fr eq_refl G1 (@gadd G1) g1smul pt ev kc vkp n_inv omega omega_inv omega_inv_l theta beta gamma y x zeta nu mu _ _ _ _ _ _).
  Qed.
  Lemma tr_07_gen xn_ h : tr e0 [(0x12e0, F xn_); (0x13a0, F h)] [main_07] e0 (W0 Fr G1 h (quotient Fr G1 (@gadd G1) g1smul pt xn_)).
  Proof.
    apply reaches_tr. exact (run_main_07 vka Fr fr G1 (@gadd G1) g1smul pt ev kc vkp n_inv omega omega_inv omega_inv_l theta beta gamma y x zeta nu mu xn_ h).
  Qed.
  Lemma block_08 : main_08 = Block (part 0 2 main_08 ++ part 2 7 main_08 ++ part 7 8 main_08 ++ part 8 18 main_08 ++ part 18 19 main_08 ++ part 19 20 main_08).
  Proof. reflexivity. Qed.
  Notation P := (pts Fr omega omega_inv x).
  Notation D := (fun i : nat => (mu + - P i)%fld).
  Notation U := (binv (coefs Fr fr P D) 11).
  Notation SC := (scales Fr D (U 0%nat)).
  Notation R hev := (VerifierOpen.total Fr nu (revals Fr fr ev zeta hev SC U) (binv (sums Fr fr U) 4)).
  Lemma tr_08 (h : Fr) (Hp : G1) : tr e0 (W0 Fr G1 h Hp) [main_08] e0
    (w6 Fr G1 (msm Fr G1 (@gadd G1) g1smul pt vkp zeta nu mu Hp (D 1%nat * D 2%nat * D 3%nat)%fld SC (R h)) (pt 0x11c4)).
  Proof.
    rewrite block_08. refine (tr_block e0 _ _ e0 _ _).
    refine (tr_app _ _ _ _ _ _ _ _ (reaches_tr _ _ _ _ _ (o0 vka Fr fr G1 (@gadd G1) g1smul pt ev kc vkp n_inv omega omega_inv omega_inv_l theta beta gamma y x zeta nu mu h Hp)) _).
    refine (tr_app _ _ _ _ _ _ _ _ (reaches_tr _ _ _ _ _ (o1 vka Fr fr G1 (@gadd G1) g1smul pt ev kc vkp n_inv omega omega_inv omega_inv_l theta beta gamma y x zeta nu mu h Hp _ _)) _).
    refine (tr_app _ _ _ _ _ _ _ _ (reaches_tr _ _ _ _ _ (o2 vka Fr fr G1 (@gadd G1) g1smul pt ev kc vkp n_inv omega omega_inv omega_inv_l theta beta gamma y x zeta nu mu h Hp _ _)) _).
    refine (tr_app _ _ _ _ _ _ _ _ (reaches_tr _ _ _ _ _ (o3 vka Fr fr G1 (@gadd G1) g1smul pt ev kc vkp n_inv omega omega_inv omega_inv_l theta beta gamma y x zeta nu mu h Hp _ _ _)) _).
    refine (tr_app _ _ _ _ _ _ _ _ (reaches_tr _ _ _ _ _ (o5 vka Fr fr G1 (@gadd G1) g1smul pt ev kc vkp n_inv omega omega_inv omega_inv_l theta beta gamma y x zeta nu mu h Hp _ _ _ _)) _).
    exact (reaches_tr _ _ _ _ _ (o6 vka Fr fr G1 (@gadd G1) g1smul pt ev kc vkp n_inv omega omega_inv omega_inv_l theta beta gamma y x zeta nu mu h Hp _ _ _)).
  Qed.
  (** *** The Lagrange part *)
  Variables N d : nat. (* the number of instances and the binary logarithm of the number of rows *)
  Hypothesis N_lim : (N + 8 < lim)%nat.
  Hypothesis d_lim : (d < lim)%nat.
  Hypothesis N_big : 64 * Z.of_nat N + 0x12e0 + 2048 < BIG.
  Hypothesis d_big : Z.of_nat d < BIG.
  Hypothesis kc_1 : kc 1%nat = Z.of_nat N.
  Hypothesis kc_2 : kc 2%nat = Z.of_nat d.
  Notation iv := (fun i : nat => ev (0x1224 + 32 * Z.of_nat i)).
  Hypothesis Hinst : forall i, (i < N)%nat -> cd_load calldata (0x1224 + 32 * Z.of_nat i) = Some (vr (iv i)).
  Definition insts_n : list Fr := map iv (seq 0 N).
  Notation sqx := (Nat.iter d (VerifierLagrange.sq Fr) x).
  Notation T := (lt_ N n_inv omega omega_inv_l sqx (binv (den N omega omega_inv_l x sqx) (Nat.max N 1 + 6))).
  Lemma env_E0 e : Renv e0 e -> e = E0 keccak in_g2 pairing calldata code vka.
  Proof.
    unfold YulSym.Renv, Re, senv. intros HF. inversion HF as [|? [n1 v1] ? ? [F1 R1] HF1]; subst. inversion HF1 as [|? [n2 v2] ? ? [F2 R2] HF2]; subst.
    inversion HF2 as [|? [n3 v3] ? ? [F3 R3] HF3]; subst. inversion HF3 as [|? [n4 v4] ? ? [F4 R4] HF4]; subst. inversion HF4; subst.
    cbn [fst snd rel] in *. subst. reflexivity.
  Qed.
  Lemma E0_env : Renv e0 (E0 keccak in_g2 pairing calldata code vka).
  Proof. unfold YulSym.Renv, Re, senv, E0. repeat constructor. Qed.
  Lemma tr_05_gen : tr e0 [] [main_05] e0 (lag_words Fr G1 sqx (T (Nat.max N 1 + 6)%nat) (T 0%nat) (bl T 4) (T 6%nat) (ie iv T N)).
  Proof.
    intros e m He Hm. apply env_E0 in He. subst e.
    assert (H1 := Hm 0x6e0 _ eq_refl). assert (H2 := Hm 0x700 _ eq_refl). assert (H3 := Hm 0x720 _ eq_refl).
    assert (H4 := Hm 0x740 _ eq_refl). assert (H5 := Hm 0x780 _ eq_refl). assert (H6 := Hm 0x11e0 _ eq_refl). cbn [rel] in *.
    destruct (main_05_run keccak in_g2 pairing calldata code lim vka N d N_lim d_lim N_big d_big n_inv omega omega_inv_l x iv Hinst m
      (eq_trans H1 kc_1) (eq_trans H2 kc_2) H3 H4 H5 H6) as (m' & R & Q).
    exists (E0 keccak in_g2 pairing calldata code vka), m'. split; [exact R|]. split; [exact E0_env|].
    destruct Q as (K & Q0 & Q1 & Q2 & Q3 & Q4 & Q5). intros a v E. unfold slook in E. cbn [wr bs] in E.
    revert E. unfold lag_words. cbn [alook].
    destruct (Z.eqb_spec a 0x12e0) as [->|_]; [intros E; apply some_eq in E; subst v; exact Q0|].
    destruct (Z.eqb_spec a 0x1300) as [->|_]; [intros E; apply some_eq in E; subst v; exact Q1|].
    destruct (Z.eqb_spec a 0x1320) as [->|_]; [intros E; apply some_eq in E; subst v; exact Q2|].
    destruct (Z.eqb_spec a 0x1340) as [->|_]; [intros E; apply some_eq in E; subst v; exact Q3|].
    destruct (Z.eqb_spec a 0x1360) as [->|_]; [intros E; apply some_eq in E; subst v; exact Q4|].
    destruct (Z.eqb_spec a 0x1380) as [->|_]; [intros E; apply some_eq in E; subst v; exact Q5|].
    intros E. rewrite (K a (sbase_low _ _ _ _ _ _ _ _ _ _ _ _ _ _ _ _ _ _ E)). apply Hm. exact E.
  Qed.
  (** whatever the challenges are, the verifier reaches the pairing with some point and the last point of the proof *)
  Theorem arithmetic_any : exists L, tr e0 [] [main_05; main_06; main_07; main_08] e0 (w6 Fr G1 L (pt 0x11c4)).
  Proof.
    eexists.
    change [main_05; main_06; main_07; main_08] with ([main_05] ++ [main_06] ++ [main_07] ++ [main_08])%list.
    refine (tr_app _ _ _ _ _ _ _ _ tr_05_gen _). refine (tr_app _ _ _ _ _ _ _ _ (tr_06_gen _ _ _ _ _ _) _).
    refine (tr_app _ _ _ _ _ _ _ _ (tr_07_gen _ _) _). exact (tr_08 _ _).
  Qed.

  Variable dom : BinNums.N.
  Hypothesis dom_d : dom = (2 ^ N.of_nat d)%N.
  Notation xn := (fpow x dom).
  Hypothesis omega_l : (omega_inv_l * fpow omega 6 = 1)%fld.
  Hypothesis omega_n : (fpow omega dom = 1)%fld.
  Hypothesis x_n : (fpow x dom <> 1)%fld.
  Lemma fr_m1 : fr (r_mod - 1) = (fopp f1 : Fr).
  Proof. exact (of_Z_eq r_mod _ _ (neg_mod r_mod 1)). Qed.
  Definition lag_n : list (Z * sv Fr G1) :=
    lag_words Fr G1 xn (finv (xn - f1)%fld) (l_last Fr omega dom n_inv x) (l_blind Fr omega dom n_inv x) (l_0 Fr dom n_inv x)
      (instance_at Fr omega dom n_inv insts_n x).
  Lemma tr_05 : tr e0 [] [main_05] e0 lag_n.
  Proof.
    pose proof tr_05_gen as R. unfold lag_n, insts_n. pose proof omega_n as on. pose proof x_n as xx. rewrite dom_d in on, xx |- *.
    rewrite <- (g_inv Fr (fr (r_mod - 1)) n_inv omega omega_inv_l x N d fr_m1 omega_l on xx).
    rewrite <- (g_last Fr (fr (r_mod - 1)) n_inv omega omega_inv_l x N d fr_m1 omega_l on xx).
    rewrite <- (g_blind Fr (fr (r_mod - 1)) n_inv omega omega_inv_l x N d fr_m1 omega_l on xx).
    rewrite <- (g_0 Fr (fr (r_mod - 1)) n_inv omega omega_inv_l x N d fr_m1 omega_l on xx).
    rewrite <- (g_insts Fr (fr (r_mod - 1)) n_inv omega omega_inv_l x N d iv fr_m1 omega_l on xx).
    rewrite <- (xn_pow Fr x d). exact R.
  Qed.
  Notation hev := (numerator Fr fr ev theta beta gamma y x (l_last Fr omega dom n_inv x) (l_blind Fr omega dom n_inv x)
     (l_0 Fr dom n_inv x) (instance_at Fr omega dom n_inv insts_n x) * finv (xn - 1))%fld.
  Notation H := (quotient Fr G1 (@gadd G1) g1smul pt xn).
  (** the points the opening is made at are distinct and different from mu *)
  Notation pr := (pr Fr omega omega_inv x).
  Hypothesis d_nz : forall r, (mu - pr r <> 0)%fld.
  Hypothesis p_nz : forall r r', r <> r' -> (pr r - pr r' <> 0)%fld.
  Definition LHS : G1 := linearised Fr G1 g1smul pr (ei Fr ev hev) (cm G1 pt vkp H) (vkp 0x820) zeta nu mu (pt 0x1184) (pt 0x11c4).
  Lemma smul_laws : (forall (a b : Fr) Q, g1smul (a + b)%fld Q = (g1smul a Q ⊕ g1smul b Q)%grp) /\
    (forall (a b : Fr) Q, g1smul (a * b)%fld Q = g1smul a (g1smul b Q)) /\
    (forall (a : Fr) Q Q', g1smul a (Q ⊕ Q')%grp = (g1smul a Q ⊕ g1smul a Q')%grp) /\ (forall Q, g1smul (f1 : Fr) Q = Q).
  Proof.
    repeat split; intros.
    - exact (smul_add G1 r_mod r_prime G1_exponent a b Q).
    - exact (smul_mul G1 r_mod r_prime G1_exponent a b Q).
    - exact (smul_gadd G1 r_mod r_prime a Q Q').
  Qed.
  Theorem arithmetic : tr e0 [] [main_05; main_06; main_07; main_08] e0 (w6 Fr G1 LHS (pt 0x11c4)).
  Proof.
    change [main_05; main_06; main_07; main_08] with ([main_05] ++ [main_06] ++ [main_07] ++ [main_08])%list.
    refine (tr_app _ _ _ _ _ _ _ _ tr_05 _). refine (tr_app _ _ _ _ _ _ _ _ (tr_06_gen _ _ _ _ _ _) _). refine (tr_app _ _ _ _ _ _ _ _ (tr_07_gen _ _) _).
    destruct smul_laws as (L1 & L2 & L3 & L4).
    unfold LHS. rewrite <- (msm_ok Fr G1 g1smul L1 L2 L3 L4 fr eq_refl eq_refl pt ev vkp omega omega_inv x zeta nu mu hev H d_nz p_nz).
    exact (tr_08 hev H).
  Qed.
End Run.
