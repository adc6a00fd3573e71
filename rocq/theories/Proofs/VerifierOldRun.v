(** contracts/Halo2Verifier-3-5-g2.sol from beginning to end. *)
From Coq Require Import ZArith NArith List String Bool Lia.
From Verif.Base Require Import Fld Fp EC Primes Curves Group.
From Verif.Model Require Import Monad Evm Points PairingSol Dkg Yul Halo2VerifierSol VerifierCall Halo2VerifierOldSol.
From Verif.Spec Require Import Plonk PlonkVerifier.
From Verif.Proofs Require Import HashSolProofs InstanceProofs OnchainProofs YulSim YulSym YulCon YulMore VerifierSetup VerifierTools VerifierGates
  VerifierLagrange VerifierOpen VerifierAlgebra VerifierRun VerifierFront VerifierTail VerifierKey VerifierInput VerifierPoints VerifierTop
  VerifierSpec VerifierMain VerifierOldSym.
Import ListNotations.
Open Scope string_scope.
Open Scope Z_scope.

Definition old_front : list stmt := [old_main_00; old_main_01; old_main_02; old_main_03].
Definition old_word (i : nat) : Z := nth i old_key 0.

(** *** The front, on call data one word further to the left *)
Section Front.
  Variable vbin : binop -> Z -> Z -> Z.
  Variable vter : terop -> Z -> Z -> Z -> Z.
  Variable v8 : Z -> Z -> Z.
  Variable kec : list Z -> option (Z * Z) -> Z.
  Variable cdw : Z -> Z.
  Notation M := (CON vbin vter v8 kec (fun a => cdw (a + 32)) []).
  Lemma old_run_front : exists mm, run M LIMIT functions [("vk", YulCon.K 0)] [] old_front =
      Cont (M := M) [("success", V (fold_left (vbin AND) (all_checks 49 vbin vter cdw) 1)); ("r", YulCon.K r_mod); ("q", YulCon.K q_mod); ("vk", YulCon.K 0)] mm /\
    map (fun p => zlook (fst p) mm) (loaded 49 vbin v8 kec cdw old_word) = map (fun p => Some (snd p)) (loaded 49 vbin v8 kec cdw old_word).
  Proof.
    let m := eval lazy in (match run M LIMIT functions [("vk", YulCon.K 0)] [] old_front with Cont e m => m | _ => [] end) in
    exists m; split; reflexivity.
  Qed.
End Front.

Section Shift.
  Variable cdo : list Z.
  Lemma to_nat_shift a : 0 <= a -> Z.to_nat ((a + 32) / 32) = S (Z.to_nat (a / 32)).
  Proof.
    intros H. replace (a + 32) with (a + 1 * 32) by lia. rewrite Z.div_add by lia. pose proof (Z.div_pos a 32 H ltac:(lia)). lia.
  Qed.
  Lemma cdw_shift a : 0 <= a -> e_cdw (0 :: cdo) (a + 32) = e_cdw cdo a.
  Proof. intros H. unfold e_cdw. rewrite (to_nat_shift a H). reflexivity. Qed.
  Lemma cd_shift a z : 0 <= a -> cd_load (0 :: cdo) (a + 32) = Some z -> cd_load cdo a = Some z.
  Proof.
    intros H. unfold cd_load. replace (a + 32) with (a + 1 * 32) by lia. rewrite Z.mod_add by lia.
    replace (a + 1 * 32) with (a + 32) by lia. rewrite (to_nat_shift a H).
    replace (0 <=? a + 32) with true by (symmetry; apply Z.leb_le; lia). replace (0 <=? a) with true by (symmetry; apply Z.leb_le; lia).
    cbn [nth]. exact (fun E => E).
  Qed.
End Shift.
Lemma scd_low (K : Fld) (G : Type) (pt : Z -> G) (ev : Z -> K) a v : scd K G pt ev (a + 32) = Some v -> 0 <= a.
Proof.
  unfold scd, between. destruct (negb ((a + 32) mod 32 =? 4)); [discriminate|].
  destruct (Z.leb_spec 0x84 (a + 32)); [lia|]. cbn [andb]. destruct (Z.leb_spec 0x7c4 (a + 32)); [lia|]. cbn [andb].
  destruct (Z.leb_spec 0x1184 (a + 32)); [lia|]. cbn [andb]. destruct (Z.leb_spec 0x1224 (a + 32)); [lia|]. discriminate.
Qed.

Section Run.
  Variable keccak : bytes -> Z.
  Variable in_g2 : G2c -> bool.
  Variable pairing : list (G1 * G2c) -> bool.
  Variable cdo : list Z.
  Variable code : Z -> list Z.
  Variable pt : Z -> G1.
  Variable ev : Z -> Fr.
  Hypothesis Hcd : forall a v, scd Fr G1 pt ev a = Some v -> exists z, cd_load (0 :: cdo) a = Some z /\ rel v z.
  Lemma Hcd_o a v : scd Fr G1 pt ev (a + 32) = Some v -> exists z, cd_load cdo a = Some z /\ rel v z.
  Proof. intros E. destruct (Hcd _ _ E) as (z & E1 & R). exists z. split; [|exact R]. exact (cd_shift cdo a z (scd_low _ _ _ _ _ _ E) E1). Qed.
  Variable kc : nat -> Z.
  Variable vkp : Z -> G1.
  Variables n_inv omega omega_inv omega_inv_l : Fr.
  Variables theta beta gamma y x zeta nu mu : Fr.
  Notation B := (EVM keccak in_g2 pairing cdo code).
  Notation A := (SMo Fr fr G1 (@gadd G1) g1smul pt ev).
  Notation sb := (sbase Fr G1 (kcx kc) vkp n_inv omega omega_inv omega_inv_l theta beta gamma y x zeta nu mu).
  Notation e0 := (senv Fr fr G1 (@gadd G1) g1smul pt ev 0).
  Notation Renv := (Renv keccak in_g2 pairing cdo code (fun a => scd Fr G1 pt ev (a + 32))).
  Notation holds := (holds (kcx kc) vkp n_inv omega omega_inv omega_inv_l theta beta gamma y x zeta nu mu).
  Notation reaches_o := (reaches_o Fr fr G1 (@gadd G1) g1smul pt ev kc vkp n_inv omega omega_inv omega_inv_l theta beta gamma y x zeta nu mu).
  Definition tro (en : vars A) (w : list (Z * sv Fr G1)) (l : list stmt) (en' : vars A) (w' : list (Z * sv Fr G1)) : Prop :=
    forall e m, Renv en e -> holds w m ->
      exists e' m', run B LIMIT functions e m l = Cont e' m' /\ Renv en' e' /\ holds w' m'.
  Lemma reaches_tro en w l en' w' : reaches_o en w l en' w' -> tro en w l en' w'.
  Proof.
    intros (m1 & E & Cv) e m He Hm.
    destruct (sym_sound keccak in_g2 pairing cdo code (fun a => scd Fr G1 pt ev (a + 32)) Hcd_o LIMIT functions l en e _ m en' m1 He Hm E (proj1 Cv))
      as (e' & m' & R & He' & Hm').
    exists e', m'. split; [exact R|]. split; [exact He'|]. exact (covers_holds _ _ _ _ _ _ _ _ _ _ _ _ _ _ _ _ _ Cv Hm').
  Qed.
  Lemma tro_app en w l en1 w1 l' en2 w2 : tro en w l en1 w1 -> tro en1 w1 l' en2 w2 -> tro en w (l ++ l') en2 w2.
  Proof.
    intros H1 H2 e m He Hm. destruct (H1 e m He Hm) as (e1 & m1 & R1 & He1 & Hm1). destruct (H2 e1 m1 He1 Hm1) as (e2 & m2 & R2 & He2 & Hm2).
    exists e2, m2. split; [|auto]. unfold run in *. rewrite exec_app, R1. cbn [cont]. exact R2.
  Qed.
  Lemma tro_block en w l en' w' : tro en w l en' w' -> tro en w [Block l] (skipn (List.length en' - List.length en) en') w'.
  Proof.
    intros H e m He Hm. destruct (H e m He Hm) as (e1 & m1 & R1 & He1 & Hm1).
    exists (skipn (List.length en' - List.length en) e1), m1. split; [|split; [|exact Hm1]].
    - unfold run in *. rewrite exec_cons, step_block, R1. cbn [leave cont exec].
      pose proof (Re_length _ _ _ _ _ He) as L. pose proof (Re_length _ _ _ _ _ He1) as L1.
      unfold vars in *. cbn [val SYM SMo EVM] in *. rewrite L, L1. reflexivity.
    - apply skipn_Re. exact He1.
  Qed.
  Notation downs := (reaches_down Fr fr G1 (@gadd G1) g1smul pt ev kc vkp n_inv omega omega_inv omega_inv_l theta beta gamma y x zeta nu mu).

  Lemma old_body_05 : block_body old_main_05 =
    (part 0 4 old_main_05 ++ part 4 11 old_main_05 ++ part 11 12 old_main_05 ++ part 12 15 old_main_05 ++ part 15 40 old_main_05)%list.
  Proof. reflexivity. Qed.
  Lemma old_block_05 : old_main_05 = Block (block_body old_main_05).
  Proof. reflexivity. Qed.
  Notation xn := (fpow x (2 ^ 18)).
  Lemma tro_05_gen en w : reaches_o
      (e4 0 Fr fr G1 (@gadd G1) g1smul pt ev omega x xn ((xn + fr (r_mod - 1)) * n_inv)%fld)
      (words 0x12e0 56 (lag_t Fr fr n_inv omega omega_inv_l x)) (part 15 40 old_main_05) en w ->
    skipn (List.length en - 4) en = e0 -> tro e0 [] [old_main_05] e0 w.
  Proof.
    intros R5 S.
    rewrite old_block_05, old_body_05. refine (eq_ind _ (fun z => tro e0 [] [Block _] z w) _ _ S). refine (tro_block e0 [] _ en w _).
    refine (tro_app _ _ _ _ _ _ _ _ (reaches_tro _ _ _ _ _ (downs _ _ _ _ _ _ (r1 0 Fr fr G1 (@gadd G1) g1smul pt ev kc vkp n_inv omega omega_inv omega_inv_l theta beta gamma y x zeta nu mu) eq_refl eq_refl)) _).
    refine (tro_app _ _ _ _ _ _ _ _ (reaches_tro _ _ _ _ _ (downs _ _ _ _ _ _ (r2 0 Fr fr G1 (@gadd G1) g1smul pt ev kc vkp n_inv omega omega_inv omega_inv_l theta beta gamma y x zeta nu mu) eq_refl eq_refl)) _).
    refine (tro_app _ _ _ _ _ _ _ _ (reaches_tro _ _ _ _ _ (downs _ _ _ _ _ _ (r3 0 Fr fr G1 (@gadd G1) g1smul pt ev kc vkp n_inv omega omega_inv omega_inv_l theta beta gamma y x zeta nu mu) eq_refl eq_refl)) _).
    refine (tro_app _ _ _ _ _ _ _ _ (reaches_tro _ _ _ _ _ (downs _ _ _ _ _ _ (r4 0 Fr fr G1 (@gadd G1) g1smul pt ev kc vkp n_inv omega omega_inv omega_inv_l theta beta gamma y x zeta nu mu) eq_refl eq_refl)) _).
    exact (reaches_tro _ _ _ _ _ R5).
  Qed.
  Lemma tro_06_gen xn_ i_ ll lb l0 ie : tro e0 (lag_words Fr G1 xn_ i_ ll lb l0 ie) [old_main_06] e0
    [(0x12e0, F xn_); (0x13a0, F (numerator Fr fr ev theta beta gamma y x ll lb l0 ie * i_)%fld)].
  Proof.
    apply reaches_tro. refine (downs _ _ _ _ _ _ (reach_main_06 0 Fr fr eq_refl G1 (@gadd G1) g1smul pt ev (kcx kc) vkp n_inv omega omega_inv omega_inv_l theta beta gamma y x zeta nu mu _ _ _ _ _ _) _ _); reflexivity.
  Qed.
  Lemma tro_07_gen xn_ h : tro e0 [(0x12e0, F xn_); (0x13a0, F h)] [old_main_07] e0 (W0 Fr G1 h (quotient Fr G1 (@gadd G1) g1smul pt xn_)).
  Proof.
    apply reaches_tro. exact (old_run_07 0 Fr fr G1 (@gadd G1) g1smul pt ev kc vkp n_inv omega omega_inv omega_inv_l theta beta gamma y x zeta nu mu xn_ h).
  Qed.
  Lemma old_block_08 : old_main_08 = Block (part 0 2 old_main_08 ++ part 2 7 old_main_08 ++ part 7 8 old_main_08 ++ part 8 18 old_main_08 ++
    part 18 19 old_main_08 ++ part 19 20 old_main_08).
  Proof. reflexivity. Qed.
  Notation P := (pts Fr omega omega_inv x).
  Notation D := (fun i : nat => (mu + - P i)%fld).
  Notation U := (binv (coefs Fr fr P D) 11).
  Notation SC := (scales Fr D (U 0%nat)).
  Notation R hev := (VerifierOpen.total Fr nu (revals Fr fr ev zeta hev SC U) (binv (sums Fr fr U) 4)).
  Lemma tro_08 (h : Fr) (Hp : G1) : tro e0 (W0 Fr G1 h Hp) [old_main_08] e0
    (w6 Fr G1 (msm Fr G1 (@gadd G1) g1smul pt vkp zeta nu mu Hp (D 1%nat * D 2%nat * D 3%nat)%fld SC (R h)) (pt 0x11c4)).
  Proof.
    rewrite old_block_08. refine (tro_block e0 _ _ e0 _ _).
    refine (tro_app _ _ _ _ _ _ _ _ (reaches_tro _ _ _ _ _ (downs _ _ _ _ _ _ (o0 0 Fr fr G1 (@gadd G1) g1smul pt ev (kcx kc) vkp n_inv omega omega_inv omega_inv_l theta beta gamma y x zeta nu mu h Hp) eq_refl eq_refl)) _).
    refine (tro_app _ _ _ _ _ _ _ _ (reaches_tro _ _ _ _ _ (downs _ _ _ _ _ _ (o1 0 Fr fr G1 (@gadd G1) g1smul pt ev (kcx kc) vkp n_inv omega omega_inv omega_inv_l theta beta gamma y x zeta nu mu h Hp _ _) eq_refl eq_refl)) _).
    refine (tro_app _ _ _ _ _ _ _ _ (reaches_tro _ _ _ _ _ (downs _ _ _ _ _ _ (o2 0 Fr fr G1 (@gadd G1) g1smul pt ev (kcx kc) vkp n_inv omega omega_inv omega_inv_l theta beta gamma y x zeta nu mu h Hp _ _) eq_refl eq_refl)) _).
    refine (tro_app _ _ _ _ _ _ _ _ (reaches_tro _ _ _ _ _ (old_o3 0 Fr fr G1 (@gadd G1) g1smul pt ev kc vkp n_inv omega omega_inv omega_inv_l theta beta gamma y x zeta nu mu h Hp _ _ _)) _).
    refine (tro_app _ _ _ _ _ _ _ _ (reaches_tro _ _ _ _ _ (downs _ _ _ _ _ _ (o5 0 Fr fr G1 (@gadd G1) g1smul pt ev (kcx kc) vkp n_inv omega omega_inv omega_inv_l theta beta gamma y x zeta nu mu h Hp _ _ _ _) eq_refl eq_refl)) _).
    exact (reaches_tro _ _ _ _ _ (old_o6 0 Fr fr G1 (@gadd G1) g1smul pt ev kc vkp n_inv omega omega_inv omega_inv_l theta beta gamma y x zeta nu mu h Hp _ _ _)).
  Qed.
  Notation obody := [old_main_05; old_main_06; old_main_07; old_main_08].
  Theorem old_arithmetic_any : exists L, tro e0 [] obody e0 (w6 Fr G1 L (pt 0x11c4)).
  Proof.
    destruct (old_s5' 0 Fr fr G1 (@gadd G1) g1smul pt ev kc vkp n_inv omega omega_inv omega_inv_l theta beta gamma y x zeta nu mu xn
      ((xn + fr (r_mod - 1)) * n_inv)%fld (lag_t Fr fr n_inv omega omega_inv_l x)) as (en & R5 & S).
    eexists.
    change obody with ([old_main_05] ++ [old_main_06] ++ [old_main_07] ++ [old_main_08])%list.
    refine (tro_app _ _ _ _ _ _ _ _ (tro_05_gen _ _ R5 S) _). refine (tro_app _ _ _ _ _ _ _ _ (tro_06_gen _ _ _ _ _ _) _).
    refine (tro_app _ _ _ _ _ _ _ _ (tro_07_gen _ _) _). exact (tro_08 _ _).
  Qed.
  Hypothesis omega_l : (omega_inv_l * fpow omega 6 = 1)%fld.
  Hypothesis omega_n : (fpow omega (2 ^ 18) = 1)%fld.
  Hypothesis x_n : (fpow x (2 ^ 18) <> 1)%fld.
  Lemma tro_05 : tro e0 [] [old_main_05] e0 (lag_spec Fr G1 ev n_inv omega x).
  Proof.
    destruct (old_r5 0 Fr fr G1 (@gadd G1) g1smul pt ev kc vkp n_inv omega omega_inv omega_inv_l theta beta gamma y x zeta nu mu
      eq_refl fr_m1 omega_l omega_n x_n) as (en & R5 & S).
    exact (tro_05_gen _ _ R5 S).
  Qed.
  Notation hev := (numerator Fr fr ev theta beta gamma y x (l_last Fr omega (2 ^ 18) n_inv x) (l_blind Fr omega (2 ^ 18) n_inv x)
     (l_0 Fr (2 ^ 18) n_inv x) (instance_at Fr omega (2 ^ 18) n_inv (insts Fr ev) x) * finv (xn - 1))%fld.
  Notation H := (quotient Fr G1 (@gadd G1) g1smul pt xn).
  Notation pr := (pr Fr omega omega_inv x).
  Hypothesis d_nz : forall r, (mu - pr r <> 0)%fld.
  Hypothesis p_nz : forall r r', r <> r' -> (pr r - pr r' <> 0)%fld.
  Theorem old_arithmetic : tro e0 [] obody e0 (w6 Fr G1 (LHS pt ev vkp n_inv omega omega_inv theta beta gamma y x zeta nu mu 49 (2 ^ 18)) (pt 0x11c4)).
  Proof.
    change obody with ([old_main_05] ++ [old_main_06] ++ [old_main_07] ++ [old_main_08])%list.
    refine (tro_app _ _ _ _ _ _ _ _ tro_05 _). refine (tro_app _ _ _ _ _ _ _ _ (tro_06_gen _ _ _ _ _ _) _). refine (tro_app _ _ _ _ _ _ _ _ (tro_07_gen _ _) _).
    destruct smul_laws as (L1 & L2 & L3 & L4).
    unfold LHS. change (insts_n ev 49) with (insts Fr ev). rewrite <- (msm_ok Fr G1 g1smul L1 L2 L3 L4 fr eq_refl eq_refl pt ev vkp omega omega_inv x zeta nu mu hev H d_nz p_nz).
    exact (tro_08 hev H).
  Qed.
End Run.
