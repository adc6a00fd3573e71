(** The Lagrange part of the verifier, on the EVM, for any number of instances and any degree. *)
From Coq Require Import ZArith NArith List String Bool Lia.
From Verif.Base Require Import Fld Fp EC Primes Curves Group.
From Verif.Model Require Import Monad Evm Points PairingSol Dkg Yul Halo2VerifierSol VerifierCall.
From Verif.Proofs Require Import InstanceProofs OnchainProofs YulSim YulSym YulFuel EvmStep VerifierTools VerifierGates VerifierLagrange VerifierBatch.
Import ListNotations.
Open Scope string_scope.
Open Scope Z_scope.

Section LagRun.
  Variable keccak : bytes -> Z.
  Variable in_g2 : G2c -> bool.
  Variable pairing : list (G1 * G2c) -> bool.
  Variable calldata : list Z.
  Variable code : Z -> list Z.
  Notation B := (EVM keccak in_g2 pairing calldata code).
  Variable lim : nat.
  Variable vka : Z.
  Variables N d : nat.
  Hypothesis Hlim : (N + 8 < lim)%nat.
  Hypothesis Hlim' : (d < lim)%nat.
  Hypothesis Hbig : 64 * Z.of_nat N + 0x12e0 + 2048 < BIG.
  Hypothesis Hd : Z.of_nat d < BIG.
  Variables n_inv omega omega_inv_l x : Fr.
  Variable iv : nat -> Fr.
  Hypothesis Hcd : forall i, (i < N)%nat -> cd_load calldata (0x1224 + 32 * Z.of_nat i) = Some (vr (iv i)).
  Notation Z' := (val B).
  Definition E0 : vars B := [("success", 1 : Z'); ("r", r_mod : Z'); ("q", q_mod : Z'); ("vk", vka : Z')].
  Notation M := (Nat.max N 1 + 6)%nat.
  Notation at_ i := (0x12e0 + 32 * Z.of_nat i).
  Notation call := (run_func B lim functions).
  Variable m0 : mem.
  Definition keeps (m : mem) : Prop := forall a, a < 0x12e0 -> m a = m0 a.
  Hypothesis H6e0 : m0 0x6e0 = Z.of_nat N.
  Hypothesis H700 : m0 0x700 = Z.of_nat d.
  Hypothesis H720 : m0 0x720 = vr n_inv.
  Hypothesis H740 : m0 0x740 = vr omega.
  Hypothesis H780 : m0 0x780 = vr omega_inv_l.
  Hypothesis H11e0 : m0 0x11e0 = vr x.
  Notation pw := (pw Fr omega omega_inv_l).
  Notation sq := (sq Fr).
  Notation st i := (nth i (block_body main_05) (Pop (Num 0))).

  Definition eA (xn : Fr) : vars B := ("x_n", vr xn : Z') :: ("x", vr x : Z') :: ("k", Z.of_nat d : Z') :: E0.
  Notation xn := (Nat.iter d sq x).
  Lemma a1 : exec B call lim E0 m0 (part 0 3 main_05) = Cont (eA x) m0.
  Proof.
    unfold part. cbn [firstn skipn Nat.sub block_body main_05]. unfold E0. ev. rewrite load_al by reflexivity. ev. rewrite load_al by reflexivity. ev.
    rewrite H700, H11e0. reflexivity.
  Qed.
  Lemma a2 : step B call lim (eA x) m0 (st 3) = Cont (eA xn) m0.
  Proof.
    cbn [nth block_body main_05].
    edestruct (for_inv B call lim (eA x) m0 [Let ["idx"] (E (Num 0))] (Bin LT (Var "idx") (Var "k")) [Set_ ["idx"] (E (Bin ADD (Var "idx") (Num 1)))]
      [Set_ ["x_n"] (E (Ter MULMOD (Var "x_n") (Var "x_n") (Var "r")))] (("idx", 0 : Z') :: eA x) m0
      (fun i => ("idx", Z.of_nat i : Z') :: eA (Nat.iter i sq x)) (fun _ m => m = m0) d eq_refl eq_refl eq_refl) as (m' & E & ->).
    - exact Hlim'.
    - intros i m Hi ->. split.
      + unfold eA. ev. rewrite lt_true by lia. reflexivity.
      + unfold eA, E0. ev. rewrite mul_vr. do 3 eexists. split; [reflexivity|]. split; [|reflexivity]. ev. rewrite add_small by small.
        apply f_equal2; [|reflexivity]. apply f_equal2; [apply f_equal; cbn [val EVM]; lia|]. reflexivity.
    - intros m _. unfold eA. ev. rewrite lt_false by lia. reflexivity.
    - exact E.
  Qed.
  Definition eB (xn : Fr) (i : nat) : vars B :=
    ("mptr_end", at_ M : Z') :: ("mptr", at_ i : Z') :: ("omega", vr omega : Z') :: eA xn.
  Lemma a3 xn : exec B call lim (eA xn) m0 (part 4 8 main_05) = Cont (eB xn 0) m0.
  Proof.
    unfold part. cbn [firstn skipn Nat.sub block_body main_05]. unfold eB, eA, E0. ev. rewrite load_al by reflexivity. ev.
    rewrite load_al by reflexivity. ev. rewrite load_al by reflexivity. ev. rewrite H6e0, H740. destruct (Z.eqb_spec (Z.of_nat N) 0) as [EN|EN].
    - ev. change (negb (1 =? 0)) with true. cbv iota.
      rewrite (add_small (Z.of_nat N) 6) by small. rewrite mul_small by small. rewrite (add_small 0x12e0) by small. rewrite add_small by small.
      rewrite EN. replace (Nat.max N 1) with 1%nat by lia. reflexivity.
    - ev. change (negb (0 =? 0)) with false. cbv iota.
      rewrite (add_small (Z.of_nat N) 6) by small. rewrite mul_small by small. rewrite add_small by small. env_eq.
  Qed.
  Definition d_inv (i : nat) (m : mem) : Prop := keeps m /\ forall j, (j < i)%nat -> m (at_ j) = vr (x + - pw j)%fld.
  Lemma a4 xn : exists m, step B call lim (eB xn 0) m0 (st 8) = Cont (eB xn M) m /\ d_inv M m.
  Proof.
    cbn [nth block_body main_05].
    edestruct (for_inv B call lim (eB xn 0) m0 [Let ["pow_of_omega"] (E (Mload (Num 0x0780)))] (Bin LT (Var "mptr") (Var "mptr_end"))
      [Set_ ["mptr"] (E (Bin ADD (Var "mptr") (Num 0x20)))]
      [Mstore (Var "mptr") (Ter ADDMOD (Var "x") (Bin SUB (Var "r") (Var "pow_of_omega")) (Var "r"));
       Set_ ["pow_of_omega"] (E (Ter MULMOD (Var "pow_of_omega") (Var "omega") (Var "r")))] (("pow_of_omega", vr (pw 0) : Z') :: eB xn 0) m0
      (fun i => ("pow_of_omega", vr (pw i) : Z') :: eB xn i) d_inv M) as (m' & E & HP).
    - unfold eB, eA, E0. ev. rewrite load_al by reflexivity. ev. rewrite H780. reflexivity.
    - reflexivity.
    - split; [intros a _; reflexivity|]. intros j Hj. lia.
    - lia.
    - intros i m Hi [P1 P2]. split.
      + unfold eB. ev. rewrite lt_true by lia. reflexivity.
      + unfold eB, eA, E0. ev. rewrite sub_vr, store_al by al. ev. rewrite mul_vr. do 3 eexists. split; [reflexivity|]. split.
        * ev. rewrite add_small by small. env_eq.
        * split.
          -- intros a Ha. rewrite upd_other by lia. apply P1, Ha.
          -- intros j Hj. destruct (Nat.eq_dec j i) as [->|Hne]; [apply upd_same|]. rewrite upd_other by lia. apply P2. lia.
    - intros m _. unfold eB. ev. rewrite lt_false by lia. reflexivity.
    - exists m'. split; [exact E|exact HP].
  Qed.
  Definition eC (xn : Fr) : vars B := ("x_n_minus_1", vr (xn + fr (r_mod - 1))%fld : Z') :: eB xn M.
  Definition den (xn : Fr) (i : nat) : Fr := (if Nat.ltb i M then x + - pw i else xn + fr (r_mod - 1))%fld.
  Definition all_inv (m : mem) (v : nat -> Fr) : Prop := keeps m /\ forall i, (i <= M)%nat -> m (at_ i) = vr (v i).
  Lemma a5 xn m : d_inv M m -> exists m', exec B call lim (eB xn M) m (part 9 11 main_05) = Cont (eC xn) m' /\ all_inv m' (den xn).
  Proof.
    intros [P1 P2]. unfold part. cbn [firstn skipn Nat.sub block_body main_05]. unfold eC, eB, eA, E0. ev. rewrite sub1_vr, store_al by al. ev.
    eexists. split; [reflexivity|]. split.
    - intros a Ha. rewrite upd_other by lia. apply P1, Ha.
    - intros i Hi. unfold den. destruct (Nat.ltb_spec i M) as [H|H].
      + rewrite upd_other by lia. apply P2, H.
      + replace i with M by lia. apply upd_same.
  Qed.
  Lemma a6 xn m : all_inv m (den xn) -> exists m', exec B call lim (eC xn) m (part 11 12 main_05) = Cont (eC xn) m' /\ all_inv m' (binv (den xn) M).
  Proof.
    intros [P1 P2]. unfold part. cbn [firstn skipn Nat.sub block_body main_05].
    destruct (batch_run keccak in_g2 pairing calldata code lim 0x12e0 (Nat.max N 1 + 5) (den xn) 1 ltac:(lia) ltac:(lia) ltac:(lia) eq_refl ltac:(lia) m) as (m' & E & Q1 & Q2).
    { intros i Hi. apply P2. lia. }
    exists m'. split.
    - assert (X : eval_rhs B call (eC xn) m (Call "batch_invert" [Var "success"; Num 0x12e0; Bin ADD (Var "mptr_end") (Num 0x20); Var "r"]) = Some ([1 : Z'], m')).
      { transitivity (call "batch_invert" [1 : Z'; 0x12e0 : Z'; word_bin ADD (at_ M) 32 : Z'; r_mod : Z'] m); [reflexivity|].
        rewrite add_small by small. replace (at_ M + 32) with (0x12e0 + 32 * Z.of_nat (S (S (Nat.max N 1 + 5)))) by lia. exact E. }
      rewrite exec_cons. cbn [step]. rewrite X. reflexivity.
    - split; [intros a Ha; rewrite Q1 by exact Ha; apply P1, Ha|]. intros i Hi. rewrite Q2 by lia. replace (S (Nat.max N 1 + 5)) with M by lia. reflexivity.
  Qed.
  Definition eD (xn : Fr) (i : nat) : vars B :=
    ("l_i_common", vr ((xn + fr (r_mod - 1)) * n_inv)%fld : Z') :: ("x_n_minus_1", vr (xn + fr (r_mod - 1))%fld : Z') :: eB xn i.
  Lemma a7 xn m : keeps m -> exec B call lim (eC xn) m (part 12 14 main_05) = Cont (eD xn 0) m.
  Proof.
    intros P1. unfold part. cbn [firstn skipn Nat.sub block_body main_05]. unfold eD, eC, eB, eA, E0. ev. rewrite load_al by reflexivity. ev.
    rewrite P1 by reflexivity. rewrite H720, mul_vr. reflexivity.
  Qed.
  Definition lt_ (xn : Fr) (u : nat -> Fr) (i : nat) : Fr := (if Nat.ltb i M then (xn + fr (r_mod - 1)) * n_inv * (u i * pw i) else u i)%fld.
  Definition l_inv (xn : Fr) (u : nat -> Fr) (i : nat) (m : mem) : Prop :=
    keeps m /\ (forall j, (j < i)%nat -> m (at_ j) = vr (lt_ xn u j)) /\ (forall j, (i <= j <= M)%nat -> m (at_ j) = vr (u j)).
  Lemma a8 xn u m : all_inv m u -> exists m', step B call lim (eD xn 0) m (st 14) = Cont (eD xn M) m' /\ all_inv m' (lt_ xn u).
  Proof.
    intros [P1 P2]. cbn [nth block_body main_05].
    edestruct (for_inv B call lim (eD xn 0) m [Let ["pow_of_omega"] (E (Mload (Num 0x0780)))] (Bin LT (Var "mptr") (Var "mptr_end"))
      [Set_ ["mptr"] (E (Bin ADD (Var "mptr") (Num 0x20)))]
      [Mstore (Var "mptr") (Ter MULMOD (Var "l_i_common") (Ter MULMOD (Mload (Var "mptr")) (Var "pow_of_omega") (Var "r")) (Var "r"));
       Set_ ["pow_of_omega"] (E (Ter MULMOD (Var "pow_of_omega") (Var "omega") (Var "r")))] (("pow_of_omega", vr (pw 0) : Z') :: eD xn 0) m
      (fun i => ("pow_of_omega", vr (pw i) : Z') :: eD xn i) (l_inv xn u) M) as (m' & E & Q1 & Q2 & Q3).
    - unfold eD, eB, eA, E0. ev. rewrite load_al by reflexivity. ev. rewrite P1 by reflexivity. rewrite H780. reflexivity.
    - reflexivity.
    - split; [exact P1|]. split; [intros j Hj; lia|]. intros j Hj. apply P2. lia.
    - lia.
    - clear m P1 P2. intros i m Hi (P1 & P2 & P3). split.
      + unfold eD, eB. ev. rewrite lt_true by lia. reflexivity.
      + unfold eD, eB, eA, E0. ev. rewrite load_al by al. ev. rewrite P3 by lia. rewrite !mul_vr. rewrite store_al by al. ev. rewrite mul_vr.
        do 3 eexists. split; [reflexivity|]. split.
        * ev. rewrite add_small by small. env_eq.
        * split; [|split].
          -- intros a Ha. rewrite upd_other by lia. apply P1, Ha.
          -- intros j Hj. destruct (Nat.eq_dec j i) as [->|Hne]; [|rewrite upd_other by lia; apply P2; lia]. rewrite upd_same.
             unfold lt_. apply Nat.ltb_lt in Hi. rewrite Hi. reflexivity.
          -- intros j Hj. rewrite upd_other by lia. apply P3. lia.
    - intros m' _. unfold eD, eB. ev. rewrite lt_false by lia. reflexivity.
    - exists m'. split; [exact E|]. split; [exact Q1|]. intros i Hi. destruct (Nat.eq_dec i M) as [->|Hne]; [|apply Q2; lia].
      rewrite Q3 by lia. unfold lt_. rewrite Nat.ltb_irrefl. reflexivity.
  Qed.
  Section Last.
  Variable xn : Fr.
  Variable t : nat -> Fr.
  Fixpoint bl (i : nat) : Fr := match i with O => t 1%nat | S i => (bl i + t (2 + i)%nat)%fld end.
  Fixpoint ie (i : nat) : Fr := match i with O => f0 | S i => (ie i + t (6 + i)%nat * iv i)%fld end.
  Definition eE (i : nat) : vars B := ("l_i_cptr", 0x1320 + 32 * Z.of_nat i : Z') :: ("l_blind", vr (bl i) : Z') :: eD xn M.
  Variable m : mem.
  Hypothesis Hm : all_inv m t.
  Lemma at_c a i : a = at_ i -> (i <= M)%nat -> m a = vr (t i).
  Proof. intros ->. apply Hm. Qed.
  Lemma b1 : exec B call lim (eD xn M) m (part 15 17 main_05) = Cont (eE 0) m.
  Proof.
    unfold part. cbn [firstn skipn Nat.sub block_body main_05]. unfold eE, eD, eB, eA, E0. ev. rewrite !add_small by small. rewrite load_al by reflexivity. ev.
    rewrite (at_c _ 1) by lia. reflexivity.
  Qed.
  Lemma b2 : step B call lim (eE 0) m (st 17) = Cont (eE 4) m.
  Proof.
    cbn [nth block_body main_05].
    edestruct (for_inv B call lim (eE 0) m [Let ["l_i_cptr_end"] (E (Bin ADD (Num 0x12e0) (Num 0xc0)))] (Bin LT (Var "l_i_cptr") (Var "l_i_cptr_end"))
      [Set_ ["l_i_cptr"] (E (Bin ADD (Var "l_i_cptr") (Num 0x20)))]
      [Set_ ["l_blind"] (E (Ter ADDMOD (Var "l_blind") (Mload (Var "l_i_cptr")) (Var "r")))] (("l_i_cptr_end", 0x13a0 : Z') :: eE 0) m
      (fun i => ("l_i_cptr_end", 0x13a0 : Z') :: eE i) (fun _ m' => m' = m) 4%nat) as (m' & E & ->).
    - reflexivity.
    - reflexivity.
    - reflexivity.
    - lia.
    - intros i m' Hi ->. split.
      + unfold eE. ev. rewrite lt_true by lia. reflexivity.
      + unfold eE, eD, eB, eA, E0. ev. rewrite load_al by al. ev. rewrite (at_c _ (2 + i)) by lia. rewrite add_vr.
        do 3 eexists. split; [reflexivity|]. split; [|reflexivity]. ev. rewrite add_small by small. env_eq.
    - intros m' _. reflexivity.
    - exact E.
  Qed.
  Definition eF (i : nat) : vars B :=
    ("instance_eval", vr (ie i) : Z') :: ("l_i_cptr", 0x13a0 + 32 * Z.of_nat i : Z') :: ("l_blind", vr (bl 4) : Z') :: eD xn M.
  Lemma b3 : exec B call lim (eE 4) m (part 18 19 main_05) = Cont (eF 0) m.
  Proof. reflexivity. Qed.
  Lemma b4 : step B call lim (eF 0) m (st 19) = Cont (eF N) m.
  Proof.
    cbn [nth block_body main_05].
    edestruct (for_inv B call lim (eF 0) m
      [Let ["instance_cptr"] (E (Num 0x1224)); Let ["instance_cptr_end"] (E (Bin ADD (Var "instance_cptr") (Bin MUL (Num 0x20) (Mload (Num 0x06e0)))))]
      (Bin LT (Var "instance_cptr") (Var "instance_cptr_end"))
      [Set_ ["instance_cptr"] (E (Bin ADD (Var "instance_cptr") (Num 0x20))); Set_ ["l_i_cptr"] (E (Bin ADD (Var "l_i_cptr") (Num 0x20)))]
      [Set_ ["instance_eval"] (E (Ter ADDMOD (Var "instance_eval") (Ter MULMOD (Mload (Var "l_i_cptr")) (Cdload (Var "instance_cptr")) (Var "r")) (Var "r")))]
      (("instance_cptr_end", 0x1224 + 32 * Z.of_nat N : Z') :: ("instance_cptr", 0x1224 : Z') :: eF 0) m
      (fun i => ("instance_cptr_end", 0x1224 + 32 * Z.of_nat N : Z') :: ("instance_cptr", 0x1224 + 32 * Z.of_nat i : Z') :: eF i) (fun _ m' => m' = m) N)
      as (m' & E & ->).
    - unfold eF, eD, eB, eA, E0. ev. rewrite load_al by reflexivity. ev. rewrite (proj1 Hm) by reflexivity. rewrite H6e0.
      rewrite mul_small by small. rewrite add_small by small. reflexivity.
    - reflexivity.
    - reflexivity.
    - lia.
    - intros i m' Hi ->. split.
      + unfold eF. ev. rewrite lt_true by lia. reflexivity.
      + unfold eF, eD, eB, eA, E0. ev. rewrite load_al by al. ev. rewrite Hcd by exact Hi. ev. rewrite (at_c _ (6 + i)) by lia. rewrite mul_vr, add_vr.
        do 3 eexists. split; [reflexivity|]. split; [|reflexivity]. ev. rewrite !add_small by small. env_eq.
    - intros m' _. unfold eF. ev. rewrite lt_false by lia. reflexivity.
    - exact E.
  Qed.
  Definition lag_mem (m' : mem) : Prop := keeps m' /\ m' 0x12e0 = vr xn /\ m' 0x1300 = vr (t M) /\ m' 0x1320 = vr (t 0%nat) /\
    m' 0x1340 = vr (bl 4) /\ m' 0x1360 = vr (t 6%nat) /\ m' 0x1380 = vr (ie N).
  Lemma b5 : exists e m', exec B call lim (eF N) m (part 20 29 main_05) = Cont e m' /\ skipn (List.length e - 4) e = E0 /\ lag_mem m'.
  Proof.
    unfold part. cbn [firstn skipn Nat.sub block_body main_05]. unfold eF, eD, eB, eA, E0. ev. rewrite load_al by al. ev. rewrite load_al by reflexivity. ev.
    rewrite add_small by small. rewrite load_al by reflexivity. ev. rewrite (at_c (at_ M) M) by lia. rewrite (at_c 0x12e0 0) by lia. rewrite (at_c (0x12e0 + 0xc0) 6) by lia.
    do 6 (rewrite store_al by reflexivity; ev). do 2 eexists. split; [reflexivity|]. split; [reflexivity|].
    split; [intros a Ha; rewrite !upd_other by lia; apply Hm, Ha|]. repeat split.
  Qed.
  End Last.
  Lemma split_05 : block_body main_05 = (part 0 3 main_05 ++ [st 3] ++ part 4 8 main_05 ++ [st 8] ++ part 9 11 main_05 ++ part 11 12 main_05 ++
    part 12 14 main_05 ++ [st 14] ++ part 15 17 main_05 ++ [st 17] ++ part 18 19 main_05 ++ [st 19] ++ part 20 29 main_05)%list.
  Proof. reflexivity. Qed.
  Lemma block_main : main_05 = Block (block_body main_05). Proof. reflexivity. Qed.
  Theorem main_05_run : exists m, run B lim functions E0 m0 [main_05] = Cont E0 m /\
    lag_mem xn (lt_ xn (binv (den xn) M)) m.
  Proof.
    destruct (a4 xn) as (m1 & R1 & Q1). destruct (a5 xn m1 Q1) as (m2 & R2 & Q2). destruct (a6 xn m2 Q2) as (m3 & R3 & Q3).
    destruct (a8 xn _ m3 Q3) as (m4 & R4 & Q4). destruct (b5 xn _ m4 Q4) as (e & m5 & R5 & S5 & Q5).
    exists m5. split; [|exact Q5]. rewrite block_main. unfold run. rewrite exec_cons, step_block, split_05.
    repeat rewrite exec_app. rewrite a1. cbn [cont]. repeat rewrite exec_app. rewrite exec_cons, a2. cbn [cont exec]. repeat rewrite exec_app.
    rewrite a3. cbn [cont]. repeat rewrite exec_app. rewrite exec_cons, R1. cbn [cont exec]. repeat rewrite exec_app. rewrite R2.
    cbn [cont]. repeat rewrite exec_app. rewrite R3. cbn [cont]. repeat rewrite exec_app. rewrite (a7 xn m3 (proj1 Q3)). cbn [cont].
    repeat rewrite exec_app. rewrite exec_cons, R4. cbn [cont exec]. repeat rewrite exec_app. rewrite (b1 xn _ m4 Q4). cbn [cont].
    repeat rewrite exec_app. rewrite exec_cons, (b2 xn _ m4 Q4). cbn [cont exec]. repeat rewrite exec_app. rewrite b3. cbn [cont].
    repeat rewrite exec_app. rewrite exec_cons, (b4 xn _ m4 Q4). cbn [cont exec]. rewrite R5. cbn [leave cont].
    change (List.length E0) with 4%nat. rewrite S5. reflexivity.
  Qed.
End LagRun.
