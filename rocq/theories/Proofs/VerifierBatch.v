(** The batch inversion of the verifier, on the EVM, for any number of words. *)
From Coq Require Import ZArith List String Bool Lia.
From Verif.Base Require Import Fld Fp EC Primes Curves Group.
From Verif.Model Require Import Monad Evm Points PairingSol Dkg Yul Halo2VerifierSol.
From Verif.Proofs Require Import InstanceProofs OnchainProofs YulSim YulSym YulFuel EvmStep VerifierTools.
Import ListNotations.
Open Scope string_scope.
Open Scope Z_scope.

(** a bound on addresses *)
Definition BIG : Z := 2 ^ 80.
Lemma BIG_W : BIG < W256. Proof. reflexivity. Qed.
Lemma BIG_pos : 0 < BIG. Proof. reflexivity. Qed.
Global Opaque BIG.
Ltac small := pose proof BIG_W; pose proof BIG_pos; lia.

(** the modular inverse by precompile 5 *)
Lemma static_inv in_g2 pairing m a (k : Fr) : a mod 32 = 0 -> m a = 32 -> m (a + 32) = 32 -> m (a + 64) = 32 -> m (a + 96) = vr k ->
  m (a + 128) = word_bin SUB r_mod 2 -> m (a + 160) = r_mod -> m_static in_g2 pairing m 5 a 192 a 32 = Some (1, upd m a (vr (finv k))).
Proof.
  intros Ha E0 E1 E2 E3 E4 E5. unfold m_static, aligned. rewrite Ha. cbn [Z.eqb andb negb Pos.eqb].
  rewrite !words1, words0, z1, z2, z3, z4, E0, E1, E2, E3, E4, E5. cbn [Z.eqb andb negb Pos.eqb].
  rewrite sub_small by (split; [discriminate|reflexivity]). change (r_mod =? 0) with false. cbv iota. rewrite inv_exp. reflexivity.
Qed.
(** equality of environments, element by element *)
Ltac env_eq := apply f_equal2; [|reflexivity]; repeat (apply f_equal2; [first [reflexivity | apply f_equal; cbn [val EVM]; lia | idtac]|]); try reflexivity.

Section Batch.
  Variable keccak : bytes -> Z.
  Variable in_g2 : G2c -> bool.
  Variable pairing : list (G1 * G2c) -> bool.
  Variable calldata : list Z.
  Variable code : Z -> list Z.
  Notation B := (EVM keccak in_g2 pairing calldata code).
  Variable lim : nat.
  Variable base : Z.
  Variable n1 : nat.
  Notation n := (S n1).
  Variable v : nat -> Fr.
  Variable s : Z.
  Hypothesis Hn : (1 <= n1)%nat.
  Hypothesis Hlim : (n < lim)%nat.
  Hypothesis Hb : 0 <= base.
  Hypothesis Hal : base mod 32 = 0.
  Hypothesis Hbig : base + 64 * Z.of_nat n + 512 < BIG.
  Notation at_ i := (base + 32 * Z.of_nat i).
  Notation en := (base + 32 * Z.of_nat (S n)).
  Notation nocall := (fun (_ : string) (_ : list (val B)) (_ : memory B) => @None (list (val B) * memory B)).
  Notation Z' := (val B).
  Definition f_env (i : nat) : vars B :=
    [("mptr", at_ (S i) : Z'); ("gp", vr (gp v i) : Z'); ("gp_mptr", en + 32 * Z.of_nat i : Z'); ("ret", 0 : Z'); ("r", r_mod : Z');
     ("mptr_end", en : Z'); ("mptr_start", base : Z'); ("success", s : Z')].
  Definition f_inv (m0 : mem) (i : nat) (m : mem) : Prop :=
    (forall a, a < en -> m a = m0 a) /\ (forall j, (j < i)%nat -> m (en + 32 * Z.of_nat j) = vr (gp v (S j))).
  Definition fbody (i j : nat) : list stmt := firstn (j - i) (skipn i (f_body fn_batch_invert)).
  Lemma s_fwd m0 : (forall i, (i <= n)%nat -> m0 (at_ i) = vr (v i)) ->
    exists m', step B nocall lim (f_env 0) m0 (nth 3 (f_body fn_batch_invert) (Pop (Num 0))) = Cont (f_env n1) m' /\ f_inv m0 n1 m'.
  Proof.
    intros H0. cbn [nth f_body fn_batch_invert].
    edestruct (for_inv B nocall lim (f_env 0) m0 [] (Bin LT (Var "mptr") (Bin SUB (Var "mptr_end") (Num 32))) []
      [Set_ ["gp"] (E (Ter MULMOD (Var "gp") (Mload (Var "mptr")) (Var "r"))); Mstore (Var "gp_mptr") (Var "gp");
       Set_ ["mptr"] (E (Bin ADD (Var "mptr") (Num 32))); Set_ ["gp_mptr"] (E (Bin ADD (Var "gp_mptr") (Num 32)))]
      (f_env 0) m0 f_env (f_inv m0) n1 eq_refl eq_refl) as (m' & E & HP).
    - split; [reflexivity|]. intros j Hj. lia.
    - lia.
    - intros i m Hi [P1 P2]. split.
      + unfold f_env. ev. rewrite sub_small by small. rewrite lt_true by lia. reflexivity.
      + unfold f_env. ev. rewrite load_al by al. ev. rewrite P1 by lia. rewrite H0 by lia. rewrite mul_vr.
        rewrite store_al by al. ev. rewrite !add_small by small. do 3 eexists. split; [reflexivity|]. split.
        * cbn [gp]. env_eq.
        * split.
          -- intros a Ha. rewrite upd_other by lia. apply P1, Ha.
          -- intros j Hj. destruct (Nat.eq_dec j i) as [->|Hne]; [apply upd_same|]. rewrite upd_other by lia. apply P2. lia.
    - intros m [P1 P2]. unfold f_env. ev. rewrite sub_small by small. rewrite lt_false by lia. reflexivity.
    - exists m'. split; [exact E|exact HP].
  Qed.
  Notation top := (en + 32 * Z.of_nat n1).
  Definition b_env (k : nat) : vars B :=
    [("second_mptr", base + 32 : Z'); ("first_mptr", base : Z'); ("all_inv", vr (back v n k) : Z');
     ("mptr", base + 32 * (Z.of_nat n - Z.of_nat k) : Z'); ("gp", vr (gp v n) : Z'); ("gp_mptr", top - 32 - 32 * Z.of_nat k : Z');
     ("ret", Z.land s 1 : Z'); ("r", r_mod : Z'); ("mptr_end", en : Z'); ("mptr_start", base : Z'); ("success", s : Z')].
  Definition b_inv (m0 : mem) (k : nat) (m : mem) : Prop :=
    (forall a, a < base -> m a = m0 a) /\ (forall i, (i + k <= n)%nat -> m (at_ i) = vr (v i)) /\
    (forall i, (i <= n)%nat -> (n < i + k)%nat -> m (at_ i) = vr (binv v n i)) /\
    (forall j, (j < n1)%nat -> m (en + 32 * Z.of_nat j) = vr (gp v (S j))).
  Lemma binv_step k : (k < n1)%nat -> (binv v n (n - k) = back v n k * gp v (n1 - k))%fld.
  Proof.
    intros Hk. destruct n1 as [|n2]; [lia|]. destruct (S n2 - k)%nat as [|j] eqn:Ej; [lia|].
    replace (S (S n2) - k)%nat with (S (S j)) by lia. cbn [binv]. replace (S (S n2) - S (S j))%nat with k by lia. reflexivity.
  Qed.
  Lemma s_bwd m0 m : b_inv m0 0 m -> exists m', step B nocall lim (b_env 0) m (nth 16 (f_body fn_batch_invert) (Pop (Num 0))) = Cont (b_env n1) m' /\ b_inv m0 n1 m'.
  Proof.
    intros H0. cbn [nth f_body fn_batch_invert].
    edestruct (for_inv B nocall lim (b_env 0) m [] (Bin LT (Var "second_mptr") (Var "mptr")) []
      [Let ["inv"] (E (Ter MULMOD (Var "all_inv") (Mload (Var "gp_mptr")) (Var "r")));
       Set_ ["all_inv"] (E (Ter MULMOD (Var "all_inv") (Mload (Var "mptr")) (Var "r"))); Mstore (Var "mptr") (Var "inv");
       Set_ ["mptr"] (E (Bin SUB (Var "mptr") (Num 32))); Set_ ["gp_mptr"] (E (Bin SUB (Var "gp_mptr") (Num 32)))]
      (b_env 0) m b_env (b_inv m0) n1 eq_refl eq_refl) as (m' & E & HP).
    - exact H0.
    - lia.
    - clear m H0. intros k m Hk (P1 & P2 & P3 & P4). split.
      + unfold b_env. ev. rewrite lt_true by lia. reflexivity.
      + assert (L1 : m (top - 32 - 32 * Z.of_nat k) = vr (gp v (n1 - k))).
        { replace (n1 - k)%nat with (S (n1 - k - 1)) by lia. rewrite <- P4 by lia. apply f_equal. lia. }
        assert (L2 : m (base + 32 * (Z.of_nat n - Z.of_nat k)) = vr (v (n - k)%nat)).
        { rewrite <- P2 by lia. apply f_equal. lia. }
        unfold b_env. ev. rewrite load_al by al. ev. rewrite L1, load_al by al. ev. rewrite L2, !mul_vr, store_al by al. ev.
        rewrite !sub_small by small. do 3 eexists. split; [reflexivity|]. split.
        * cbn [back]. env_eq.
        * split; [|split; [|split]].
          -- intros a Ha. rewrite upd_other by lia. apply P1, Ha.
          -- intros i Hi. rewrite upd_other by lia. apply P2. lia.
          -- intros i Hi Hik. destruct (Nat.eq_dec i (n - k)) as [->|Hne].
             ++ rewrite binv_step by exact Hk. replace (at_ (n - k)) with (base + 32 * (Z.of_nat n - Z.of_nat k)) by lia. apply upd_same.
             ++ rewrite upd_other by lia. apply P3; lia.
          -- intros j Hj. rewrite upd_other by lia. apply P4, Hj.
    - clear m H0. intros m _. unfold b_env. ev. rewrite lt_false by lia. reflexivity.
    - exists m'. split; [exact E|exact HP].
  Qed.
  Definition mid : list stmt := firstn 12 (skipn 4 (f_body fn_batch_invert)).
  Definition last_ : list stmt := skipn 17 (f_body fn_batch_invert).
  Lemma body_split : f_body fn_batch_invert =
    (firstn 3 (f_body fn_batch_invert) ++ [nth 3 (f_body fn_batch_invert) (Pop (Num 0))] ++ mid ++
     [nth 16 (f_body fn_batch_invert) (Pop (Num 0))] ++ last_)%list.
  Proof. reflexivity. Qed.
  Lemma s_mid m0 m : (forall i, (i <= n)%nat -> m0 (at_ i) = vr (v i)) -> f_inv m0 n1 m ->
    exists m', exec B nocall lim (f_env n1) m mid = Cont (b_env 0) m' /\ b_inv m0 0 m'.
  Proof.
    intros H0 [P1 P2]. unfold mid. cbn [firstn skipn f_body fn_batch_invert]. unfold f_env.
    assert (L1 : m (at_ n) = vr (v n)) by (rewrite P1 by lia; apply H0; lia).
    ev. rewrite load_al by al. ev. rewrite L1, mul_vr. rewrite store_al by al. ev.
    rewrite !add_small by small. rewrite !store_al by al. ev.
    rewrite !add_small by small. rewrite !store_al by al. ev.
    rewrite !add_small by small. rewrite !store_al by al. ev.
    rewrite !add_small by small. rewrite !store_al by al. ev.
    rewrite !add_small by small. rewrite !store_al by al. ev.
    match goal with |- context [m_static _ _ ?mm _ _ _ _ _] => set (M := mm) end.
    assert (HM : forall a, a < top -> M a = m a) by (intros a Ha; unfold M; rewrite !upd_other by lia; reflexivity).
    rewrite (static_inv _ _ M top (gp v n)); [|al| | | | | |];
      try (unfold M; repeat first [apply upd_same | rewrite upd_other by lia]; reflexivity). clearbody M. ev.
    rewrite load_al by al. ev. rewrite upd_same.
    rewrite add_small by small. rewrite sub_small by small. exists (upd M top (vr (finv (gp v n)))). split.
    - unfold b_env. cbn [back]. env_eq.
    - split; [|split; [|split]].
      + intros a Ha. rewrite upd_other by lia. rewrite HM by lia. apply P1. lia.
      + intros i Hi. rewrite upd_other by lia. rewrite HM by lia. rewrite P1 by lia. apply H0. lia.
      + intros i Hi Hk. lia.
      + intros j Hj. rewrite upd_other by lia. rewrite HM by lia. apply P2, Hj.
  Qed.
  Lemma s_last m0 m : b_inv m0 n1 m -> exists e m', exec B nocall lim (b_env n1) m last_ = Cont e m' /\ lookup B "ret" e = Some (Z.land s 1) /\
    (forall a, a < base -> m' a = m0 a) /\ (forall i, (i <= n)%nat -> m' (at_ i) = vr (binv v n i)).
  Proof.
    intros (P1 & P2 & P3 & P4). unfold last_. cbn [firstn skipn f_body fn_batch_invert]. unfold b_env.
    assert (L0 : m base = vr (v 0%nat)) by (rewrite <- P2 by lia; apply f_equal; lia).
    assert (L1 : m (base + 32) = vr (v 1%nat)) by (rewrite <- P2 by lia; apply f_equal; lia).
    ev. rewrite load_al by al. ev. rewrite load_al by al. ev. rewrite L0, L1, !mul_vr. rewrite store_al by al. ev. rewrite store_al by al. ev.
    do 2 eexists. split; [reflexivity|]. split; [reflexivity|]. split.
    - intros a Ha. rewrite !upd_other by lia. apply P1, Ha.
    - intros i Hi. destruct i as [|[|i]].
      + replace (at_ 0) with base by lia. rewrite upd_other by lia. rewrite upd_same. cbn [binv]. replace (n - 1)%nat with n1 by lia. reflexivity.
      + replace (at_ 1) with (base + 32) by lia. rewrite upd_same. cbn [binv]. replace (n - 1)%nat with n1 by lia. reflexivity.
      + rewrite !upd_other by lia. apply P3; lia.
  Qed.
  Theorem batch_run m : (forall i, (i <= n)%nat -> m (at_ i) = vr (v i)) ->
    exists m', run_func B lim functions "batch_invert" [s : Z'; base : Z'; en : Z'; r_mod : Z'] m = Some ([Z.land s 1 : Z'], m') /\
      (forall a, a < base -> m' a = m a) /\ (forall i, (i <= n)%nat -> m' (at_ i) = vr (binv v n i)).
  Proof.
    intros H0.
    destruct (s_fwd m H0) as (m1 & E1 & Q1). destruct (s_mid m m1 H0 Q1) as (m2 & E2 & Q2). destruct (s_bwd m m2 Q2) as (m3 & E3 & Q3).
    destruct (s_last m m3 Q3) as (e & m4 & E4 & R & Q4 & Q5). exists m4. split; [|auto].
    unfold run_func. cbn [find functions String.eqb Ascii.eqb Bool.eqb fst]. unfold obind. cbn [f_params f_rets fn_batch_invert declares map].
    assert (X : exec B nocall lim [("ret", num B 0); ("r", r_mod : Z'); ("mptr_end", en : Z'); ("mptr_start", base : Z'); ("success", s : Z')] m
      (f_body fn_batch_invert) = Cont e m4).
    { rewrite body_split. rewrite exec_app.
      assert (X0 : exec B nocall lim [("ret", num B 0); ("r", r_mod : Z'); ("mptr_end", en : Z'); ("mptr_start", base : Z'); ("success", s : Z')] m
        (firstn 3 (f_body fn_batch_invert)) = Cont (f_env 0) m).
      { cbn [firstn f_body fn_batch_invert]. ev. rewrite load_al by al. ev. rewrite add_small by small. unfold f_env. cbn [gp].
        replace (m base) with (vr (v 0%nat)) by (rewrite <- H0 by lia; apply f_equal; lia). env_eq. }
      rewrite X0. cbn [cont]. rewrite exec_app, exec_cons, E1. cbn [cont exec]. rewrite exec_app, E2. cbn [cont].
      rewrite exec_app, exec_cons, E3. cbn [cont exec]. exact E4. }
    cbn [f_body fn_batch_invert] in X |- *. rewrite X. cbn [evals eval obind]. rewrite R. reflexivity.
  Qed.
End Batch.
