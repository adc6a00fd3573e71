(** The verifier up to the first challenge, on the EVM, for any number of instances. *)
From Coq Require Import ZArith List String Bool Lia.
From Verif.Base Require Import Fld Fp EC Primes Curves Group.
From Verif.Model Require Import Monad Evm Points PairingSol Dkg Yul Halo2VerifierSol.
From Verif.Proofs Require Import InstanceProofs OnchainProofs YulSim YulSym YulCon YulFuel EvmStep VerifierTools VerifierBatch.
Import ListNotations.
Open Scope string_scope.
Open Scope Z_scope.

Section Head.
  Variable keccak : bytes -> Z.
  Variable in_g2 : G2c -> bool.
  Variable pairing : list (G1 * G2c) -> bool.
  Variable calldata : list Z.
  Variable code : Z -> list Z.
  Notation B := (EVM keccak in_g2 pairing calldata code).
  Notation cdw := (e_cdw calldata).
  Variable lim : nat.
  Variable vka : Z.
  Variable N : nat.
  Hypothesis Hlim : (N + 8 < lim)%nat.
  Hypothesis Hbig : 64 * Z.of_nat N + 0x12e0 + 2048 < BIG.
  Variable k0 : Z.
  Variable rest : list Z.
  Hypothesis Hcode : code vka = k0 :: Z.of_nat N :: rest.
  Notation Z' := (val B).
  Notation call := (run_func B lim functions).
  Notation st i := (nth i (block_body main_03) (Pop (Num 0))).
  Definition Eb (s : Z) : vars B := [("success", s : Z'); ("r", r_mod : Z'); ("q", q_mod : Z'); ("vk", vka : Z')].
  Notation all := (fold_left (word_bin AND)).

  Lemma cdl i : cd_load calldata (4 + 32 * i) = if 0 <=? 4 + 32 * i then Some (cdw (4 + 32 * i)) else None.
  Proof.
    unfold cd_load. replace (4 + 32 * i) with (4 + i * 32) by lia. rewrite Z.mod_add by lia. change (4 mod 32 =? 4) with true. reflexivity.
  Qed.
  Lemma cdl' a i : a = 4 + 32 * i -> 0 <= i -> cd_load calldata a = Some (cdw a).
  Proof. intros -> H. rewrite cdl. destruct (Z.leb_spec 0 (4 + 32 * i)); [reflexivity|lia]. Qed.

  (** *** reading a point *)
  Definition point_flags (a : Z) : list Z :=
    [word_bin LT (cdw a) q_mod; word_bin LT (cdw (a + 32)) q_mod;
     word_bin EQ (word_ter MULMOD (cdw (a + 32)) (cdw (a + 32)) q_mod)
       (word_ter ADDMOD (word_ter MULMOD (cdw a) (word_ter MULMOD (cdw a) (cdw a) q_mod) q_mod) 3 q_mod)].
  Lemma read_point s p i h m : p = 4 + 32 * i -> 0 <= i -> p + 64 < BIG -> 0 <= h -> h + 64 < BIG -> h mod 32 = 0 ->
    call "read_ec_point" [s : Z'; p : Z'; h : Z'; q_mod : Z'] m =
    Some ([all (point_flags p) s : Z'; p + 64 : Z'; h + 64 : Z'], upd (upd m h (cdw p)) (h + 32) (cdw (p + 32))).
  Proof.
    intros Hp Hi Hpb Hh Hhb Hal. unfold run_func. cbn [find functions String.eqb Ascii.eqb Bool.eqb fst]. unfold obind.
    cbn [f_params f_rets fn_read_ec_point declares map f_body]. ev.
    rewrite (cdl' p i) by lia. ev. rewrite !add_small by small.
    rewrite (cdl' (p + 32) (i + 1)) by lia. ev. rewrite store_al by al. ev. rewrite !add_small by small. rewrite store_al by al. ev.
    rewrite !add_small by small. reflexivity.
  Qed.
  (** *** squeezing a challenge *)
  Lemma squeeze c h m : c mod 32 = 0 -> 0 <= c -> c + 32 < BIG ->
    call "squeeze_challenge" [c : Z'; h : Z'; r_mod : Z'] m =
    Some ([c + 32 : Z'; 32 : Z'], upd (upd m c (keccak (m_bytes m 0 h) mod r_mod)) 0 (keccak (m_bytes m 0 h))).
  Proof.
    intros Hal Hc Hb. unfold run_func. cbn [find functions String.eqb Ascii.eqb Bool.eqb fst]. unfold obind.
    cbn [f_params f_rets fn_squeeze_challenge declares map f_body]. ev.
    change (m_keccak keccak m 0 h) with (Some (keccak (m_bytes m 0 h))). ev. rewrite store_al by al. ev. rewrite store_al by reflexivity. ev.
    rewrite !add_small by small. reflexivity.
  Qed.

  (** *** the statements before the instances *)
  Notation f1_ := (word_bin EQ 0x1180 (cdw 0x64)).
  Notation f2_ := (word_bin EQ (Z.of_nat N) (cdw 0x1204)).
  Definition h_env (s : Z) (i : nat) : vars B :=
    ("instance_cptr", 0x1224 + 32 * Z.of_nat i : Z') :: ("hash_mptr", 0x20 + 32 * Z.of_nat i : Z') :: ("num_instances", Z.of_nat N : Z') :: Eb s.
  Lemma h1 m : exists m', exec B call lim (Eb 1) m (part 0 7 main_03) = Cont (h_env (all [f1_; f2_] 1) 0) m' /\ m' 0 = k0.
  Proof.
    unfold part. cbn [firstn skipn Nat.sub block_body main_03]. unfold h_env, Eb. ev.
    unfold m_extcodecopy. rewrite Hcode. change (aligned 1728 && (0 =? 0) && aligned 64) with true. cbv iota.
    change (Z.to_nat (64 / 32)) with 2%nat. cbn [firstn app store_words]. ev.
    change (1728 + 32) with 1760.
    rewrite (cdl' 100 3) by lia. ev. rewrite load_al by reflexivity. ev. rewrite (cdl' 4612 144) by lia. ev.
    rewrite load_al by reflexivity. ev. rewrite store_al by reflexivity. ev. rewrite upd_same.
    eexists. split; [reflexivity|]. reflexivity.
  Qed.
  Definition inst_flags (i : nat) : list Z := map (fun j => word_bin LT (cdw (0x1224 + 32 * Z.of_nat j)) r_mod) (seq 0 i).
  Definition absorbed (f : nat -> Z) (n : nat) (m : mem) : Prop := m 0 = k0 /\ forall j, (j < n)%nat -> m (0x20 + 32 * Z.of_nat j) = f j.
  Lemma absorbed_S f n m v : absorbed f n m -> v = f n -> absorbed f (S n) (upd m (0x20 + 32 * Z.of_nat n) v).
  Proof.
    intros [A1 A2] ->. split; [rewrite upd_other by lia; exact A1|]. intros j Hj.
    destruct (Nat.eq_dec j n) as [->|Hne]; [apply upd_same|]. rewrite upd_other by lia. apply A2. lia.
  Qed.
  Definition wv (j : nat) : Z := if Nat.ltb j N then cdw (0x1224 + 32 * Z.of_nat j) else cdw (0x84 + 32 * Z.of_nat (j - N)).
  Lemma all_app l1 l2 s : all (l1 ++ l2)%list s = all l2 (all l1 s). Proof. apply fold_left_app. Qed.
  Lemma inst_S s i : word_bin AND (all (inst_flags i) s) (word_bin LT (cdw (0x1224 + 32 * Z.of_nat i)) r_mod) = all (inst_flags (S i)) s.
  Proof. unfold inst_flags. rewrite seq_S, map_app, all_app. reflexivity. Qed.
  Lemma h2 s m : m 0 = k0 -> exists m', step B call lim (h_env s 0) m (st 7) = Cont (h_env (all (inst_flags N) s) N) m' /\ absorbed wv N m'.
  Proof.
    intros M0. cbn [nth block_body main_03].
    edestruct (for_inv B call lim (h_env s 0) m [Let ["instance_cptr_end"] (E (Bin ADD (Var "instance_cptr") (Bin MUL (Num 0x20) (Var "num_instances"))))]
      (Bin LT (Var "instance_cptr") (Var "instance_cptr_end")) []
      [Let ["instance"] (E (Cdload (Var "instance_cptr"))); Set_ ["success"] (E (Bin AND (Var "success") (Bin LT (Var "instance") (Var "r"))));
       Mstore (Var "hash_mptr") (Var "instance"); Set_ ["instance_cptr"] (E (Bin ADD (Var "instance_cptr") (Num 0x20)));
       Set_ ["hash_mptr"] (E (Bin ADD (Var "hash_mptr") (Num 0x20)))]
      (("instance_cptr_end", 0x1224 + 32 * Z.of_nat N : Z') :: h_env s 0) m
      (fun i => ("instance_cptr_end", 0x1224 + 32 * Z.of_nat N : Z') :: h_env (all (inst_flags i) s) i) (absorbed wv) N) as (m' & E & HP).
    - unfold h_env, Eb. ev. rewrite mul_small by small. rewrite add_small by small. reflexivity.
    - reflexivity.
    - split; [exact M0|]. intros j Hj. lia.
    - lia.
    - intros i m' Hi HP. split.
      + unfold h_env. ev. rewrite lt_true by lia. reflexivity.
      + unfold h_env, Eb. ev. rewrite (cdl' _ (145 + Z.of_nat i)) by lia. ev. rewrite store_al by al. ev. rewrite !add_small by small. rewrite inst_S.
        do 3 eexists. split; [reflexivity|]. split; [env_eq|]. apply absorbed_S; [exact HP|]. unfold wv. apply Nat.ltb_lt in Hi. rewrite Hi. reflexivity.
    - intros m' _. unfold h_env. ev. rewrite lt_false by lia. reflexivity.
    - exists m'. split; [exact E|exact HP].
  Qed.
  Definition p_env (s : Z) (i : nat) : vars B :=
    ("challenge_mptr", 0x1160 : Z') :: ("proof_cptr", 0x84 + 64 * Z.of_nat i : Z') ::
    ("instance_cptr", 0x1224 + 32 * Z.of_nat N : Z') :: ("hash_mptr", 0x20 + 32 * Z.of_nat N + 64 * Z.of_nat i : Z') :: ("num_instances", Z.of_nat N : Z') :: Eb s.
  Lemma h3 s m : exec B call lim (h_env s N) m (part 8 10 main_03) = Cont (p_env s 0) m.
  Proof.
    unfold part. cbn [firstn skipn Nat.sub block_body main_03]. unfold h_env, p_env, Eb. ev. env_eq.
  Qed.
  Definition pts_flags (i : nat) : list Z := flat_map (fun j => point_flags (0x84 + 64 * Z.of_nat j)) (seq 0 i).
  Lemma pts_S s i : all (point_flags (0x84 + 64 * Z.of_nat i)) (all (pts_flags i) s) = all (pts_flags (S i)) s.
  Proof. unfold pts_flags. rewrite seq_S, !flat_map_concat_map, map_app, concat_app, all_app. reflexivity. Qed.
  Lemma h4 s m : absorbed wv N m -> exists m', step B call lim (p_env s 0) m (st 10) = Cont (p_env (all (pts_flags 5) s) 5) m' /\ absorbed wv (N + 10) m'.
  Proof.
    intros M0. cbn [nth block_body main_03].
    edestruct (for_inv B call lim (p_env s 0) m [Let ["proof_cptr_end"] (E (Bin ADD (Var "proof_cptr") (Num 0x0140)))]
      (Bin LT (Var "proof_cptr") (Var "proof_cptr_end")) []
      [Set_ ["success"; "proof_cptr"; "hash_mptr"] (Call "read_ec_point" [(Var "success"); (Var "proof_cptr"); (Var "hash_mptr"); (Var "q")])]
      (("proof_cptr_end", 0x1c4 : Z') :: p_env s 0) m
      (fun i => ("proof_cptr_end", 0x1c4 : Z') :: p_env (all (pts_flags i) s) i) (fun i => absorbed wv (N + 2 * i)) 5%nat) as (m' & E & HP).
    - reflexivity.
    - reflexivity.
    - replace (N + 2 * 0)%nat with N by lia. exact M0.
    - lia.
    - intros i m' Hi HP. split.
      + unfold p_env. ev. rewrite lt_true by lia. reflexivity.
      + set (en := ("proof_cptr_end", 0x1c4 : Z') :: p_env (all (pts_flags i) s) i).
        assert (X : eval_rhs B call en m' (Call "read_ec_point" [(Var "success"); (Var "proof_cptr"); (Var "hash_mptr"); (Var "q")]) =
          Some ([all (pts_flags (S i)) s : Z'; 0x84 + 64 * Z.of_nat i + 64 : Z'; 0x20 + 32 * Z.of_nat N + 64 * Z.of_nat i + 64 : Z'],
                upd (upd m' (0x20 + 32 * Z.of_nat N + 64 * Z.of_nat i) (cdw (0x84 + 64 * Z.of_nat i)))
                  (0x20 + 32 * Z.of_nat N + 64 * Z.of_nat i + 32) (cdw (0x84 + 64 * Z.of_nat i + 32)))).
        { rewrite <- pts_S. rewrite <- (read_point (all (pts_flags i) s) (0x84 + 64 * Z.of_nat i) (4 + 2 * Z.of_nat i)) by (try small; replace (64 * Z.of_nat i) with (32 * (2 * Z.of_nat i)) by lia; al).
          reflexivity. }
        exists (("proof_cptr_end", 0x1c4 : Z') :: p_env (all (pts_flags (S i)) s) (S i)). do 2 eexists. split; [|split; [reflexivity|]].
        * rewrite exec_cons. cbn [step]. rewrite X. unfold en, p_env, Eb. ev. env_eq.
        * assert (L1 : absorbed wv (S (N + 2 * i)) (upd m' (0x20 + 32 * Z.of_nat N + 64 * Z.of_nat i) (cdw (0x84 + 64 * Z.of_nat i)))).
          { replace (0x20 + 32 * Z.of_nat N + 64 * Z.of_nat i) with (0x20 + 32 * Z.of_nat (N + 2 * i)) by lia. apply absorbed_S; [exact HP|].
            unfold wv. destruct (Nat.ltb_spec (N + 2 * i) N); [lia|]. apply f_equal. lia. }
          replace (N + 2 * S i)%nat with (S (S (N + 2 * i))) by lia.
          replace (0x20 + 32 * Z.of_nat N + 64 * Z.of_nat i + 32) with (0x20 + 32 * Z.of_nat (S (N + 2 * i))) by lia. apply absorbed_S; [exact L1|].
          unfold wv. destruct (Nat.ltb_spec (S (N + 2 * i)) N); [lia|]. apply f_equal. lia.
    - intros m' _. reflexivity.
    - exists m'. split; [exact E|exact HP].
  Qed.
  Notation th := (e_kec keccak (k0 :: map wv (seq 0 (N + 10))) None).
  Definition q_env (s : Z) : vars B :=
    ("challenge_mptr", 0x1180 : Z') :: ("proof_cptr", 0x1c4 : Z') ::
    ("instance_cptr", 0x1224 + 32 * Z.of_nat N : Z') :: ("hash_mptr", 0x20 : Z') :: ("num_instances", Z.of_nat N : Z') :: Eb s.
  Lemma hashed m : absorbed wv (N + 10) m -> keccak (m_bytes m 0 (0x20 + 32 * Z.of_nat N + 64 * Z.of_nat 5)) = th.
  Proof.
    intros [M0 M1]. unfold m_bytes, e_kec. replace (0x20 + 32 * Z.of_nat N + 64 * Z.of_nat 5) with (Z.of_nat (S (N + 10)) * 32) by lia.
    rewrite Z.div_mul, Z.mod_mul, Nat2Z.id by lia. change (firstn (Z.to_nat 0) ?l) with (@nil Z). rewrite words1. change (0 + 32) with 32. rewrite M0.
    apply f_equal. apply f_equal2; [|reflexivity]. apply f_equal. apply f_equal. unfold words_at. apply map_ext_in. intros i Hi. apply in_seq in Hi.
    apply M1. lia.
  Qed.
  Lemma h5 s m : absorbed wv (N + 10) m -> exists m', exec B call lim (p_env s 5) m (part 11 12 main_03) = Cont (q_env s) m' /\ m' 0 = th /\ m' 0x1160 = th mod r_mod.
  Proof.
    intros M0. unfold part. cbn [firstn skipn Nat.sub block_body main_03].
    assert (X : eval_rhs B call (p_env s 5) m (Call "squeeze_challenge" [Var "challenge_mptr"; Var "hash_mptr"; Var "r"]) =
      Some ([0x1160 + 32 : Z'; 32 : Z'], upd (upd m 0x1160 (th mod r_mod)) 0 th)).
    { rewrite <- (hashed m M0). rewrite <- (squeeze 0x1160) by (reflexivity || small). reflexivity. }
    eexists. rewrite exec_cons. cbn [step]. rewrite X. split; [reflexivity|]. split; [apply upd_same|]. rewrite upd_other by lia. apply upd_same.
  Qed.
  Lemma head_split : part 0 12 main_03 = (part 0 7 main_03 ++ [st 7] ++ part 8 10 main_03 ++ [st 10] ++ part 11 12 main_03)%list.
  Proof. reflexivity. Qed.
  Theorem head_run m : exists m', exec B call lim (Eb 1) m (part 0 12 main_03) =
      Cont (q_env (all ([f1_; f2_] ++ inst_flags N ++ pts_flags 5)%list 1)) m' /\ m' 0 = th /\ m' 0x1160 = th mod r_mod.
  Proof.
    destruct (h1 m) as (m1 & R1 & Q1). destruct (h2 (all [f1_; f2_] 1) m1 Q1) as (m2 & R2 & Q2). set (s2 := all (inst_flags N) (all [f1_; f2_] 1)) in *.
    destruct (h4 s2 m2 Q2) as (m4 & R4 & Q4). destruct (h5 (all (pts_flags 5) s2) m4 Q4) as (m5 & R5 & Q5).
    exists m5. split; [|exact Q5]. rewrite !all_app. fold s2. rewrite head_split, exec_app, R1. cbn [cont].
    rewrite exec_app, exec_cons, R2. cbn [cont exec]. rewrite exec_app, h3. cbn [cont]. rewrite exec_app, exec_cons, R4. cbn [cont exec]. exact R5.
  Qed.
End Head.
