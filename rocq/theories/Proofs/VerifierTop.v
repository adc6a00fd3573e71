(** The whole verifier. *)
From Coq Require Import ZArith NArith List String Bool Lia.
From Verif.Base Require Import Fld Fp EC Primes Curves Group.
From Verif.Model Require Import Monad Evm Points PairingSol Yul Halo2VerifierSol.
From Verif.Spec Require Import Plonk PlonkVerifier.
From Verif.Proofs Require Import HashSolProofs InstanceProofs OnchainProofs YulSim YulSym YulCon VerifierSetup VerifierTools VerifierGates
  VerifierLagrange VerifierOpen VerifierAlgebra VerifierRun VerifierFront VerifierTail VerifierKey VerifierInput VerifierPoints.
Import ListNotations.
Open Scope string_scope.
Open Scope Z_scope.

(** *** The transcript *)
Lemma be_head n : forall x, firstn 1 (be_bytes (S n) x) = [x / 256 ^ Z.of_nat n mod 256].
Proof.
  induction n as [|n IH]; intros x; [cbn; rewrite Z.div_1_r; reflexivity|].
  change (be_bytes (S (S n)) x) with (be_bytes (S n) (x / 256) ++ [x mod 256])%list.
  rewrite firstn_app. specialize (IH (x / 256)).
  assert (L : List.length (be_bytes (S n) (x / 256)) = S n).
  { clear. generalize (x / 256). induction (S n) as [|k IHk]; intros z; [reflexivity|]. cbn [be_bytes]. rewrite app_length, IHk. cbn. lia. }
  rewrite L. replace (1 - S n)%nat with 0%nat by lia. cbn [firstn]. rewrite app_nil_r. cbn [firstn] in IH. rewrite IH. f_equal.
  rewrite Z.div_div by lia. rewrite Nat2Z.inj_succ, Z.pow_succ_r by lia. reflexivity.
Qed.
Lemma one_byte w : firstn 1 (word (e_v8 1 w)) = [1].
Proof.
  unfold word. rewrite be_head. unfold e_v8. change (1 mod 256) with 1. change (256 ^ Z.of_nat 31) with (2 ^ 248).
  replace (1 * 2 ^ 248 + w mod 2 ^ 248) with (w mod 2 ^ 248 + 1 * 2 ^ 248) by lia. rewrite Z.div_add by lia.
  rewrite Z.div_small by (apply Z.mod_pos_bound; lia). reflexivity.
Qed.

Section Top.
  Variable keccak : bytes -> Z.
  Variable in_g2 : G2c -> bool.
  Variable pairing : list (G1 * G2c) -> bool.
  Variable calldata : list Z.
  Variable code : Z -> list Z.
  Hypothesis Hpos : Forall (fun w => 0 <= w) calldata.
  Notation B := (EVM keccak in_g2 pairing calldata code).
  Notation cdw := (e_cdw calldata).

  Section Given.
    Variable k : vkey.
    Notation chals := (chal_words (k_instances k) (e_v8) (e_kec keccak) cdw (kwd k)).
    Hypothesis Hok : key_ok k.
    Variable p : proof.
    Variable insts : list Fr.
    Hypothesis HR : reads calldata (k_instances k) p insts.
    Definition hs : hashes := transcript Z keccak word 1 (k_digest k) (map scalar_word insts) (proof_words p).
    Notation c := (challenges_of hs).
    Lemma words_proof : proof_words p = map (wd calldata) (seq 4 140).
    Proof.
      destruct HR as (_ & _ & E & _). transitivity (firstn 140 (skipn 1 (map (wd calldata) (seq 3 (142 + k_instances k))))); [|reflexivity].
      rewrite E. change (skipn 1 ([0x1180] ++ ?l)%list) with l. rewrite firstn_app, (len_pw calldata (k_instances k) p insts HR), Nat.sub_diag.
      change (firstn 0 ?l) with (@nil Z). rewrite app_nil_r. symmetry.
      transitivity (firstn (List.length (proof_words p)) (proof_words p)); [|apply firstn_all].
      rewrite (len_pw calldata (k_instances k) p insts HR). reflexivity.
    Qed.
    Lemma words_insts : map scalar_word insts = map (wd calldata) (seq 145 (k_instances k)).
    Proof.
      destruct HR as (_ & _ & E & _). transitivity (skipn 142 (map (wd calldata) (seq 3 (142 + k_instances k)))); [|reflexivity].
      rewrite E. change (skipn 142 ([0x1180] ++ ?l)%list) with (skipn 141 l). rewrite skipn_app, (len_pw calldata (k_instances k) p insts HR).
      rewrite skipn_all2 by (rewrite (len_pw calldata (k_instances k) p insts HR); lia). reflexivity.
    Qed.
    Lemma ins_words : map cdw (inst_addrs (k_instances k)) = map (wd calldata) (seq 145 (k_instances k)).
    Proof.
      unfold inst_addrs. rewrite map_map. replace (seq 145 (k_instances k)) with (map (fun i => 145 + i)%nat (seq 0 (k_instances k))).
      - rewrite map_map. apply map_ext. intros i. rewrite <- cdw_wd. f_equal. lia.
      - generalize (k_instances k), 145%nat. intros n s. apply (nth_ext _ _ 0%nat 0%nat); rewrite map_length, !seq_length; [reflexivity|].
        intros i Hi. rewrite (nth_indep _ 0%nat (s + 0)%nat) by (rewrite map_length, seq_length; exact Hi).
        rewrite (map_nth (fun i => s + i)%nat), !seq_nth by exact Hi. reflexivity.
    Qed.
    Lemma digest_word : kwd k 0 = k_digest k. Proof. reflexivity. Qed.
    Lemma kec_again h w : e_kec keccak [h] (Some (e_v8 1 w, 1)) = again Z keccak word 1 h.
    Proof.
      unfold e_kec, again. change (Z.to_nat 1) with 1%nat. rewrite one_byte. unfold flat_map. rewrite app_nil_r. reflexivity.
    Qed.
    Lemma kec_absorb h ws : e_kec keccak ([h] ++ ws)%list None = absorb Z keccak word h ws.
    Proof. unfold e_kec, absorb. rewrite app_nil_r. reflexivity. Qed.
    Notation wb i j := (words_between i j (proof_words p)).
    Lemma between_ok : prf cdw 0 10 = wb 0%nat 10%nat /\ prf cdw 10 30 = wb 10%nat 30%nat /\ prf cdw 30 48 = wb 30%nat 48%nat /\
      prf cdw 48 58 = wb 48%nat 58%nat /\ prf cdw 58 136 = wb 58%nat 136%nat /\ prf cdw 136 138 = wb 136%nat 138%nat.
    Proof. rewrite words_proof. repeat split; reflexivity. Qed.
    Lemma chals_ok : chals = [h_theta hs; h_beta hs; h_gamma hs; h_y hs; h_x hs; h_zeta hs; h_nu hs; h_mu hs].
    Proof.
      destruct between_ok as (P1 & P2 & P3 & P4 & P5 & P6).
      assert (E1 : c_th (k_instances k) (e_kec keccak) cdw (kwd k) = h_theta hs).
      { unfold c_th. rewrite P1, kec_absorb, digest_word. unfold hs, transcript. cbn [h_theta]. rewrite words_insts, <- ins_words. reflexivity. }
      assert (E2 : c_be (k_instances k) (e_kec keccak) cdw (kwd k) = h_beta hs). { unfold c_be. rewrite P2, E1, kec_absorb. reflexivity. }
      assert (E3 : c_ga (k_instances k) e_v8 (e_kec keccak) cdw (kwd k) = h_gamma hs). { unfold c_ga. rewrite E2, kec_again. reflexivity. }
      assert (E4 : c_y (k_instances k) e_v8 (e_kec keccak) cdw (kwd k) = h_y hs). { unfold c_y. rewrite P3, E3, kec_absorb. reflexivity. }
      assert (E5 : c_x (k_instances k) e_v8 (e_kec keccak) cdw (kwd k) = h_x hs). { unfold c_x. rewrite P4, E4, kec_absorb. reflexivity. }
      assert (E6 : c_ze (k_instances k) e_v8 (e_kec keccak) cdw (kwd k) = h_zeta hs). { unfold c_ze. rewrite P5, E5, kec_absorb. reflexivity. }
      assert (E7 : c_nu (k_instances k) e_v8 (e_kec keccak) cdw (kwd k) = h_nu hs). { unfold c_nu. rewrite E6, kec_again. reflexivity. }
      assert (E8 : c_mu (k_instances k) e_v8 (e_kec keccak) cdw (kwd k) = h_mu hs). { unfold c_mu. rewrite P6, E7, kec_absorb. reflexivity. }
      unfold VerifierFront.chal_words. rewrite E1, E2, E3, E4, E5, E6, E7, E8. reflexivity.
    Qed.

    (** *** The memory after the key was loaded and the challenges drawn *)
    Definition vkp (a : Z) : G1 := if a =? 0x820 then k_gen k else nth (Z.to_nat ((a - 0x960) / 64)) (k_fixed k ++ k_sigma k) g0.
    Notation sb := (sbase Fr G1 (kwd k) vkp (k_n_inv k) (k_omega k) (k_omega_inv k) (k_omega_inv_l k) (theta c) (beta c) (gamma c) (y c) (x c) (zeta c) (nu c) (mu c)).
    Notation holds := (holds (kwd k) vkp (k_n_inv k) (k_omega k) (k_omega_inv k) (k_omega_inv_l k) (theta c) (beta c) (gamma c) (y c) (x c) (zeta c) (nu c) (mu c)).
    Section Mem.
      Variable m : mem.
      Hypothesis m_key : forall i, (i < 85)%nat -> m (0x6c0 + 32 * Z.of_nat i) = kwd k i.
      Hypothesis m_chal : forall i, (i < 8)%nat -> m (0x1160 + 32 * Z.of_nat i) = nth i chals 0 mod r_mod.
      Lemma key_word_i i : kwd k i = nth i (key_words k) 0. Proof. reflexivity. Qed.
      Lemma len_key : List.length (k_fixed k ++ k_sigma k) = 32%nat.
      Proof. rewrite app_length. destruct Hok as (-> & -> & _). reflexivity. Qed.
      Lemma key_point t : (t < 32)%nat -> kwd k (21 + 2 * t) = px (nth t (k_fixed k ++ k_sigma k) g0) /\
        kwd k (22 + 2 * t) = py (nth t (k_fixed k ++ k_sigma k) g0).
      Proof.
        intros Ht. destruct (nth_points (k_fixed k ++ k_sigma k) t) as [E1 E2]; [rewrite len_key; exact Ht|].
        rewrite !key_word_i. split; [exact E1|]. replace (22 + 2 * t)%nat with (21 + (2 * t + 1))%nat by lia. exact E2.
      Qed.
      Lemma m_at a i : a = 0x6c0 + 32 * Z.of_nat i -> (i < 85)%nat -> m a = kwd k i.
      Proof. intros ->. apply m_key. Qed.
      Lemma chal_at a i : a = 0x1160 + 32 * Z.of_nat i -> (i < 8)%nat -> m a = vr (fr (nth i chals 0)).
      Proof. intros ->. apply m_chal. Qed.
      Lemma base_points a t : a = 0x960 + 32 * Z.of_nat t -> (t < 64)%nat -> rel (key_word Fr G1 vkp a) (m a).
      Proof.
        intros -> Ht. rewrite (m_at _ (21 + t)) by lia. unfold key_word, vkp.
        destruct (even_odd t) as (j & [->| ->]).
        - replace (0x960 + 32 * Z.of_nat (2 * j) - 0x820) with (0 + Z.of_nat (5 + j) * 64) by lia. rewrite Z.mod_add by lia.
          change (0 mod 64 =? 0) with true. cbn [rel]. destruct (Z.eqb_spec (0x960 + 32 * Z.of_nat (2 * j)) 0x820); [lia|].
          replace (0x960 + 32 * Z.of_nat (2 * j) - 0x960) with (Z.of_nat j * 64) by lia. rewrite Z.div_mul, Nat2Z.id by lia.
          apply key_point. lia.
        - replace (0x960 + 32 * Z.of_nat (2 * j + 1) - 0x820) with (32 + Z.of_nat (5 + j) * 64) by lia. rewrite Z.mod_add by lia.
          change (32 mod 64 =? 0) with false. cbn [rel]. destruct (Z.eqb_spec (0x960 + 32 * Z.of_nat (2 * j + 1) - 32) 0x820); [lia|].
          replace (0x960 + 32 * Z.of_nat (2 * j + 1) - 32 - 0x960) with (Z.of_nat j * 64) by lia. rewrite Z.div_mul, Nat2Z.id by lia.
          replace (21 + (2 * j + 1))%nat with (22 + 2 * j)%nat by lia. apply key_point. lia.
      Qed.
      Lemma key_scalar i (s : Fr) : s = fr (kwd k i) -> (0 <= kwd k i < r_mod) -> kwd k i = vr s.
      Proof. intros -> H. unfold vr, fr. rewrite fval_of_Z, Z.mod_small by exact H. reflexivity. Qed.
      Lemma kw_scalar (s : Fr) i : scalar_word s = kwd k i -> kwd k i = vr s. Proof. intros <-. reflexivity. Qed.
      Lemma base_ok : holds [] m.
      Proof.
        intros a u E. unfold slook in E. cbn [wr bs alook] in E. unfold sbase in E.
        unfold aligned in E. destruct (Z.eqb_spec (a mod 32) 0) as [Hm|]; cbn [negb] in E; [|discriminate E].
        assert (Ha : a = 32 * (a / 32)) by (pose proof (Z.div_mod a 32); lia).
        destruct (between 0x960 a 0x1160) eqn:B1.
        { cbn [orb] in E. apply some_inj in E; subst u. unfold between in B1. apply andb_prop in B1 as [B1 B2]. apply Z.leb_le in B1. apply Z.ltb_lt in B2.
          apply (base_points a (Z.to_nat ((a - 0x960) / 32))).
          - rewrite Z2Nat.id by (apply Z.div_pos; lia). replace (a - 0x960) with ((a / 32 - 75) * 32) by lia. rewrite Z.div_mul by lia. lia.
          - replace (a - 0x960) with ((a / 32 - 75) * 32) by lia. rewrite Z.div_mul by lia. lia. }
        cbn [orb] in E. destruct (between 0x820 a 0x860) eqn:B2.
        { apply some_inj in E; subst u. unfold between in B2. apply andb_prop in B2 as [B2 B3]. apply Z.leb_le in B2. apply Z.ltb_lt in B3.
          assert (Hc : a = 0x820 \/ a = 0x840) by lia. destruct Hc as [-> | ->].
          - rewrite (m_at _ 11) by lia. exact (key_word_i 11). - rewrite (m_at _ 12) by lia. exact (key_word_i 12). }
        destruct (Z.eqb_spec a 0x06e0) as [-> |_]. { apply some_inj in E; subst u. rewrite (m_at _ 1) by lia. reflexivity. }
        destruct (Z.eqb_spec a 0x0700) as [-> |_]. { apply some_inj in E; subst u. rewrite (m_at _ 2) by lia. reflexivity. }
        destruct (Z.eqb_spec a 0x0720) as [-> |_]. { apply some_inj in E; subst u. rewrite (m_at _ 3) by lia. exact (key_word_i 3). }
        destruct (Z.eqb_spec a 0x0740) as [-> |_]. { apply some_inj in E; subst u. rewrite (m_at _ 4) by lia. exact (key_word_i 4). }
        destruct (Z.eqb_spec a 0x0760) as [-> |_]. { apply some_inj in E; subst u. rewrite (m_at _ 5) by lia. exact (key_word_i 5). }
        destruct (Z.eqb_spec a 0x0780) as [-> |_]. { apply some_inj in E; subst u. rewrite (m_at _ 6) by lia. exact (key_word_i 6). }
        destruct (Z.eqb_spec a 0x07a0) as [-> |_]. { apply some_inj in E; subst u. rewrite (m_at _ 7) by lia. reflexivity. }
        destruct (between 0x860 a 0x960) eqn:B3.
        { apply some_inj in E; subst u. unfold between in B3. apply andb_prop in B3 as [B3 B4]. apply Z.leb_le in B3. apply Z.ltb_lt in B4.
          cbn [rel]. apply m_at.
          - rewrite Z2Nat.id by (apply Z.div_pos; lia). replace (a - 0x6c0) with ((a / 32 - 54) * 32) by lia. rewrite Z.div_mul by lia. lia.
          - replace (a - 0x6c0) with ((a / 32 - 54) * 32) by lia. rewrite Z.div_mul by lia. lia. }
        pose proof chal_at as HC. rewrite chals_ok in HC.
        destruct (Z.eqb_spec a 0x1160) as [-> |_]. { apply some_inj in E; subst u. exact (HC 0x1160 0%nat eq_refl ltac:(lia)). }
        destruct (Z.eqb_spec a 0x1180) as [-> |_]. { apply some_inj in E; subst u. exact (HC 0x1180 1%nat eq_refl ltac:(lia)). }
        destruct (Z.eqb_spec a 0x11a0) as [-> |_]. { apply some_inj in E; subst u. exact (HC 0x11a0 2%nat eq_refl ltac:(lia)). }
        destruct (Z.eqb_spec a 0x11c0) as [-> |_]. { apply some_inj in E; subst u. exact (HC 0x11c0 3%nat eq_refl ltac:(lia)). }
        destruct (Z.eqb_spec a 0x11e0) as [-> |_]. { apply some_inj in E; subst u. exact (HC 0x11e0 4%nat eq_refl ltac:(lia)). }
        destruct (Z.eqb_spec a 0x1200) as [-> |_]. { apply some_inj in E; subst u. exact (HC 0x1200 5%nat eq_refl ltac:(lia)). }
        destruct (Z.eqb_spec a 0x1220) as [-> |_]. { apply some_inj in E; subst u. exact (HC 0x1220 6%nat eq_refl ltac:(lia)). }
        destruct (Z.eqb_spec a 0x1240) as [-> |_]. { apply some_inj in E; subst u. exact (HC 0x1240 7%nat eq_refl ltac:(lia)). }
        discriminate E.
      Qed.
    End Mem.
  End Given.
End Top.
