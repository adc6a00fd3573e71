(** PseudoRand.sol against the client's verification. *)
From Coq Require Import ZArith NArith String List Lia Bool.
From Verif.Base Require Import Fermat Primes Fld Fp EC Curves Group.
From Verif.Model Require Import Monad Evm Points HashEvm Dkg Lib Zkdvrf PairingSol HashSol PseudoRandSol GppSol RealEnv.
From Verif.Spec Require Import Dvrf Onchain Refinement.
From Verif.Proofs Require Import DkgProofs DvrfProofs BytesProofs HashProofs HashSolProofs OnchainProofs InstanceProofs GppProofs.
Import ListNotations.
Open Scope Z_scope.

Lemma rev_coord P : rev (coord_bytes P) = word (fst (enc P)) ++ word (snd (enc P)).
Proof. unfold coord_bytes. rewrite rev_app_distr, !rev_to_bytes. reflexivity. Qed.
Lemma transcript_pack s k r2 r1 h g : transcript s k r2 r1 h g = pack [enc g; enc h; enc r1; enc r2; enc k; enc s].
Proof. unfold transcript, pack. rewrite !rev_app_distr, !rev_coord. cbn [flat_map]. rewrite app_nil_r, <- !app_assoc. reflexivity. Qed.
Lemma PR_R_eq : PR_R = r_mod. Proof. reflexivity. Qed.

Section V.
  Variable keccak : bytes -> Z.
  Hypothesis KR : keccak_ok keccak.

  Lemma challenge_val s k r2 r1 h g : vr (challenge keccak s k r2 r1 h g) = keccak (pack [enc g; enc h; enc r1; enc r2; enc k; enc s]) mod PR_R.
  Proof. unfold challenge, keccak_vec. rewrite from_raw_be by apply KR. rewrite transcript_pack, PR_R_eq. reflexivity. Qed.

  Lemma fast_enc (h sigma k : G1) z c : verifyPartialEvalFast keccak (enc h) (enc sigma) z c (enc k) =
    Ok (vr (challenge keccak sigma k (zmul z h ⊕ ⊖ zmul c sigma)%grp (zmul z g1 ⊕ ⊖ zmul c k)%grp h g1) =? c).
  Proof.
    unfold verifyPartialEvalFast. cbv zeta. rewrite P1_enc. repeat (first [rewrite scalar_mul_enc | rewrite negate_enc | rewrite addition_enc]; cbn [bind]).
    rewrite challenge_val. reflexivity.
  Qed.
  Lemma full_fast m h s z c k : sol_hashToG1 keccak DOMAIN m = Ok h -> verifyPartialEval keccak m s z c k = verifyPartialEvalFast keccak h s z c k.
  Proof. intros E. unfold verifyPartialEval. rewrite E. reflexivity. Qed.
  Lemma zmul_vr (P : G1) (c : Fr) : zmul (vr c) P = g1mul P c. Proof. reflexivity. Qed.
  Lemma msg_hash m : Z.of_nat (length m) < 2 ^ 64 -> exists h, hash_to_curve_bn keccak EVAL_PREFIX m = Ok h /\ sol_hashToG1 keccak DOMAIN m = Ok (enc h).
  Proof. intros L. rewrite DOMAIN_eq. exact (sol_hash_ok keccak KR EVAL_PREFIX m eq_refl L). Qed.

  (** any arguments the contract accepts: canonical curve points, a reduced challenge *)
  Lemma fast_inv h s z c k b : verifyPartialEvalFast keccak h s z c k = Ok b ->
    exists H S K, h = enc H /\ s = enc S /\ k = enc K.
  Proof.
    unfold verifyPartialEvalFast. cbv zeta. rewrite P1_enc, scalar_mul_enc. cbn [bind]. unfold scalar_mul at 1.
    destruct (decode k) as [K|] eqn:DK; [|discriminate]. cbn [bind]. rewrite negate_enc. cbn [bind]. rewrite addition_enc. cbn [bind].
    unfold scalar_mul at 1. destruct (decode h) as [H|] eqn:DH; [|discriminate]. cbn [bind]. unfold scalar_mul at 1.
    destruct (decode s) as [S|] eqn:DS; [|discriminate]. cbn [bind]. intros _. exists H, S, K. repeat split; symmetry; apply enc_decode; auto.
  Qed.

  Theorem pe_agree cfg (e : Dkg.partial_eval) m (k : G1) : 1 <= pe_index e <= number_of_members cfg -> Z.of_nat (length m) < 2 ^ 64 ->
    verifyPartialEval keccak m (enc (pe_value e)) (vr (pe_z e)) (vr (pe_c e)) (enc k) = Ok (is_ok (pe_verify keccak e cfg m k)).
  Proof.
    intros I L. destruct (msg_hash m L) as (h & E1 & E2). rewrite (full_fast _ _ _ _ _ _ E2), fast_enc, !zmul_vr. f_equal.
    unfold pe_verify. destruct (Z.ltb_spec (number_of_members cfg) (pe_index e)); [lia|]. destruct (Z.ltb_spec (pe_index e) 1); [lia|]. cbn [orb].
    rewrite E1. cbn [bind]. set (ct := challenge keccak _ _ _ _ _ _). destruct (feqb (pe_c e) ct) eqn:Q.
    - apply feqb_eq in Q. rewrite <- Q. apply Z.eqb_refl.
    - destruct (Z.eqb_spec (vr ct) (vr (pe_c e))) as [X|]; auto. apply vr_inj in X. rewrite X, feqb_refl in Q. discriminate.
  Qed.

  Theorem pe_inv cfg m s z c k i : 1 <= i <= number_of_members cfg -> Z.of_nat (length m) < 2 ^ 64 -> verifyPartialEval keccak m s z c k = Ok true ->
    exists S K, s = enc S /\ k = enc K /\ 0 <= c < r_mod /\ pe_verify keccak (mkPartialEval i S (fr z) (fr c)) cfg m K = Ok tt.
  Proof.
    intros I L H. destruct (msg_hash m L) as (h & E1 & E2). rewrite (full_fast _ _ _ _ _ _ E2) in H.
    destruct (fast_inv _ _ _ _ _ _ H) as (H0 & S & K & _ & -> & ->). exists S, K. split; auto. split; auto.
    rewrite fast_enc in H. match type of H with Ok (?a =? c) = _ => assert (C : a = c) by (apply Z.eqb_eq; congruence) end.
    assert (R : 0 <= c < r_mod) by (rewrite <- C; apply vr_range). split; auto. clear H.
    pose proof (pe_agree cfg (mkPartialEval i S (fr z) (fr c)) m K I L) as A. cbn [pe_value pe_z pe_c] in A.
    rewrite (full_fast _ _ _ _ _ _ E2), fast_enc in A.
    assert (Ec : vr (fr c) = c) by (rewrite vr_fr; apply Z.mod_small; auto). rewrite Ec in A.
    assert (Ez : forall P : G1, zmul (vr (fr z)) P = zmul z P) by (intros P; rewrite (zmul_r P z); reflexivity). rewrite !Ez, C, Z.eqb_refl in A.
    unfold is_ok in A. destruct (pe_verify _ _ _ _ _) as [[]| |]; congruence.
  Qed.
  Theorem z_reduced m s z c k : verifyPartialEval keccak m s (z + r_mod) c k = verifyPartialEval keccak m s z c k.
  Proof.
    assert (Z1 : forall P : G1, zmul (z + r_mod) P = zmul z P) by (intros P; rewrite zmul_add, G1_exponent, g0_r; reflexivity).
    assert (Z2 : forall p, scalar_mul p (z + r_mod) = scalar_mul p z) by (intros p; unfold scalar_mul; destruct (decode p); rewrite ?Z1; auto).
    unfold verifyPartialEval. cbv zeta. destruct (sol_hashToG1 keccak DOMAIN m); auto. cbn [bind]. rewrite !Z2. reflexivity.
  Qed.

  Variable in_g2 : G2c -> bool.
  Variable pairing : list (G1 * G2c) -> bool.
  Hypothesis HG : in_g2_ok in_g2.

  Lemma pr_fast (h s : G1) gpk : verifyPseudoRandFast in_g2 pairing (enc h) (enc s) gpk =
    match mem2 in_g2 gpk with Some Q => Ok (pairing [((⊖ h)%grp, Q); (s, g2)]) | None => invalid end.
  Proof. unfold verifyPseudoRandFast. rewrite negate_enc. cbn [bind]. rewrite prod2_ok, !decode_enc, (mem2_g2 in_g2 HG). destruct (mem2 in_g2 gpk); auto. Qed.
  Lemma pr_full m h s gpk : sol_hashToG1 keccak DOMAIN m = Ok h -> verifyPseudoRand keccak in_g2 pairing m s gpk = verifyPseudoRandFast in_g2 pairing h s gpk.
  Proof. intros E. unfold verifyPseudoRand. rewrite E. reflexivity. Qed.
  Lemma prf_value_word (S : G1) : prf_value keccak S = be_bytes 32 (keccak (word (fst (enc S)) ++ word (snd (enc S)))).
  Proof. unfold prf_value, keccak_vec. rewrite rev_coord. reflexivity. Qed.

  Theorem pr_agree m (S : G1) x (sec : Fr) : Z.of_nat (length m) < 2 ^ 64 -> 0 <= x < 2 ^ 256 ->
    (verifyPseudoRand keccak in_g2 pairing m (enc S) (enc2 (g2mul g2 sec)) = Ok true /\ x = keccak (word (fst (enc S)) ++ word (snd (enc S)))) <->
    pr_verify keccak pairing (mkPseudoRandom S (be_bytes 32 x)) m (g2mul g2 sec) = Ok tt.
  Proof.
    intros L Hx. destruct (msg_hash m L) as (h & E1 & E2). rewrite (pr_full _ _ _ _ E2), pr_fast.
    rewrite (proj2 (mem2_iff in_g2 HG (enc2 (g2mul g2 sec)) (g2mul g2 sec))) by eauto.
    unfold pr_verify. rewrite E1. cbn [bind pr_proof pr_value]. destruct (pairing _); cbn [negb].
    - rewrite prf_value_word. set (w := keccak _). pose proof (bytes_eqb_eq (be_bytes 32 x) (be_bytes 32 w)) as B.
      assert (W : x = w <-> be_bytes 32 x = be_bytes 32 w) by (split; [congruence|]; apply be_inj; [exact Hx|apply KR]).
      destruct (bytes_eqb _ _); cbn [negb].
      + split; auto. intros _. split; auto. apply W. apply B. reflexivity.
      + split; [|discriminate]. intros [_ X]. apply W, B in X. discriminate.
    - split; [intros [X _]; discriminate|discriminate].
  Qed.
  (** the contract answers for every canonical input (true or false, never a revert) *)
  Theorem pr_total m (S : G1) (sec : Fr) : Z.of_nat (length m) < 2 ^ 64 -> exists b, verifyPseudoRand keccak in_g2 pairing m (enc S) (enc2 (g2mul g2 sec)) = Ok b.
  Proof.
    intros L. destruct (msg_hash m L) as (h & E1 & E2). rewrite (pr_full _ _ _ _ E2), pr_fast.
    rewrite (proj2 (mem2_iff in_g2 HG (enc2 (g2mul g2 sec)) (g2mul g2 sec))) by eauto. eauto.
  Qed.
  Theorem pr_inv m s gpk : Z.of_nat (length m) < 2 ^ 64 -> verifyPseudoRand keccak in_g2 pairing m s gpk = Ok true ->
    exists S sec, s = enc S /\ gpk = enc2 (g2mul g2 sec) /\
      pr_verify keccak pairing (mkPseudoRandom S (be_bytes 32 (keccak (word (fst s) ++ word (snd s))))) m (g2mul g2 sec) = Ok tt.
  Proof.
    intros L H. pose proof H as H'. destruct (msg_hash m L) as (h & E1 & E2). rewrite (pr_full _ _ _ _ E2) in H. unfold verifyPseudoRandFast in H.
    rewrite negate_enc in H. cbn [bind] in H. rewrite prod2_ok in H. rewrite decode_enc in H. destruct (mem2 in_g2 gpk) as [Q|] eqn:M; [|discriminate H].
    destruct (decode s) as [S|] eqn:D; [|discriminate H]. apply (mem2_iff in_g2 HG) in M as [-> [sec ->]]. apply enc_decode in D. subst s.
    exists S, sec. split; auto. split; auto. apply pr_agree; auto.
  Qed.
  Lemma env_coherent halo2 : coherent (real_env keccak in_g2 pairing halo2).
  Proof.
    split; intros m h E; cbn [hash_to_g1 real_env] in E; unfold hashToG1 in E; intros.
    - apply full_fast. exact E.
    - apply pr_full. exact E.
  Qed.
End V.
