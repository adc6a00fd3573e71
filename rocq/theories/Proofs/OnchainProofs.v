(** Points of the contracts against points of the client. *)
From Coq Require Import ZArith NArith String List Lia Bool Ring Field.
From Verif.Base Require Import Fermat Primes Fld Fp EC Curves Group Sqrt.
From Verif.Model Require Import Monad Evm Points HashEvm Dkg ModExp PairingSol HashSol PseudoRandSol.
From Verif.Proofs Require Import FTMap HashProofs ModExpProofs BytesProofs HashSolProofs.
Import ListNotations.
Open Scope Z_scope.

(** ** affine coordinates *)
Section Pts.
  Variable K : Fld.
  Variable b : K.
  Hypothesis Hb : b <> f0.
  Open Scope fld_scope.
  Add Field KPts : (flaw K).
  Lemma from_xy_xy (P : EC K b) : from_xy K b (fst (xy P)) (snd (xy P)) = Some P.
  Proof.
    unfold from_xy, xy. destruct P as [[|x y] H]; cbn [EC.pt fst snd].
    - rewrite feqb_refl. cbn [andb]. f_equal. apply EC_ext. reflexivity.
    - destruct (feqb x 0 && feqb y 0) eqn:E.
      + exfalso. apply andb_prop in E as [E1 E2]. apply feqb_eq in E1, E2. subst. apply on_aff in H. apply Hb. transitivity (0 * 0 * 0 + b : K); [ring|]. rewrite <- H. ring.
      + destruct (bool_dec (on_curve K b (Aff K x y)) true) as [H'|N]; [|contradiction]. f_equal. apply EC_ext. reflexivity.
  Qed.
  Lemma xy_from_xy x y P : from_xy K b x y = Some P -> xy P = (x, y).
  Proof.
    unfold from_xy. destruct (feqb x 0 && feqb y 0) eqn:E.
    - apply andb_prop in E as [E1 E2]. apply feqb_eq in E1, E2. subst. intros X. inversion X. reflexivity.
    - destruct (bool_dec _ true) as [H|]; [|discriminate]. intros X. inversion X. reflexivity.
  Qed.
  Lemma xy_inj (P Q : EC K b) : xy P = xy Q -> P = Q.
  Proof. intros E. pose proof (from_xy_xy P) as A. rewrite E, from_xy_xy in A. congruence. Qed.
  Lemma from_xy_iff x y : (exists P, from_xy K b x y = Some P) <-> (x = 0 /\ y = 0) \/ y * y = x * x * x + b.
  Proof.
    split.
    - intros [P E]. apply xy_from_xy in E. destruct P as [[|x' y'] H]; cbn [xy EC.pt] in E; inversion E; subst; auto. right. apply on_aff. exact H.
    - intros [[-> ->]|E]; unfold from_xy.
      + rewrite feqb_refl. cbn [andb]. eauto.
      + destruct (_ && _); eauto. apply on_aff in E. destruct (bool_dec (on_curve K b (Aff K x y)) true); [eauto|contradiction].
  Qed.
End Pts.

Lemma canon_v (a : Fq) : canon (v a) = true.
Proof. unfold canon. pose proof (v_range a). apply andb_true_intro. split; [apply Z.leb_le|apply Z.ltb_lt]; lia. Qed.
Lemma canon_iff x : canon x = true <-> 0 <= x < q_mod.
Proof. unfold canon. rewrite andb_true_iff, Z.leb_le, Z.ltb_lt. tauto. Qed.
Lemma enc_v (P : G1) : enc P = (v (fst (xy P)), v (snd (xy P))). Proof. reflexivity. Qed.
Theorem decode_enc (P : G1) : decode (enc P) = Some P.
Proof. rewrite enc_v. unfold decode. cbn [fst snd]. rewrite !canon_v. cbn [andb]. rewrite !fq_v. exact (from_xy_xy Fq b1 b1_neq0 P). Qed.
Theorem enc_decode p P : decode p = Some P -> enc P = p.
Proof.
  unfold decode. destruct (canon (fst p) && canon (snd p)) eqn:C; [|discriminate]. intros E. apply andb_prop in C as [C1 C2].
  apply (xy_from_xy Fq b1) in E. rewrite enc_v, E. cbn [fst snd]. rewrite !v_fq. apply canon_iff in C1, C2. rewrite !Z.mod_small by auto. destruct p; auto.
Qed.
Lemma enc_inj (P Q : G1) : enc P = enc Q -> P = Q.
Proof. intros E. pose proof (decode_enc P) as A. rewrite E, decode_enc in A. congruence. Qed.

Lemma addition_enc (P Q : G1) : addition (enc P) (enc Q) = Ok (enc (P ⊕ Q)%grp).
Proof. unfold addition. rewrite !decode_enc. reflexivity. Qed.
Lemma scalar_mul_enc (P : G1) s : scalar_mul (enc P) s = Ok (enc (zmul s P)).
Proof. unfold scalar_mul. rewrite decode_enc. reflexivity. Qed.
Lemma scalar_mul_fr (P : G1) (k : Fr) : scalar_mul (enc P) (fval (k : Fp r_mod)) = Ok (enc (g1mul P k)).
Proof. apply scalar_mul_enc. Qed.
Lemma sol_q_eq : sol_q = q_mod. Proof. reflexivity. Qed.
Lemma negate_enc (P : G1) : negate (enc P) = Ok (enc (⊖ P)%grp).
Proof.
  destruct P as [[|x y] H].
  - unfold negate. cbn [enc px py xy EC.pt fst snd]. change (enc (⊖ (mkEC Fq b1 (Inf Fq) H : G1))%grp) with (v f0, v f0). reflexivity.
  - rewrite enc_aff. change (enc (⊖ (mkEC Fq b1 (Aff Fq x y) H : G1))%grp) with (v x, v (- y)%fld).
    unfold negate. cbn [fst snd]. pose proof (proj1 (on_aff Fq b1 x y) H) as On.
    assert (Ny : y <> f0) by (apply (no_zero_y x); exact On).
    destruct ((v x =? 0) && (v y =? 0)) eqn:E.
    + exfalso. apply andb_prop in E as [_ E]. apply Z.eqb_eq in E. apply Ny. apply v_inj. exact E.
    + rewrite sol_q_eq. rewrite (Z.mod_small (v y)) by apply v_range. change q_mod with HQ at 1. rewrite vsub_ok. cbn [bind]. rewrite v_opp by auto. reflexivity.
Qed.
Lemma P1_enc : P1 = enc g1. Proof. reflexivity. Qed.
Lemma zmul_r (P : G1) z : zmul z P = g1mul P (fr z).
Proof. unfold g1mul. apply zmul_smul; [exact r_prime|apply G1_exponent]. Qed.

(** ** hash to curve *)
Section Hash.
  Variable keccak : bytes -> Z.
  Hypothesis keccak_range : forall b, 0 <= keccak b < 2 ^ 256.
  Lemma RR_eq : HR = RR. Proof. reflexivity. Qed.
  Lemma field_elt h0 h1 : addmod (mulmod h0 HR HQ) h1 HQ = v (fq h0 * fq RR + fq h1)%fld.
  Proof.
    rewrite HQ_eq, RR_eq. change (v (fq h0 * fq RR + fq h1)%fld) with (Z.modulo (Z.modulo (Z.modulo h0 q_mod * Z.modulo RR q_mod) q_mod + Z.modulo h1 q_mod) q_mod).
    unfold addmod, mulmod. rewrite <- Zmult_mod, <- Zplus_mod. rewrite Zplus_mod_idemp_l. reflexivity.
  Qed.
  Theorem hashToField_ok domain msg : Z.of_nat (length domain) < 2 ^ 64 -> Z.of_nat (length msg) < 2 ^ 64 ->
    hashToField keccak domain msg = (v (fst (hash_to_field_evm keccak domain msg)), v (snd (hash_to_field_evm keccak domain msg))).
  Proof.
    intros D M. unfold hashToField, hash_to_field_evm. cbv zeta. cbn [fst snd]. rewrite !len32_word by auto. unfold keccak_vec. rewrite !from_raw_be by apply keccak_range.
    rewrite !field_elt. reflexivity.
  Qed.
  Theorem sol_hash_ok domain msg : Z.of_nat (length domain) < 2 ^ 64 -> Z.of_nat (length msg) < 2 ^ 64 ->
    exists P, hash_to_curve_bn keccak domain msg = Ok P /\ sol_hashToG1 keccak domain msg = Ok (enc P).
  Proof.
    intros D M. unfold hash_to_curve_bn, hash_to_curve_evm, sol_hashToG1. cbv zeta. rewrite hashToField_ok by auto. cbn [fst snd].
    destruct (map_to_curve_ok (fst (hash_to_field_evm keccak domain msg))) as (x & y & H & _ & E).
    destruct (map_to_curve_ok (snd (hash_to_field_evm keccak domain msg))) as (x' & y' & H' & _ & E').
    rewrite (mapToG1_ok _ _ E), (mapToG1_ok _ _ E'), E, E'. cbn [bind]. rewrite addition_enc. eauto.
  Qed.
  Lemma prefix_len : Z.of_nat (length EVAL_PREFIX) < 2 ^ 64. Proof. reflexivity. Qed.
  Lemma DOMAIN_eq : DOMAIN = EVAL_PREFIX. Proof. reflexivity. Qed.
End Hash.
