(** Encodings of points in the instance vector. *)
From Coq Require Import ZArith NArith String List Lia Bool.
From Verif.Base Require Import Fermat Primes Fld Fp EC Curves Group Fq2.
From Verif.Model Require Import Monad Evm Points HashEvm Dkg Lib Zkdvrf PairingSol GppSol.
From Verif.Proofs Require Import DkgProofs BytesProofs HashSolProofs OnchainProofs.
Import ListNotations.
Open Scope Z_scope.

Definition vr (a : Fr) : Z := fval (a : Fp r_mod).
Lemma vr_range a : 0 <= vr a < r_mod. Proof. exact (fval_range r_mod a eq_refl). Qed.
Lemma vr_fr z : vr (fr z) = z mod r_mod. Proof. reflexivity. Qed.
Lemma fr_vr a : fr (vr a) = a. Proof. exact (of_Z_fval r_mod a). Qed.
Lemma vr_inj a b : vr a = vr b -> a = b. Proof. intros H. exact (Fp_ext r_mod a b H). Qed.
Lemma r_lt_q : r_mod < q_mod. Proof. reflexivity. Qed.

Definition lo (x : Z) := x mod 2 ^ 136.
Definition hi (x : Z) := x / 2 ^ 136.
Lemma wrap2 a c : (fr a * fr (2 ^ BIT_LEN_LIMB) + fr c)%fld = fr (a * 2 ^ 68 + c).
Proof. unfold fr. rewrite of_Z_add, of_Z_mul. reflexivity. Qed.
Lemma split_limbs x : 0 <= x -> (x / 2 ^ 68) mod 2 ^ 68 * 2 ^ 68 + x mod 2 ^ 68 = lo x.
Proof.
  intros H. unfold lo. change (2 ^ 136) with (2 ^ 68 * 2 ^ 68). rewrite Z.rem_mul_r by lia. lia.
Qed.
Lemma hi_range (x : Fq) : 0 <= hi (v x) < 2 ^ 136.
Proof. unfold hi. pose proof (v_range x). assert (q_mod < 2 ^ 136 * 2 ^ 136) by reflexivity. split; [apply Z.div_pos; lia|apply Z.div_lt_upper_bound; lia]. Qed.
Lemma lo_range x : 0 <= lo x < 2 ^ 136.
Proof. apply Z.mod_pos_bound. reflexivity. Qed.
Lemma coord_eq (x : Fq) : coord_to_public x = [fr (lo (v x)); fr (hi (v x))].
Proof.
  unfold coord_to_public. change (limbs NUMBER_OF_LIMBS (fval (x : Fp q_mod))) with
    [fr (v x mod 2 ^ 68); fr (v x / 2 ^ 68 mod 2 ^ 68); fr (v x / 2 ^ 68 / 2 ^ 68 mod 2 ^ 68); fr (v x / 2 ^ 68 / 2 ^ 68 / 2 ^ 68 mod 2 ^ 68)].
  cbn [wrap]. rewrite !wrap2. pose proof (v_range x). rewrite split_limbs by lia. rewrite split_limbs by (apply Z.div_pos; [apply Z.div_pos; lia|lia]).
  assert (E : v x / 2 ^ 68 / 2 ^ 68 = hi (v x)) by (rewrite Z.div_div by lia; reflexivity). rewrite E.
  unfold lo at 2. rewrite (Z.mod_small (hi (v x))) by apply hi_range. reflexivity.
Qed.
Lemma B_r : 2 ^ 136 < r_mod. Proof. reflexivity. Qed.
Lemma vr_lo x : vr (fr (lo x)) = lo x.
Proof. rewrite vr_fr. pose proof B_r. apply Z.mod_small. pose proof (lo_range x). lia. Qed.
Lemma vr_hi (x : Fq) : vr (fr (hi (v x))) = hi (v x).
Proof. rewrite vr_fr. pose proof B_r. apply Z.mod_small. pose proof (hi_range x). lia. Qed.
Lemma lohi x : hi x * 2 ^ 136 + lo x = x.
Proof. unfold hi, lo. pose proof (Z.div_mod x (2 ^ 136)). lia. Qed.
Lemma wrap_base_eq : wrap_base = fq (2 ^ 136).
Proof. unfold wrap_base, fq. rewrite (fpow_of_Z q_mod q_prime). reflexivity. Qed.
Lemma public_to_coord_eq a c : public_to_coord [a; c] = Ok (fq (vr c * 2 ^ 136 + vr a)).
Proof.
  unfold public_to_coord. cbn [rev app]. rewrite fr_to_fq_ok. cbn [bind foldM]. rewrite fr_to_fq_ok. cbn [bind]. rewrite wrap_base_eq. f_equal.
  unfold fq. rewrite of_Z_add, of_Z_mul. reflexivity.
Qed.
Lemma coord_roundtrip (x : Fq) : public_to_coord (coord_to_public x) = Ok x.
Proof. rewrite coord_eq, public_to_coord_eq, vr_lo, vr_hi, lohi, fq_v. reflexivity. Qed.
Lemma coord_len x : length (coord_to_public x) = 2%nat. Proof. rewrite coord_eq. reflexivity. Qed.

Lemma point_roundtrip (P : G1) : public_to_point (point_to_public P) = Ok P.
Proof.
  unfold public_to_point, point_to_public. change Lib.POINT_LEN with 4%nat. change Lib.COORD_LEN with 2%nat. rewrite app_length, !coord_len. cbn [Nat.eqb Nat.add assert bind].
  rewrite (firstn_len _ _ 2 (coord_len _)), (skipn_len _ _ 2 (coord_len _)), !coord_roundtrip. cbn [bind].
  unfold g1_from_xy. rewrite (from_xy_xy Fq b1 b1_neq0 P). reflexivity.
Qed.
Lemma point2_roundtrip (P : G2c) : public_to_point2 (point2_to_public P) = Ok P.
Proof.
  unfold point2_to_public. pose proof (from_xy_xy Fq2 b2 b2_neq0 P) as FX. destruct (xy P) as [[x0 x1] [y0 y1]] eqn:E. cbn [fst snd] in FX |- *.
  assert (L : forall a b c d : Fq, length (coord_to_public a ++ coord_to_public b ++ coord_to_public c ++ coord_to_public d) = 8%nat).
  { intros. rewrite !app_length, !coord_len. reflexivity. }
  unfold public_to_point2. change (Lib.POINT_LEN * 2)%nat with 8%nat. change Lib.COORD_LEN with 2%nat. rewrite L. cbn [Nat.eqb assert bind].
  rewrite !coord_eq. cbn [app firstn skipn Nat.mul Nat.add]. rewrite <- !coord_eq, !coord_roundtrip. cbn [bind].
  unfold g2_from_xy. rewrite FX. reflexivity.
Qed.

(** ** the on-chain reader *)
Lemma BASE_eq : BASE = 2 ^ 136. Proof. reflexivity. Qed.
Lemma M256_eq : M256 = 2 ^ 256. Proof. reflexivity. Qed.
Definition noover (a c : Z) : bool := (c * 2 ^ 136 + a <? M256).
Lemma readBnG1_eq a c d e : 0 <= a -> 0 <= c -> 0 <= d -> 0 <= e -> c * 2 ^ 136 + a < M256 -> e * 2 ^ 136 + d < M256 ->
  readBnG1 [a; c; d; e] = Ok (c * 2 ^ 136 + a, e * 2 ^ 136 + d).
Proof.
  intros Ha Hc Hd He H1 H2. assert (B : 0 < 2 ^ 136) by reflexivity.
  assert (P1 : mul256 c BASE = Ok (c * 2 ^ 136)).
  { unfold mul256, chk. rewrite BASE_eq. destruct (Z.leb_spec 0 (c * 2 ^ 136)), (Z.ltb_spec (c * 2 ^ 136) M256); cbn [andb]; auto; nia. }
  assert (P2 : mul256 e BASE = Ok (e * 2 ^ 136)).
  { unfold mul256, chk. rewrite BASE_eq. destruct (Z.leb_spec 0 (e * 2 ^ 136)), (Z.ltb_spec (e * 2 ^ 136) M256); cbn [andb]; auto; nia. }
  assert (P3 : add256 (c * 2 ^ 136) a = Ok (c * 2 ^ 136 + a)).
  { unfold add256, chk. destruct (Z.leb_spec 0 (c * 2 ^ 136 + a)), (Z.ltb_spec (c * 2 ^ 136 + a) M256); cbn [andb]; auto; nia. }
  assert (P4 : add256 (e * 2 ^ 136) d = Ok (e * 2 ^ 136 + d)).
  { unfold add256, chk. destruct (Z.leb_spec 0 (e * 2 ^ 136 + d)), (Z.ltb_spec (e * 2 ^ 136 + d) M256); cbn [andb]; auto; nia. }
  unfold readBnG1. change (Z.of_nat (length [a; c; d; e])) with 4. change (4 =? GppSol.POINT_LEN) with true. cbn [assert bind].
  change (Z.to_nat (GppSol.COORD_LEN - 1)) with 1%nat. change (Z.to_nat (4 - 1 - GppSol.COORD_LEN)) with 1%nat.
  change (at_ [a; c; d; e] (GppSol.COORD_LEN - 1)) with (Ok c). change (at_ [a; c; d; e] (4 - 1)) with (Ok e). cbn [bind read_down].
  rewrite P1, P2. cbn [bind]. change (at_ [a; c; d; e] (GppSol.COORD_LEN - 1 - 1)) with (Ok a). change (at_ [a; c; d; e] (4 - 1 - 1)) with (Ok d). cbn [bind].
  rewrite P3, P4. reflexivity.
Qed.
Lemma readBnG1_enc (P : G1) : readBnG1 (map vr (point_to_public P)) = Ok (enc P).
Proof.
  unfold point_to_public. rewrite !coord_eq. cbn [app map]. rewrite !vr_lo, !vr_hi.
  assert (QM : q_mod < M256) by reflexivity.
  pose proof (v_range (fst (xy P))). pose proof (v_range (snd (xy P))).
  rewrite readBnG1_eq; try apply lo_range; try apply hi_range; rewrite !lohi; try lia. reflexivity.
Qed.
