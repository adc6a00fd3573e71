(** C20: the Grumpkin hash to curve is the RFC 9380 SvdW hash and total on its domain. *)
From Coq Require Import ZArith Znumtheory String List Bool Lia.
From Verif.Base Require Import Fermat Primes Fld Fp Fq2 EC Curves Group Euler.
From Verif.Model Require Import Monad Evm Strings Points HashEvm HashGrumpkin.
From Verif.Spec Require Import Svdw.
From Verif.Proofs Require Import SvdwProofs.
Import ListNotations.
Open Scope Z_scope.

(** [fr_sqrt] finds a root exactly when there is one (any ff::Field::sqrt) *)
Definition sqrt_correct (fr_sqrt : Fr -> option Fr) : Prop :=
  (forall a y, fr_sqrt a = Some y -> (y * y)%fld = a) /\ (forall a, fr_sqrt a = None -> ~ is_square a).
(** the domain separation tag of RFC 9380 that the code builds *)
Definition grumpkin_dst (domain : bytes) : bytes := domain ++ ascii_bytes "-grumpkin_g1_XMD:BLAKE2b_SVDW_RO_".
(** the two field elements the message hashes to *)
Definition u0_of (H : bytes -> bytes) (domain msg : bytes) : Fr := fr (os2ip (xmd_b1 H (grumpkin_dst domain) msg)).
Definition u1_of (H : bytes -> bytes) (domain msg : bytes) : Fr := fr (os2ip (xmd_b2 H (grumpkin_dst domain) msg)).
Definition affine_at (P : Gk) (x y : Fr) : Prop := EC.pt Fr bk P = Aff Fr x y.

Lemma os2ip_acc b : forall acc, fold_left (fun a x => a * 256 + x) b acc = acc * 256 ^ Z.of_nat (length b) + os2ip b.
Proof.
  induction b as [|x b IH]; intros acc; [cbn; lia|]. unfold os2ip. cbn [fold_left length]. rewrite IH. rewrite (IH (0 * 256 + x)).
  rewrite Nat2Z.inj_succ, Z.pow_succ_r by lia. ring.
Qed.
Lemma from_le_app a : forall b, from_le (a ++ b) = from_le a + 256 ^ Z.of_nat (length a) * from_le b.
Proof.
  induction a as [|x a IH]; intros b; [cbn [app from_le length]; change (256 ^ Z.of_nat 0) with 1; ring|].
  cbn [app from_le length]. rewrite IH, Nat2Z.inj_succ, Z.pow_succ_r by lia. ring.
Qed.
Lemma from_le_rev b : from_le (rev b) = os2ip b.
Proof.
  induction b as [|x b IH]; [reflexivity|]. cbn [rev]. rewrite from_le_app, IH, rev_length. unfold os2ip at 2. cbn [fold_left]. rewrite os2ip_acc.
  cbn [from_le]. ring.
Qed.
Lemma suffix_dst domain : (length domain <= 222)%nat -> suffix (ascii_bytes "SVDW") (ascii_bytes "grumpkin_g1") domain = dst_prime (grumpkin_dst domain).
Proof.
  intros L. unfold suffix, dst_prime, grumpkin_dst. rewrite <- !app_assoc. f_equal.
  replace (Z.of_nat (length (domain ++ ascii_bytes "-grumpkin_g1_XMD:BLAKE2b_SVDW_RO_"))) with (33 + Z.of_nat (length domain)).
  2: { rewrite app_length. change (length (ascii_bytes "-grumpkin_g1_XMD:BLAKE2b_SVDW_RO_")) with 33%nat. lia. }
  change (Z.of_nat (length (ascii_bytes "SVDW"))) with 4. change (Z.of_nat (length (ascii_bytes "grumpkin_g1"))) with 11.
  rewrite Z.mod_small by lia. replace (18 + 4 + 11 + Z.of_nat (length domain)) with (33 + Z.of_nat (length domain)) by lia. reflexivity.
Qed.
Lemma htf_ok H domain msg : (length domain <= 222)%nat ->
  hash_to_field H (ascii_bytes "SVDW") (ascii_bytes "grumpkin_g1") domain msg = Ok (u0_of H domain msg, u1_of H domain msg).
Proof.
  intros L. unfold hash_to_field. change (Z.of_nat (length (ascii_bytes "SVDW"))) with 4. change (Z.of_nat (length (ascii_bytes "grumpkin_g1"))) with 11.
  replace (Z.of_nat (length domain) <? 256) with true by (symmetry; apply Z.ltb_lt; lia).
  replace (18 + 4 + 11 + Z.of_nat (length domain) <? 256) with true by (symmetry; apply Z.ltb_lt; lia). cbn [assert bind].
  rewrite suffix_dst by exact L. cbv zeta. rewrite !from_le_rev. reflexivity.
Qed.
Lemma htf_panics H domain msg : (223 <= length domain)%nat -> exists m,
  hash_to_field H (ascii_bytes "SVDW") (ascii_bytes "grumpkin_g1") domain msg = Panic m.
Proof.
  intros L. unfold hash_to_field. change (Z.of_nat (length (ascii_bytes "SVDW"))) with 4. change (Z.of_nat (length (ascii_bytes "grumpkin_g1"))) with 11.
  replace (18 + 4 + 11 + Z.of_nat (length domain) <? 256) with false by (symmetry; apply Z.ltb_ge; lia).
  destruct (Z.of_nat (length domain) <? 256); cbn [assert bind]; eauto.
Qed.
Lemma hash_raw H sq domain msg : hash_to_curve_grumpkin H sq domain msg =
  bind (svdw_precomputed_constants sq f1) (fun c => let '(c1, c2, c3, c4) := c in
  bind (hash_to_field H (ascii_bytes "SVDW") (ascii_bytes "grumpkin_g1") domain msg) (fun us => let '(u0, u1) := us in
  bind (svdw_map_to_curve sq u0 c1 c2 c3 c4 f1) (fun q0 => bind (svdw_map_to_curve sq u1 c1 c2 c3 c4 f1) (fun q1 => Ok (q0 ⊕ q1)%grp)))).
Proof. reflexivity. Qed.

(** *** C20: every field element maps to exactly one point, on the curve, and it is the point of RFC 9380 *)
Theorem C20_map (sq : Fr -> option Fr) : sqrt_correct sq -> exists c1 c2 c3 c4, svdw_precomputed_constants sq f1 = Ok (c1, c2, c3, c4) /\
  forall u, exists P x y, svdw_map_to_curve sq u c1 c2 c3 c4 f1 = Ok P /\ affine_at P x y /\ (y * y = x * x * x - fr 17)%fld /\ svdw_point u x y /\
    forall x' y', svdw_point u x' y' -> x' = x /\ y' = y.
Proof.
  intros [A B]. destruct (constants_ok sq A B) as (c & E & C). pose proof (fun u => map_ok sq A B u c C) as M. destruct c as (((c1, c2), c3), c4).
  exists c1, c2, c3, c4. split; [exact E|]. intros u. destruct (M u) as (P & x & y & E1 & E2 & E3). exists P, x, y. split; [exact E1|]. split; [exact E2|].
  split.
  - destruct svdw_constants_exist as (s3 & i4 & half & X1 & X2 & X3 & X4). destruct (inv0_exists ((f1 - u * u * - fr 16) * (f1 + u * u * - fr 16))%fld) as [tv3 Hi].
    destruct (E3 s3 i4 half X1 X2 X3 X4 tv3 Hi) as (_ & _ & _ & Hy & _). exact Hy.
  - split; [exact E3|]. intros x' y' Q. exact (svdw_point_unique u x' y' x y Q E3).
Qed.
(** the hash: with a domain prefix of at most 222 bytes it never panics and is the sum of the points of the two field elements
    that expand_message_xmd gives; the result does not depend on the square-root algorithm *)
Theorem C20_hash (H : bytes -> bytes) (sq : Fr -> option Fr) (domain msg : bytes) : sqrt_correct sq -> (length domain <= 222)%nat ->
  exists P0 P1 x0 y0 x1 y1, hash_to_curve_grumpkin H sq domain msg = Ok (P0 ⊕ P1)%grp /\
    affine_at P0 x0 y0 /\ affine_at P1 x1 y1 /\ svdw_point (u0_of H domain msg) x0 y0 /\ svdw_point (u1_of H domain msg) x1 y1.
Proof.
  intros S L. destruct (C20_map sq S) as (c1 & c2 & c3 & c4 & E & M). rewrite hash_raw, E, htf_ok by exact L. cbn [bind].
  destruct (M (u0_of H domain msg)) as (P0 & x0 & y0 & A1 & A2 & _ & A3 & _). destruct (M (u1_of H domain msg)) as (P1 & x1 & y1 & B1 & B2 & _ & B3 & _).
  rewrite A1. cbn [bind]. rewrite B1. cbn [bind]. exists P0, P1, x0, y0, x1, y1. split; [reflexivity|]. split; [exact A2|]. split; [exact B2|]. split; [exact A3|exact B3].
Qed.
Theorem C20_deterministic (H : bytes -> bytes) (sq sq' : Fr -> option Fr) (domain msg : bytes) : sqrt_correct sq -> sqrt_correct sq' ->
  (length domain <= 222)%nat -> hash_to_curve_grumpkin H sq domain msg = hash_to_curve_grumpkin H sq' domain msg.
Proof.
  intros S S' L. destruct (C20_hash H sq domain msg S L) as (P0 & P1 & x0 & y0 & x1 & y1 & E & A0 & A1 & Q0 & Q1).
  destruct (C20_hash H sq' domain msg S' L) as (P0' & P1' & x0' & y0' & x1' & y1' & E' & A0' & A1' & Q0' & Q1').
  destruct (svdw_point_unique _ _ _ _ _ Q0 Q0') as [X0 Y0]. destruct (svdw_point_unique _ _ _ _ _ Q1 Q1') as [X1 Y1]. rewrite E, E'.
  assert (R0 : P0 = P0'). { apply EC_ext. unfold affine_at in A0, A0'. rewrite A0, A0', X0, Y0. reflexivity. }
  assert (R1 : P1 = P1'). { apply EC_ext. unfold affine_at in A1, A1'. rewrite A1, A1', X1, Y1. reflexivity. }
  rewrite R0, R1. reflexivity.
Qed.
(** a domain prefix of 223 bytes or more panics on every message *)
Theorem C20_long_domain (H : bytes -> bytes) (sq : Fr -> option Fr) (domain msg : bytes) : sqrt_correct sq -> (223 <= length domain)%nat ->
  exists m, hash_to_curve_grumpkin H sq domain msg = Panic m.
Proof.
  intros S L. destruct (C20_map sq S) as (c1 & c2 & c3 & c4 & E & _). destruct (htf_panics H domain msg L) as [m E'].
  exists m. rewrite hash_raw, E. cbn [bind]. rewrite E'. reflexivity.
Qed.
(** the hypothesis is met: there is a correct square-root function; the code's own domain is short enough *)
Theorem C20_meets : exists sq, sqrt_correct sq /\ forall (H : bytes -> bytes) msg, exists P, hash_to_curve_grumpkin H sq (ascii_bytes "another generator") msg = Ok P.
Proof.
  assert (S : sqrt_correct (search_sqrt r_mod r_prime)).
  { split; [exact (search_sqrt_some r_mod r_prime)|]. intros a E [y Ey]. apply (search_sqrt_none r_mod r_prime r_odd a E). exists y. exact Ey. }
  exists (search_sqrt r_mod r_prime). split; [exact S|]. intros H msg.
  destruct (C20_hash H _ (ascii_bytes "another generator") msg S) as (P0 & P1 & _ & _ & _ & _ & E & _); [cbn; lia|]. eauto.
Qed.
