(** The verifying key of contracts/Halo2VerifyingKey-3-5-18-g2.sol: its words are those of a key, whose points are on their curves and
    whose scalars are those of the domain of 2^18-th roots of unity. *)
From Coq Require Import ZArith NArith List Bool Lia Field.
From Verif.Base Require Import Pocklington Fld Fp Fq2 EC Primes Curves Group.
From Verif.Model Require Import Evm Points PairingSol Halo2VerifierSol.
From Verif.Spec Require Import Plonk PlonkVerifier.
From Verif.Proofs Require Import HashSolProofs InstanceProofs OnchainProofs VerifierFront VerifierKeyCert.
Import ListNotations.
Open Scope Z_scope.

Definition kw (i : nat) : Z := nth i vk_code 0.
(** *** The words of any key *)
Definition kwd (k : vkey) (i : nat) : Z := nth i (key_words k) 0.
Lemma length_pts (l : list G1) : length (flat_map point_words l) = (2 * length l)%nat.
Proof. induction l as [|P l IH]; [reflexivity|]. cbn [flat_map]. rewrite app_length, IH. cbn [point_words length]. lia. Qed.
Lemma key_length k : key_ok k -> length (key_words k) = 85%nat.
Proof.
  intros (H1 & H2 & _). unfold key_words. rewrite !app_length, length_pts, app_length, H1, H2. reflexivity.
Qed.
Lemma map_nth_self (l : list Z) : map (fun i => nth i l 0) (seq 0 (length l)) = l.
Proof.
  apply (nth_ext _ _ 0 0); [rewrite map_length, seq_length; reflexivity|]. rewrite map_length, seq_length. intros i Hi.
  rewrite (nth_indep _ 0 (nth 0 l 0)) by (rewrite map_length, seq_length; exact Hi).
  rewrite (map_nth (fun i => nth i l 0)), seq_nth by exact Hi. reflexivity.
Qed.
Lemma key_shape k : key_ok k -> key_words k = shape (kwd k).
Proof.
  intros H. transitivity (map (kwd k) (seq 0 85)); [|reflexivity].
  rewrite <- (key_length k H). symmetry. exact (map_nth_self (key_words k)).
Qed.

(** *** Points of G1 *)
Definition on1 (x y k : Z) : bool :=
  (0 <=? x) && (x <? q_mod) && (0 <=? y) && (y <? q_mod) && (y * y =? x * x * x + 3 + k * q_mod).
Lemma fq_curve x y k : y * y = x * x * x + 3 + k * q_mod -> (fq y * fq y = fq x * fq x * fq x + b1)%fld.
Proof.
  intros E.
  transitivity (fq (y * y)); [symmetry; exact (of_Z_mul q_mod y y)|].
  transitivity (fq (x * x * x + 3)).
  - apply of_Z_eq. rewrite E. apply Z_mod_plus_full.
  - transitivity (fq (x * x * x) + fq 3)%fld; [exact (of_Z_add q_mod _ _)|].
    refine (f_equal (fun t => (t + fq 3)%fld) _).
    transitivity (fq (x * x) * fq x)%fld; [exact (of_Z_mul q_mod _ _)|].
    refine (f_equal (fun t => (t * fq x)%fld) _). exact (of_Z_mul q_mod _ _).
Qed.
Lemma on1_ok x y k : on1 x y k = true -> exists P : G1, P <> g0 /\ point_words P = [x; y].
Proof.
  unfold on1. intros H. rewrite !andb_true_iff, !Z.leb_le, !Z.ltb_lt, Z.eqb_eq in H. destruct H as ((((X1 & X2) & Y1) & Y2) & E).
  apply fq_curve in E.
  destruct (proj2 (from_xy_iff Fq b1 (fq x) (fq y)) (or_intror E)) as [P EP].
  assert (D : decode (x, y) = Some P).
  { unfold decode. cbn [fst snd]. rewrite (proj2 (canon_iff x) (conj X1 X2)), (proj2 (canon_iff y) (conj Y1 Y2)). exact EP. }
  exists P. apply enc_decode in D. split.
  - intros ->. pose proof (xy_from_xy Fq b1 _ _ _ EP) as X.
    assert (E1 : (f0 : Fq) = fq x) by exact (f_equal fst X). assert (E2 : (f0 : Fq) = fq y) by exact (f_equal snd X).
    rewrite <- E1, <- E2 in E. exact (zero_off Fq b1 b1_neq0 E).
  - unfold point_words. f_equal; [exact (f_equal fst D)|]. f_equal. exact (f_equal snd D).
Qed.
Fixpoint check (ws ks : list Z) : bool :=
  match ws, ks with
  | x :: y :: ws, k :: ks => on1 x y k && check ws ks
  | [], [] => true
  | _, _ => false
  end.
Lemma check_ok ks : forall ws, check ws ks = true ->
  exists l : list G1, length l = length ks /\ Forall (fun P => P <> g0) l /\ flat_map point_words l = ws.
Proof.
  induction ks as [|k ks IH]; intros [|x [|y ws]] H; cbn [check] in H; try discriminate.
  - exists []. repeat constructor.
  - apply andb_prop in H as [H1 H2]. destruct (on1_ok _ _ _ H1) as (P & N0 & EP). destruct (IH _ H2) as (l & Ll & F & El).
    exists (P :: l). split; [exact (f_equal S Ll)|]. split; [constructor; assumption|]. cbn [flat_map]. rewrite EP, El. reflexivity.
Qed.
Lemma key_checked : check (firstn 2 (skipn 11 vk_code) ++ skipn 21 vk_code) key_cert = true.
Proof. vm_compute. reflexivity. Qed.

(** *** The two points of G2 *)
Definition on2 (x0 x1 y0 y1 k0 k1 : Z) : bool :=
  canon x0 && canon x1 && canon y0 && canon y1 &&
  (y0 * y0 - y1 * y1 =? (x0 * x0 - x1 * x1) * x0 - (x0 * x1 + x1 * x0) * x1
     + 0x2b149d40ceb8aaae81be18991be06ac3b5b4c5e559dbefa33267e6dc24a138e5 + k0 * q_mod) &&
  (y0 * y1 + y1 * y0 =? (x0 * x0 - x1 * x1) * x1 + (x0 * x1 + x1 * x0) * x0
     + 0x9713b03af0fed4cd2cafadeed8fdf4a74fa084e52d1852e4a2bd0685c315d2 + k1 * q_mod).
Lemma fq_sub a b : fq (a - b) = (fq a - fq b)%fld. Proof. exact (of_Z_sub q_mod _ _). Qed.
Lemma fq_add a b : fq (a + b) = (fq a + fq b)%fld. Proof. exact (of_Z_add q_mod _ _). Qed.
Lemma fq_mul a b : fq (a * b) = (fq a * fq b)%fld. Proof. exact (of_Z_mul q_mod _ _). Qed.
Lemma fq_k a k : fq (a + k * q_mod) = fq a. Proof. apply of_Z_eq, Z_mod_plus_full. Qed.
Lemma fq2_mul a0 a1 c0 c1 : (fq2 a0 a1 * fq2 c0 c1)%fld = fq2 (a0 * c0 - a1 * c1) (a0 * c1 + a1 * c0).
Proof.
  symmetry. unfold fq2. refine (f_equal2 pair _ _).
  - rewrite fq_sub, !fq_mul. reflexivity.
  - rewrite fq_add, !fq_mul. reflexivity.
Qed.
Lemma fq2_add a0 a1 c0 c1 : (fq2 a0 a1 + fq2 c0 c1)%fld = fq2 (a0 + c0) (a1 + c1).
Proof. symmetry. unfold fq2. refine (f_equal2 pair _ _); rewrite fq_add; reflexivity. Qed.
Lemma fq2_k a0 a1 k0 k1 : fq2 (a0 + k0 * q_mod) (a1 + k1 * q_mod) = fq2 a0 a1.
Proof. unfold fq2. rewrite !fq_k. reflexivity. Qed.
Lemma on2_ok x0 x1 y0 y1 k0 k1 : on2 x0 x1 y0 y1 k0 k1 = true ->
  exists Q : G2c, g2_words Q = [x1; x0; y1; y0] /\ decode2 x0 x1 y0 y1 = Some Q.
Proof.
  unfold on2. intros H. rewrite !andb_true_iff, !Z.eqb_eq in H. destruct H as (((((X0 & X1) & Y0) & Y1) & E0) & E1).
  assert (E : (fq2 y0 y1 * fq2 y0 y1 = fq2 x0 x1 * fq2 x0 x1 * fq2 x0 x1 + b2)%fld).
  { transitivity (fq2 (y0 * y0 - y1 * y1) (y0 * y1 + y1 * y0)); [exact (fq2_mul _ _ _ _)|]. rewrite E0, E1, fq2_k.
    unfold b2. symmetry. rewrite fq2_mul, fq2_mul, fq2_add. reflexivity. }
  destruct (proj2 (from_xy_iff Fq2 b2 (fq2 x0 x1) (fq2 y0 y1)) (or_intror E)) as [Q EQ].
  exists Q. split.
  - pose proof (xy_from_xy Fq2 b2 _ _ _ EQ) as X. unfold g2_words. rewrite X. cbn [fst snd fq2].
    apply canon_iff in X0, X1, Y0, Y1. unfold fq. rewrite !fval_of_Z, !Z.mod_small by assumption. reflexivity.
  - unfold decode2. rewrite X0, X1, Y0, Y1. cbn [andb]. exact EQ.
Qed.
Lemma neg_s_checked : on2 (kw 18) (kw 17) (kw 20) (kw 19) (fst neg_s_cert) (snd neg_s_cert) = true.
Proof. vm_compute. reflexivity. Qed.
Lemma neg_s_point : exists S : G2c, g2_words S = [kw 17; kw 18; kw 19; kw 20].
Proof. destruct (on2_ok _ _ _ _ _ _ neg_s_checked) as (Q & E & _). exists Q. exact E. Qed.
Lemma g2_key : g2_words g2 = [kw 13; kw 14; kw 15; kw 16].
Proof. vm_compute. reflexivity. Qed.
Lemma decode2_words (Q : G2c) x0 x1 y0 y1 : g2_words Q = [x1; x0; y1; y0] -> decode2 x0 x1 y0 y1 = Some Q.
Proof.
  unfold g2_words. intros E. set (X := fst (xy Q)) in *. set (Y := snd (xy Q)) in *.
  assert (V1 : v (snd X) = x1) by exact (f_equal (fun l => nth 0 l 0) E). assert (V0 : v (fst X) = x0) by exact (f_equal (fun l => nth 1 l 0) E).
  assert (W1 : v (snd Y) = y1) by exact (f_equal (fun l => nth 2 l 0) E). assert (W0 : v (fst Y) = y0) by exact (f_equal (fun l => nth 3 l 0) E).
  clear E. subst x0 x1 y0 y1. unfold decode2. rewrite !canon_v. cbn [andb]. unfold fq2. rewrite !fq_v.
  transitivity (g2_from_xy X Y); [rewrite <- !surjective_pairing; reflexivity|]. exact (from_xy_xy Fq2 b2 b2_neq0 Q).
Qed.
Theorem key_exists : exists k, key_words k = vk_code /\ key_ok k /\ k_gen k = g1 /\ k_g2 k = g2 /\
  Forall (fun P => P <> g0) (k_fixed k ++ k_sigma k).
Proof.
  destruct (check_ok _ _ key_checked) as (l & Ll & F & El). destruct neg_s_point as (S & ES).
  change (length key_cert) with 33%nat in Ll. destruct l as [|P0 l]; [discriminate Ll|]. injection Ll as Ll.
  change (firstn 2 (skipn 11 vk_code) ++ skipn 21 vk_code) with (kw 11 :: kw 12 :: skipn 21 vk_code) in El.
  assert (E0 : point_words P0 = [kw 11; kw 12]) by exact (f_equal (firstn 2) El).
  assert (E1 : flat_map point_words l = skipn 21 vk_code) by exact (f_equal (skipn 2) El). clear El.
  assert (EG : P0 = g1).
  { apply (enc_inj P0 g1). transitivity (kw 11, kw 12); [|vm_compute; reflexivity].
    unfold enc. refine (f_equal2 pair _ _); [exact (f_equal (fun l => nth 0 l 0) E0)|exact (f_equal (fun l => nth 1 l 0) E0)]. }
  exists (VKey (kw 0) 49 18 (fr (kw 3)) (fr (kw 4)) (fr (kw 5)) (fr (kw 6)) P0 g2 S (firstn 23 l) (skipn 23 l)).
  split; [|split; [|split; [exact EG|split; [reflexivity|]]]].
  - unfold key_words. cbn [k_digest k_instances k_degree k_n_inv k_omega k_omega_inv k_omega_inv_l k_gen k_g2 k_neg_s_g2 k_fixed k_sigma].
    rewrite firstn_skipn, E0, E1, ES, g2_key. unfold scalar_word, fr. cbn [map]. rewrite !fval_of_Z.
    rewrite !Z.mod_small by (split; [discriminate|reflexivity]). reflexivity.
  - unfold key_ok. cbn [k_fixed k_sigma k_instances k_degree]. split; [|split; [|split; reflexivity]].
    + exact (eq_trans (firstn_length 23 l) (f_equal (Nat.min 23) Ll)).
    + exact (eq_trans (skipn_length 23 l) (f_equal (fun n => n - 23)%nat Ll)).
  - cbn [k_fixed k_sigma]. rewrite firstn_skipn. inversion F. assumption.
Qed.

(** *** The scalars *)
Lemma omega_half : fpow (fr (kw 4)) (2 ^ 17) = (fopp f1 : Fr).
Proof.
  transitivity (fr (r_mod - 1)); [|exact (of_Z_eq r_mod _ _ (eq_refl : (r_mod - 1) mod r_mod = (- (1)) mod r_mod))].
  apply (Fp_ext r_mod). rewrite (fpow_fast_ok r_mod r_prime). vm_compute. reflexivity.
Qed.
Lemma omega_inverse : (fr (kw 4) * fr (kw 5) = 1 :> Fr)%fld.
Proof. apply (Fp_ext r_mod). vm_compute. reflexivity. Qed.
Lemma omega_inverse_l : (fr (kw 6) * fpow (fr (kw 4)) 6 = 1 :> Fr)%fld.
Proof. apply (Fp_ext r_mod). vm_compute. reflexivity. Qed.
Lemma n_inverse : (fr (kw 3) * fr (2 ^ 18) = 1 :> Fr)%fld.
Proof. apply (Fp_ext r_mod). vm_compute. reflexivity. Qed.
Lemma delta_pow : (fpow_fast r_mod (fval (delta : Fp r_mod)) (840 * 2 ^ 28) =? 1) = false.
Proof. vm_compute. reflexivity. Qed.
Lemma delta_order : fpow delta (840 * 2 ^ 28) <> (1 : Fr)%fld.
Proof.
  intros E. assert (E' : fval (fpow delta (840 * 2 ^ 28) : Fp r_mod) = 1) by (rewrite E; reflexivity).
  rewrite (fpow_fast_ok r_mod r_prime) in E'. pose proof delta_pow as D. rewrite E' in D. discriminate D.
Qed.
(** the scalars of any key with these words *)
Lemma fr_scalar (s : Fr) z : scalar_word s = z -> s = fr z.
Proof. intros <-. symmetry. exact (fr_vr s). Qed.
Section Scalars.
  Variable k : vkey.
  Hypothesis Hk : key_words k = vk_code.
  Lemma key_instances : k_instances k = 49%nat.
  Proof. assert (E : Z.of_nat (k_instances k) = 49) by exact (f_equal (fun l => nth 1 l 0) Hk). lia. Qed.
  Lemma key_degree : k_degree k = 18%nat.
  Proof. assert (E : Z.of_nat (k_degree k) = 18) by exact (f_equal (fun l => nth 2 l 0) Hk). lia. Qed.
  Lemma key_n_inv : k_n_inv k = fr (kw 3). Proof. exact (fr_scalar _ _ (f_equal (fun l => nth 3 l 0) Hk)). Qed.
  Lemma key_omega : k_omega k = fr (kw 4). Proof. exact (fr_scalar _ _ (f_equal (fun l => nth 4 l 0) Hk)). Qed.
  Lemma key_omega_inv : k_omega_inv k = fr (kw 5). Proof. exact (fr_scalar _ _ (f_equal (fun l => nth 5 l 0) Hk)). Qed.
  Lemma key_omega_inv_l : k_omega_inv_l k = fr (kw 6). Proof. exact (fr_scalar _ _ (f_equal (fun l => nth 6 l 0) Hk)). Qed.
  Lemma key_domain : domain_ok k.
  Proof.
    unfold domain_ok. rewrite key_degree, key_omega, key_omega_inv, key_omega_inv_l, key_n_inv.
    split; [split; repeat constructor|]. split; [exact omega_half|]. split; [exact omega_inverse|]. split; [exact omega_inverse_l|exact n_inverse].
  Qed.
End Scalars.
