(** The point the verifier pairs is the one of the specification. *)
From Coq Require Import ZArith NArith List String Bool Lia.
From Verif.Base Require Import Fld Fp EC Primes Curves Group.
From Verif.Model Require Import Monad Evm Points PairingSol Yul Halo2VerifierSol.
From Verif.Spec Require Import Plonk PlonkVerifier.
From Verif.Proofs Require Import HashSolProofs InstanceProofs OnchainProofs YulSim YulSym YulCon VerifierSetup VerifierTools VerifierGates
  VerifierLagrange VerifierOpen VerifierAlgebra VerifierRun VerifierFront VerifierTail VerifierKey VerifierInput VerifierPoints VerifierTop.
Import ListNotations.
Open Scope string_scope.
Open Scope Z_scope.

Lemma index_of_in c r : index_of c r = index_in opening_eq_dec (c, r) openings.
Proof.
  unfold index_of, index_in. generalize openings. intros l. induction l as [|[c' r'] l IH]; [reflexivity|].
  rewrite IH. destruct (opening_eq_dec (c, r) (c', r')) as [E|E], (col_eq_dec c c') as [Ec|Ec]; try destruct (rot_eq_dec r r'); congruence.
Qed.
Lemma index_in_le {A} (dec : forall a b : A, {a = b} + {a <> b}) a l : (index_in dec a l <= List.length l)%nat.
Proof.
  induction l as [|b l IH]; [apply Nat.le_0_l|]. change (index_in dec a (b :: l)) with (if dec a b then 0%nat else S (index_in dec a l)).
  change (List.length (b :: l)) with (S (List.length l)). destruct (dec a b); lia.
Qed.
Lemma com_index_in c : com_index c = index_in col_eq_dec c commitments. Proof. reflexivity. Qed.

Section SpecOk.
  Variable k : vkey.
  Hypothesis Hok : key_ok k.
  Variable p : proof.
  Variable insts : list Fr.
  Hypothesis Li : List.length insts = k_instances k.
  Variable c : challenges.
  Notation pt := (pt p).
  Notation ev := (ev p insts).
  Notation vkp := (vkp k).
  Lemma ev_claimed cl r : ev (eval_pos cl r) = claimed p cl r.
  Proof.
    unfold eval_pos, claimed, VerifierInput.ev. rewrite index_of_in. pose proof (index_in_le opening_eq_dec (cl, r) openings) as L.
    change (List.length openings) with 78%nat in L. set (i := index_in opening_eq_dec (cl, r) openings) in *.
    destruct (Z.ltb_spec (0x7c4 + 32 * Z.of_nat i) 0x1200); [|lia].
    replace (0x7c4 + 32 * Z.of_nat i - 0x7c4) with (Z.of_nat i * 32) by lia. rewrite Z.div_mul, Nat2Z.id by lia. reflexivity.
  Qed.
  Lemma insts_ok : insts_n ev (k_instances k) = insts.
  Proof.
    unfold insts_n. apply (nth_ext _ _ f0 f0); [rewrite map_length, seq_length; symmetry; exact Li|].
    rewrite map_length, seq_length. intros i Hi.
    rewrite (nth_indep _ f0 (ev (0x1224 + 32 * Z.of_nat 0))) by (rewrite map_length, seq_length; exact Hi).
    rewrite (map_nth (fun i => ev (0x1224 + 32 * Z.of_nat i))), seq_nth by exact Hi. unfold VerifierInput.ev. cbn [Nat.add].
    destruct (Z.ltb_spec (0x1224 + 32 * Z.of_nat i) 0x1200); [lia|].
    replace (0x1224 + 32 * Z.of_nat i - 0x1224) with (Z.of_nat i * 32) by lia. rewrite Z.div_mul, Nat2Z.id by lia. reflexivity.
  Qed.
  Lemma pt_com i : (i < 29)%nat -> pt (0x84 + 64 * Z.of_nat i) = nth i (p_commitments p) g0.
  Proof.
    intros Hi. unfold VerifierInput.pt. destruct (Z.ltb_spec (0x84 + 64 * Z.of_nat i) 0x1184); [|lia].
    replace (0x84 + 64 * Z.of_nat i - 0x84) with (Z.of_nat i * 64) by lia. rewrite Z.div_mul, Nat2Z.id by lia. reflexivity.
  Qed.
  Lemma vkp_at i : vkp (0x960 + 64 * Z.of_nat i) = nth i (k_fixed k ++ k_sigma k) g0.
  Proof.
    unfold VerifierTop.vkp. destruct (Z.eqb_spec (0x960 + 64 * Z.of_nat i) 0x820); [lia|].
    replace (0x960 + 64 * Z.of_nat i - 0x960) with (Z.of_nat i * 64) by lia. rewrite Z.div_mul, Nat2Z.id by lia. reflexivity.
  Qed.
  Notation X := (xn k c).
  Lemma quotient_ok : quotient Fr G1 (@gadd G1) g1smul pt X = quotient_commitment k p c.
  Proof.
    unfold quotient_commitment, piece. change (List.length commitments) with 24%nat. unfold pieces.
    cbn [seq fold_right]. unfold quotient. cbn [seq fold_left].
    change (0x784 - 64 * Z.of_nat 1) with (0x84 + 64 * Z.of_nat 27). change (0x784 - 64 * Z.of_nat 2) with (0x84 + 64 * Z.of_nat 26).
    change (0x784 - 64 * Z.of_nat 3) with (0x84 + 64 * Z.of_nat 25). change (0x784 - 64 * Z.of_nat 4) with (0x84 + 64 * Z.of_nat 24).
    change (pt 0x784) with (pt (0x84 + 64 * Z.of_nat 28)).
    rewrite !pt_com by lia. cbn [Nat.add].
    generalize (nth 24 (p_commitments p) g0), (nth 25 (p_commitments p) g0), (nth 26 (p_commitments p) g0), (nth 27 (p_commitments p) g0),
      (nth 28 (p_commitments p) g0). intros P0 P1 P2 P3 P4. generalize X. intros z.
    assert (Z0 : g1mul (g0 : G1) z = g0) by exact (zmul_g0 G1 _). rewrite Z0, (g0_r G1).
    unfold g1smul. rewrite !(gcomm _ (g1mul _ z) _). reflexivity.
  Qed.

  Definition listed (cl : col) : bool := match cl with Fix_ i => Nat.ltb i 23 | Sig i => Nat.ltb i 9 | _ => true end.
  Lemma all_listed : forallb (fun s => forallb listed (snd s)) rotation_sets = true. Proof. reflexivity. Qed.
  Lemma cm_ok s cl : In s rotation_sets -> In cl (snd s) ->
    cm G1 pt vkp (quotient Fr G1 (@gadd G1) g1smul pt X) cl = commitment_of k p c cl.
  Proof.
    intros Hs Hc. pose proof all_listed as HL. rewrite forallb_forall in HL. specialize (HL s Hs). rewrite forallb_forall in HL. specialize (HL cl Hc).
    clear Hs Hc. destruct Hok as (Lf & Ls & _).
    assert (Com : forall cl', pt (0x84 + 64 * Z.of_nat (com_index cl')) = nth (index_in col_eq_dec cl' commitments) (p_commitments p) g0).
    { intros cl'. rewrite com_index_in. pose proof (index_in_le col_eq_dec cl' commitments) as L. change (List.length commitments) with 24%nat in L.
      apply pt_com. lia. }
    destruct cl as [i|i|i|i|i|i|i| |]; try exact (Com _).
    - cbn [listed] in HL. apply Nat.ltb_lt in HL. cbn [cm commitment_of]. rewrite vkp_at. apply app_nth1. rewrite Lf. exact HL.
    - cbn [listed] in HL. apply Nat.ltb_lt in HL. cbn [cm commitment_of]. rewrite vkp_at. rewrite app_nth2 by (rewrite Lf; lia).
      rewrite Lf. f_equal. lia.
    - exact quotient_ok.
  Qed.
  Notation num := (numerator Fr fr ev (theta c) (beta c) (gamma c) (y c) (x c) (l_last Fr (k_omega k) (domain k) (k_n_inv k) (x c))
    (l_blind Fr (k_omega k) (domain k) (k_n_inv k) (x c)) (l_0 Fr (domain k) (k_n_inv k) (x c))
    (instance_at Fr (k_omega k) (domain k) (k_n_inv k) (insts_n ev (k_instances k)) (x c))).
  Lemma hev_ok : (num * finv (X - 1))%fld = quotient_value k insts p c.
  Proof.
    unfold quotient_value. rewrite (fdiv_def Fr). refine (f_equal (fun t => (t * finv (X - 1))%fld) _).
    rewrite insts_ok.
    exact (combined_ext Fr mds_at mds_inv_at delta limb_tag (VerifierGates.e Fr ev) (claimed p) ev_claimed _ _ _ _ _ _ _ _ _).
  Qed.
  Hypothesis Hd : domain_ok k.
  Hypothesis Hg : generic k c.
  Lemma odd_r : (f1 : Fr) <> fopp f1.
  Proof. apply (Fp_neq r_mod). reflexivity. Qed.
  Lemma wv_k : (k_omega k * k_omega_inv k = 1)%fld.
  Proof. exact (proj1 (proj2 (proj2 Hd))). Qed.
  Lemma two_k : (2 <= k_degree k)%nat.
  Proof. exact (proj1 (proj1 Hd)). Qed.
  Lemma half_k : fpow (k_omega k) (2 ^ (N.of_nat (k_degree k) - 1)) = (fopp f1 : Fr).
  Proof. exact (proj1 (proj2 Hd)). Qed.
  Lemma wl_k : (k_omega_inv_l k * fpow (k_omega k) 6 = 1)%fld.
  Proof. exact (proj1 (proj2 (proj2 (proj2 Hd)))). Qed.
  Lemma full_k : fpow (k_omega k) (domain k) = (f1 : Fr).
  Proof. exact (full Fr _ _ two_k half_k). Qed.
  Lemma pr_k r : pr Fr (k_omega k) (k_omega_inv k) (x c) r = point Fr (k_omega k) (x c) r.
  Proof. exact (pr_point Fr _ _ wv_k _ half_k (x c) r). Qed.
  Lemma d_k r : (mu c - pr Fr (k_omega k) (k_omega_inv k) (x c) r <> 0)%fld.
  Proof. rewrite pr_k. intros E. apply (proj2 (proj2 Hg) r). exact (fsub_eq0 Fr _ _ E). Qed.
  Lemma p_k r r' : r <> r' -> (pr Fr (k_omega k) (k_omega_inv k) (x c) r - pr Fr (k_omega k) (k_omega_inv k) (x c) r' <> 0)%fld.
  Proof. exact (pr_distinct Fr _ _ wv_k _ two_k half_k odd_r (x c) (proj1 Hg) r r'). Qed.
  Lemma lhs_ok : LHS pt ev vkp (k_n_inv k) (k_omega k) (k_omega_inv k) (theta c) (beta c) (gamma c) (y c) (x c) (zeta c) (nu c) (mu c) (k_instances k) (domain k) =
    opening_point k insts p c.
  Proof.
    unfold LHS, opening_point.
    refine (linearised_ext Fr G1 g1smul _ _ pr_k _ _ _ _ _ cm_ok (zeta c) (nu c) (mu c) (k_gen k) (p_w p) (p_w' p)).
    intros cl r. destruct cl as [i|i|i|i|i|i|i| |]; cbn [ei value_of]; [exact (ev_claimed _ _)..| |exact (ev_claimed _ _)].
    exact hev_ok.
  Qed.
End SpecOk.
