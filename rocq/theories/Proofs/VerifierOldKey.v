(** The verifying key embedded in contracts/Halo2Verifier-3-5-g2.sol: its words are those of a key, whose points are on their curves
    and whose scalars are those of the domain of 2^18-th roots of unity. *)
From Coq Require Import ZArith NArith List Bool Lia.
From Verif.Base Require Import Fld Fp Fq2 EC Primes Curves Group.
From Verif.Model Require Import Evm Points PairingSol Halo2VerifierSol Halo2VerifierOldSol.
From Verif.Spec Require Import Plonk PlonkVerifier.
From Verif.Proofs Require Import InstanceProofs OnchainProofs VerifierKey VerifierOldKeyCert VerifierOldRun.
Import ListNotations.
Open Scope Z_scope.

Lemma old_checked : check (firstn 2 (skipn 11 old_key) ++ skipn 21 old_key) old_key_cert = true.
Proof. vm_compute. reflexivity. Qed.
Lemma old_neg_s_checked : on2 (old_word 18) (old_word 17) (old_word 20) (old_word 19) (fst old_neg_s_cert) (snd old_neg_s_cert) = true.
Proof. vm_compute. reflexivity. Qed.
(** the shape, the scalars and the generators are those of the other key *)
Lemma old_same : firstn 16 (skipn 1 old_key) = firstn 16 (skipn 1 vk_code).
Proof. vm_compute. reflexivity. Qed.
Lemma old_kw i : (i < 16)%nat -> old_word (S i) = kw (S i).
Proof.
  intros H. transitivity (nth i (firstn 16 (skipn 1 old_key)) 0).
  - clear -H. do 16 (destruct i as [|i]; [reflexivity|]). lia.
  - rewrite old_same. clear -H. do 16 (destruct i as [|i]; [reflexivity|]). lia.
Qed.
Lemma old_differs : (old_word 0 =? kw 0) = false. Proof. vm_compute. reflexivity. Qed.
Lemma old_differs_s : (old_word 17 =? kw 17) = false. Proof. vm_compute. reflexivity. Qed.
Theorem old_key_exists : exists k, key_words k = old_key /\ key_ok k /\ k_gen k = g1 /\ k_g2 k = g2 /\
  Forall (fun P => P <> g0) (k_fixed k ++ k_sigma k).
Proof.
  destruct (check_ok _ _ old_checked) as (l & Ll & F & El). destruct (on2_ok _ _ _ _ _ _ old_neg_s_checked) as (S & ES & _).
  change (length old_key_cert) with 33%nat in Ll. destruct l as [|P0 l]; [discriminate Ll|]. injection Ll as Ll.
  change (firstn 2 (skipn 11 old_key) ++ skipn 21 old_key) with (old_word 11 :: old_word 12 :: skipn 21 old_key) in El.
  assert (E0 : point_words P0 = [old_word 11; old_word 12]) by exact (f_equal (firstn 2) El).
  assert (E1 : flat_map point_words l = skipn 21 old_key) by exact (f_equal (skipn 2) El). clear El.
  assert (EG : P0 = g1).
  { apply (enc_inj P0 g1). transitivity (old_word 11, old_word 12); [|vm_compute; reflexivity].
    unfold enc. refine (f_equal2 pair _ _); [exact (f_equal (fun l => nth 0 l 0) E0)|exact (f_equal (fun l => nth 1 l 0) E0)]. }
  exists (VKey (old_word 0) 49 18 (fr (kw 3)) (fr (kw 4)) (fr (kw 5)) (fr (kw 6)) P0 g2 S (firstn 23 l) (skipn 23 l)).
  split; [|split; [|split; [exact EG|split; [reflexivity|]]]].
  - unfold key_words. cbn [k_digest k_instances k_degree k_n_inv k_omega k_omega_inv k_omega_inv_l k_gen k_g2 k_neg_s_g2 k_fixed k_sigma].
    rewrite firstn_skipn, E0, E1, ES, g2_key. unfold scalar_word, fr. cbn [map]. rewrite !fval_of_Z.
    rewrite !Z.mod_small by (split; [discriminate|reflexivity]). reflexivity.
  - unfold key_ok. cbn [k_fixed k_sigma k_instances k_degree]. split; [|split; [|split; reflexivity]].
    + exact (eq_trans (firstn_length 23 l) (f_equal (Nat.min 23) Ll)).
    + exact (eq_trans (skipn_length 23 l) (f_equal (fun n => n - 23)%nat Ll)).
  - cbn [k_fixed k_sigma]. rewrite firstn_skipn. inversion F. assumption.
Qed.
Section Scalars.
  Variable k : vkey.
  Hypothesis Hk : key_words k = old_key.
  Lemma old_n_inv : k_n_inv k = fr (kw 3).
  Proof. apply fr_scalar. transitivity (old_word 3); [exact (f_equal (fun l => nth 3 l 0) Hk)|apply old_kw; lia]. Qed.
  Lemma old_omega : k_omega k = fr (kw 4).
  Proof. apply fr_scalar. transitivity (old_word 4); [exact (f_equal (fun l => nth 4 l 0) Hk)|apply old_kw; lia]. Qed.
  Lemma old_omega_inv : k_omega_inv k = fr (kw 5).
  Proof. apply fr_scalar. transitivity (old_word 5); [exact (f_equal (fun l => nth 5 l 0) Hk)|apply old_kw; lia]. Qed.
  Lemma old_omega_inv_l : k_omega_inv_l k = fr (kw 6).
  Proof. apply fr_scalar. transitivity (old_word 6); [exact (f_equal (fun l => nth 6 l 0) Hk)|apply old_kw; lia]. Qed.
  Lemma old_instances : k_instances k = 49%nat.
  Proof. assert (E : Z.of_nat (k_instances k) = 49) by exact (f_equal (fun l => nth 1 l 0) Hk). lia. Qed.
  Lemma old_deg : k_degree k = 18%nat.
  Proof. assert (E : Z.of_nat (k_degree k) = 18) by exact (f_equal (fun l => nth 2 l 0) Hk). lia. Qed.
  Lemma old_domain : domain_ok k.
  Proof.
    unfold domain_ok. rewrite old_deg, old_omega, old_omega_inv, old_omega_inv_l, old_n_inv.
    split; [split; repeat constructor|]. split; [exact omega_half|]. split; [exact omega_inverse|]. split; [exact omega_inverse_l|exact n_inverse].
  Qed.
  Lemma old_g2 : k_g2 k = g2.
  Proof.
    apply (@VerifierInput.some_inj G2c). transitivity (decode2 (kw 14) (kw 13) (kw 16) (kw 15)).
    - symmetry. apply decode2_words. transitivity [old_word 13; old_word 14; old_word 15; old_word 16].
      + exact (f_equal (fun l => firstn 4 (skipn 13 l)) Hk).
      + rewrite !old_kw by lia. reflexivity.
    - apply decode2_words. exact g2_key.
  Qed.
End Scalars.
