(** C64: the older SNARK verifier of the repository (contracts/Halo2Verifier-3-5-g2.sol), with its verifying key in its own code.
    Ranges over every hash function, every membership test and pairing check (or those with the assumed behaviour, where said), every
    byte string and every list of 256-bit words. *)
From Coq Require Import ZArith NArith String List Bool Lia.
From Verif.Base Require Import Fld Fp Fq2 EC Primes Curves Group.
From Verif.Model Require Import Monad Evm Points PairingSol Yul Halo2VerifierSol Halo2VerifierOldSol VerifierCall VerifierOldCall.
From Verif.Spec Require Import Dvrf Onchain Plonk PlonkVerifier PlonkCall.
From Verif.Proofs Require Import InstanceProofs OnchainProofs DkgProofs VerifierTop VerifierKey VerifierCosets VerifierCallProofs VerifierOldRun VerifierOldMain VerifierOldKey Kzg.
From Verif.Props Require Import P_Verifier.
Import ListNotations.
Open Scope Z_scope.

(** ** The key in its code is a key: 23 fixed columns, 9 permuted ones, every point on its curve and none the identity, the generators
    of BN254, the domain of 2^18 rows; *)
Theorem C64_key : exists k, key_words k = old_key /\ key_ok k /\ domain_ok k /\ k_gen k = g1 /\ k_g2 k = g2 /\
  Forall (fun P => P <> g0) (k_fixed k ++ k_sigma k).
Proof. destruct old_key_exists as (k & Hk & Hok & H). exists k. split; [exact Hk|]. split; [exact Hok|]. split; [exact (old_domain k Hk)|exact H]. Qed.
(** it has the shape and the domain of the key of contracts/Halo2VerifyingKey-3-5-18-g2.sol, but is another key, of another setup *)
Theorem C64_keys_differ k k' : key_words k = old_key -> key_words k' = vk_code ->
  k_omega k = k_omega k' /\ k_n_inv k = k_n_inv k' /\ k_gen k = k_gen k' /\ k_g2 k = k_g2 k' /\
  k_digest k <> k_digest k' /\ k_neg_s_g2 k <> k_neg_s_g2 k'.
Proof.
  intros Hk Hk'. split; [rewrite (old_omega k Hk), (key_omega k' Hk'); reflexivity|]. split; [rewrite (old_n_inv k Hk), (key_n_inv k' Hk'); reflexivity|].
  split; [|split; [rewrite (old_g2 k Hk), (key_g2 k' Hk'); reflexivity|split]].
  - apply point_words_inj. transitivity [old_word 11; old_word 12]; [exact (f_equal (fun l => firstn 2 (skipn 11 l)) Hk)|].
    rewrite !old_kw by lia. symmetry. exact (f_equal (fun l => firstn 2 (skipn 11 l)) Hk').
  - intros E. assert (E' : old_word 0 = kw 0).
    { transitivity (k_digest k); [symmetry; exact (f_equal (fun l => nth 0 l 0) Hk)|]. rewrite E. exact (f_equal (fun l => nth 0 l 0) Hk'). }
    pose proof old_differs as D. rewrite E', Z.eqb_refl in D. discriminate D.
  - intros E. assert (E' : old_word 17 = kw 17).
    { transitivity (nth 0 (g2_words (k_neg_s_g2 k)) 0); [symmetry; exact (f_equal (fun l => nth 17 l 0) Hk)|]. rewrite E. exact (f_equal (fun l => nth 17 l 0) Hk'). }
    pose proof old_differs_s as D. rewrite E', Z.eqb_refl in D. discriminate D.
Qed.

Section Old.
  Variable keccak : bytes -> Z.
  Variable in_g2 : G2c -> bool.
  Variable pairing : list (G1 * G2c) -> bool.
  Variable code : Z -> list Z.
  Notation verify := (verifyProof_old keccak in_g2 pairing code).

  (** ** It answers true or reverts, whatever it is given, *)
  Theorem C64_true_or_revert b ws : Forall byte_ok b -> Forall (fun w => 0 <= w) ws -> verify b ws = Ok true \/ verify b ws = Err "".
  Proof.
    destruct old_key_exists as (k & Hk & Hok & _). exact (old_verify_total keccak in_g2 pairing code k Hok Hk b ws).
  Qed.
  Variable k : vkey.
  Hypothesis Hok : key_ok k.
  Hypothesis Hk : key_words k = old_key.
  (** and accepts nothing but the encoding of a proof and 49 instances *)
  Theorem C64_accepts_encodings b ws : Forall byte_ok b -> Forall (fun w => 0 <= w) ws -> verify b ws = Ok true ->
    exists p is, encodes k b ws p is /\ length ws = 49%nat.
  Proof.
    intros Hb Hw E. destruct (old_verify_inv keccak in_g2 pairing code k Hok Hk b ws Hb Hw E) as (p & is & Hp & Hl & H1 & H2). exists p, is.
    split; [|rewrite H2, map_length; exact Hl]. split; [exact Hp|]. split; [rewrite (old_instances k Hk); exact Hl|]. split; [exact H1|exact H2].
  Qed.
  (** ** It accepts exactly when the opening equation holds for the challenges drawn from the transcript *)
  Theorem C64_decides p is b ws : encodes k b ws p is -> generic k (drawn keccak k is p) ->
    verify b ws = if in_g2 (k_g2 k) && in_g2 (k_neg_s_g2 k) && pairing [(opening_point k is p (drawn keccak k is p), k_g2 k); (p_w' p, k_neg_s_g2 k)]
                  then Ok true else Err "".
  Proof. intros (Hp & Hl & -> & ->) Hg. rewrite (old_instances k Hk) in Hl. exact (old_verify_spec keccak in_g2 pairing code k Hok Hk p is (old_domain k Hk) Hp Hl Hg). Qed.
  (** ** It agrees with the verifier that reads its key from an account, when that account holds this key: so what C59, C61 and C62 say
      of that verifier holds of this one *)
  Theorem C64_agrees code' vk b ws : 0 <= vk -> code' vk = old_key -> Forall byte_ok b -> Forall (fun w => 0 <= w) ws ->
    (forall p is, encodes k b ws p is -> generic k (drawn keccak k is p)) ->
    verify b ws = verifyProof keccak in_g2 pairing code' vk b ws.
  Proof.
    intros Hvk Hc Hb Hw Hg. rewrite <- Hk in Hc.
    assert (H : (exists p is, encodes k b ws p is) -> verify b ws = verifyProof keccak in_g2 pairing code' vk b ws).
    { intros (p & is & He). rewrite (C64_decides p is b ws He (Hg p is He)).
      rewrite (C59_decides keccak in_g2 pairing code' vk Hvk k Hok Hc p is b ws (old_domain k Hk) He (Hg p is He)). reflexivity. }
    destruct (C64_true_or_revert b ws Hb Hw) as [E|E]; [destruct (C64_accepts_encodings b ws Hb Hw E) as (p & is & He & _); exact (H (ex_intro _ p (ex_intro _ is He)))|].
    destruct (C58_true_or_revert keccak in_g2 pairing code' vk Hvk k Hok Hc b ws Hb Hw) as [E'|E'];
      [exact (H (C58_accepts_encodings keccak in_g2 pairing code' vk Hvk k Hok Hc b ws Hb Hw E'))|].
    rewrite E, E'. reflexivity.
  Qed.
  (** with the pairing of BN254: the key's second point is -s g2 for some s, and the combination of commitments is s W' *)
  Theorem C64_accepts_iff p is b ws : in_g2_ok in_g2 -> pairing_ok pairing -> encodes k b ws p is -> generic k (drawn keccak k is p) ->
    verify b ws = Ok true <->
    exists s : Fr, k_neg_s_g2 k = g2mul g2 (fopp s) /\ opening_point k is p (drawn keccak k is p) = g1mul (p_w' p) s.
  Proof.
    intros HG HP He Hg. rewrite (C64_decides p is b ws He Hg).
    assert (Hc : (fun _ : Z => key_words k) 0 = key_words k) by reflexivity.
    rewrite <- (C59_decides keccak in_g2 pairing _ 0 (Z.le_refl 0) k Hok Hc p is b ws (old_domain k Hk) He Hg).
    exact (C59_accepts_iff keccak in_g2 pairing _ 0 (Z.le_refl 0) k Hok Hc HG HP p is b ws (old_domain k Hk) (old_g2 k Hk) He Hg).
  Qed.
End Old.

(** ** A case: the hash, instances and proof of P_Verifier meet the hypotheses above; with a pairing check that says yes the verifier
    accepts, with one that says no it reverts *)
Lemma generic_old k : key_words k = old_key -> generic k (drawn len_hash k is1 p1).
Proof.
  intros Hk. destruct key_exists as (k' & Hk' & _). pose proof (generic1 k' Hk') as H. unfold generic, domain in *. rewrite (old_deg k Hk). rewrite (key_degree k' Hk') in H. rewrite x1, mu1 in *.
  assert (E : k_omega k = k_omega k') by (rewrite (old_omega k Hk), (key_omega k' Hk'); reflexivity). rewrite E. exact H.
Qed.
Theorem C64_case (yes : bool) : exists k, key_words k = old_key /\ key_ok k /\ generic k (drawn len_hash k is1 p1) /\
  verifyProof_old len_hash (fun _ => true) (fun _ => yes) (fun _ => []) (proof_bytes p1) (map scalar_word is1) = if yes then Ok true else Err "".
Proof.
  destruct old_key_exists as (k & Hk & Hok & _). exists k. split; [exact Hk|]. split; [exact Hok|]. split; [exact (generic_old k Hk)|].
  rewrite (C64_decides len_hash (fun _ => true) (fun _ => yes) (fun _ => []) k Hok Hk p1 is1 _ _ (p1_encodes k (old_instances k Hk)) (generic_old k Hk)).
  reflexivity.
Qed.

Print Assumptions C64_key.
Print Assumptions C64_keys_differ.
Print Assumptions C64_true_or_revert.
Print Assumptions C64_accepts_encodings.
Print Assumptions C64_decides.
Print Assumptions C64_agrees.
Print Assumptions C64_accepts_iff.
Print Assumptions C64_case.
