(** C58-C60: the on-chain SNARK verifier (contracts/Halo2Verifier.sol with the key of contracts/Halo2VerifyingKey-3-5-18-g2.sol).
    Ranges over every hash function, every membership test and pairing check (or those with the assumed behaviour, where said), every
    verifying key with the columns of this circuit, for any number of rows and of instances (the deployed one is one of them: C60), every
    account layout in which the account passed as key holds that key, every byte string and every list of 256-bit words. *)
From Coq Require Import ZArith NArith String List Bool Lia.
From Verif.Base Require Import Fld Fp Fq2 EC Primes Curves Group.
From Verif.Model Require Import Monad Evm Points Dkg PairingSol Yul Halo2VerifierSol VerifierCall Zkdvrf RealEnv.
From Verif.Spec Require Import Dvrf Onchain Plonk PlonkVerifier PlonkCall Histories.
From Verif.Proofs Require Import InstanceProofs OnchainProofs DkgProofs ZkdvrfStep ZkdvrfInv1 ZkdvrfInv2 VerifierTop VerifierKey VerifierCosets VerifierCallProofs Kzg.
From Verif.Props Require Import P_Contract.
Import ListNotations.
Open Scope Z_scope.

Section Verifier.
  Variable keccak : bytes -> Z.
  Variable in_g2 : G2c -> bool.
  Variable pairing : list (G1 * G2c) -> bool.
  Variable code : Z -> list Z.
  Variable vk : Z.
  Hypothesis Hvk : 0 <= vk.
  Variable k : vkey.
  Hypothesis Hok : key_ok k.
  Hypothesis Hcode : code vk = key_words k.
  Notation verify := (verifyProof keccak in_g2 pairing code vk).

  (** ** C58: whatever it is given, the verifier answers true or reverts; it never answers false and never runs off the model *)
  Theorem C58_true_or_revert b ws : Forall byte_ok b -> Forall (fun w => 0 <= w) ws -> verify b ws = Ok true \/ verify b ws = Err "".
  Proof. exact (verify_total keccak in_g2 pairing code vk Hvk k Hok Hcode b ws). Qed.
  (** it accepts nothing but the encoding of a proof and of as many instances as the key says, *)
  Theorem C58_accepts_encodings b ws : Forall byte_ok b -> Forall (fun w => 0 <= w) ws -> verify b ws = Ok true ->
    exists p is, encodes k b ws p is.
  Proof. intros Hb Hw E. exact (verify_inv keccak in_g2 pairing code vk Hvk k Hok Hcode b ws Hb Hw E). Qed.
  (** so the length of both is fixed and every word is reduced *)
  Corollary C58_lengths b ws : Forall byte_ok b -> Forall (fun w => 0 <= w) ws -> verify b ws = Ok true ->
    Z.of_nat (length b) = 4480 /\ length ws = k_instances k /\ Forall (fun w => 0 <= w < r_mod) ws.
  Proof.
    intros Hb Hw E. destruct (C58_accepts_encodings b ws Hb Hw E) as (p & is & Hp & Hl & -> & ->). split; [|split].
    - unfold proof_bytes. rewrite length_word_bytes, (length_proof_words p Hp). reflexivity.
    - rewrite map_length. exact Hl.
    - apply Forall_forall. intros w Hin. apply in_map_iff in Hin as (s & <- & _). exact (fval_range r_mod s eq_refl).
  Qed.
  (** a proof has one encoding and an encoding one proof: it cannot be altered without changing what it says *)
  Theorem C58_encoding_unique b ws p is p' is' : encodes k b ws p is -> encodes k b ws p' is' -> p = p' /\ is = is'.
  Proof.
    intros (Hp & _ & E & W) (Hp' & _ & E' & W'). split.
    - apply proof_bytes_inj; [exact Hp|exact Hp'|exact (eq_trans (eq_sym E) E')].
    - apply scalars_inj. exact (eq_trans (eq_sym W) W').
  Qed.

  (** ** C59: it accepts exactly when the opening equation holds for the challenges drawn from the transcript *)
  Theorem C59_decides p is b ws : domain_ok k -> encodes k b ws p is -> generic k (drawn keccak k is p) ->
    verify b ws = if in_g2 (k_g2 k) && in_g2 (k_neg_s_g2 k) && pairing [(opening_point k is p (drawn keccak k is p), k_g2 k); (p_w' p, k_neg_s_g2 k)]
                  then Ok true else Err "".
  Proof. intros Hd (Hp & Hl & -> & ->) Hg. exact (verify_spec keccak in_g2 pairing code vk Hvk k Hok Hcode p is Hd Hp Hl Hg). Qed.

  Hypothesis HG : in_g2_ok in_g2.
  Hypothesis HP : pairing_ok pairing.
  (** with the pairing of BN254: the key's second point is -s g2 for some s, and the combination of commitments is s W' *)
  Theorem C59_accepts_iff p is b ws : domain_ok k -> k_g2 k = g2 -> encodes k b ws p is -> generic k (drawn keccak k is p) ->
    verify b ws = Ok true <->
    exists s : Fr, k_neg_s_g2 k = g2mul g2 (fopp s) /\ opening_point k is p (drawn keccak k is p) = g1mul (p_w' p) s.
  Proof.
    intros Hd H2 He Hg. rewrite (C59_decides p is b ws Hd He Hg), H2.
    generalize (opening_point k is p (drawn keccak k is p)). intros L.
    assert (I2 : in_g2 g2 = true). { apply HG. exists (f1 : Fr). reflexivity. }
    rewrite I2. cbn [andb]. destruct (in_g2 (k_neg_s_g2 k)) eqn:I.
    - apply HG in I as (b0 & Eb). cbn [andb].
      assert (Es : k_neg_s_g2 k = g2mul g2 (fopp (fopp b0))) by (rewrite (opp_opp Fr b0); exact Eb).
      rewrite Es. pose proof (kzg_check pairing HP L (p_w' p) (fopp b0)) as C.
      destruct (pairing [(L, g2); (p_w' p, g2mul g2 (fopp (fopp b0)))]); split.
      + intros _. exists (fopp b0). split; [reflexivity|apply C; reflexivity].
      + reflexivity.
      + discriminate.
      + intros (s & E1 & E2). apply g2mul_inj in E1. rewrite <- (opp_opp Fr s), <- E1, (opp_opp Fr) in E2. apply C in E2. discriminate E2.
    - cbn [andb]. split; [discriminate|]. intros (s & E & _). assert (I' : in_g2 (k_neg_s_g2 k) = true) by (apply HG; exists (fopp s); exact E).
      rewrite I in I'. discriminate I'.
  Qed.
End Verifier.

(** ** C60: the deployed verifying key *)
(** its words are a key: 23 fixed columns, 9 permuted ones, every point on its curve and none the identity, the generators of
    BN254 *)
Theorem C60_key : exists k, key_words k = vk_code /\ key_ok k /\ domain_ok k /\ k_gen k = g1 /\ k_g2 k = g2 /\
  Forall (fun P => P <> g0) (k_fixed k ++ k_sigma k).
Proof. destruct key_exists as (k & Hk & Hok & H). exists k. split; [exact Hk|]. split; [exact Hok|]. split; [exact (key_domain k Hk)|exact H]. Qed.
(** so C58 and C59 apply to the deployed key; a key is determined by its words *)
Theorem C60_key_unique k k' : key_ok k -> key_ok k' -> key_words k = key_words k' -> k = k'.
Proof. exact (key_words_inj k k'). Qed.
Corollary C59_deployed keccak in_g2 pairing code vk k p is b ws : 0 <= vk -> code vk = vk_code -> key_words k = vk_code -> key_ok k ->
  in_g2_ok in_g2 -> pairing_ok pairing -> encodes k b ws p is -> generic k (drawn keccak k is p) ->
  verifyProof keccak in_g2 pairing code vk b ws = Ok true <->
  exists s : Fr, k_neg_s_g2 k = g2mul g2 (fopp s) /\ opening_point k is p (drawn keccak k is p) = g1mul (p_w' p) s.
Proof.
  intros Hvk Hcode Hk Hok HG HP. rewrite <- Hk in Hcode.
  exact (C59_accepts_iff keccak in_g2 pairing code vk Hvk k Hok Hcode HG HP p is b ws (key_domain k Hk) (key_g2 k Hk)).
Qed.
Section Key.
  Variable k : vkey.
  Hypothesis Hd : domain_ok k.
  Open Scope fld_scope.
  (** in any key that meets the conditions of C59 omega generates a group of exactly as many elements as there are rows (its order
      divides 2^d and not 2^(d-1)), n_inv is 1/2^d, and the two precomputed inverses are those of omega and of omega^6, the six rows that
      are not usable *)
  Theorem C60_domain : fpow (k_omega k) (domain k) = 1 /\ fpow (k_omega k) (2 ^ (N.of_nat (k_degree k) - 1)) <> 1 /\
    k_n_inv k * fr (Z.of_N (domain k)) = 1 /\
    k_omega k * k_omega_inv k = 1 /\ k_omega_inv_l k * fpow (k_omega k) (N.of_nat (blinding + 1)) = 1.
  Proof.
    destruct (omega_order k Hd) as [E1 E2]. destruct Hd as (_ & _ & H1 & H2 & H3). split; [exact E1|]. split; [exact E2|]. split; [|split; [exact H1|exact H2]].
    unfold domain. rewrite N2Z.inj_pow, nat_N_Z. exact H3.
  Qed.
  (** the nine columns of the permutation have disjoint sets of labels delta^j omega^i *)
  Theorem C60_labels i j a b : (i < 9)%nat -> (j < 9)%nat -> i <> j ->
    fpow delta (N.of_nat i) * fpow (k_omega k) a <> fpow delta (N.of_nat j) * fpow (k_omega k) b.
  Proof. exact (cosets k Hd i j a b). Qed.
End Key.
(** the deployed key is for 49 instances and 2^18 rows *)
Theorem C60_deployed k : key_words k = vk_code -> k_instances k = 49%nat /\ domain k = (2 ^ 18)%N /\ domain_ok k.
Proof.
  intros Hk. split; [exact (key_instances k Hk)|]. split; [unfold domain; rewrite (key_degree k Hk); reflexivity|exact (key_domain k Hk)].
Qed.

(** ** The contract with this verifier *)
Lemma env_halo2 keccak in_g2 pairing halo2 a b ws : verify_proof (real_env keccak in_g2 pairing halo2) a b ws = halo2 a b ws.
Proof. reflexivity. Qed.
Section Contract.
  Variable v : variant.
  Variable keccak : bytes -> Z.
  Variable in_g2 : G2c -> bool.
  Variable pairing : list (G1 * G2c) -> bool.
  Variable code : Z -> list Z.
  Variable c : cfg.
  Variable k : vkey.
  Hypothesis Hok : key_ok k.
  Hypothesis Hcode : code (c_vk c) = key_words k.
  Notation E := (real_env keccak in_g2 pairing (verifyProof keccak in_g2 pairing code)).
  Notation hist := (Histories.hist v E c).
  Lemma vk_pos tr s : hist tr s -> 0 <= c_vk c.
  Proof.
    induction 1 as [s H _|]; [|assumption]. unfold cfg_ok, is_addr in H. rewrite !andb_true_iff in H. destruct H as ((((_ & (H & _)) & _) & _) & _). apply Z.leb_le in H. exact H.
  Qed.
  Lemma accepted_submission tr s t s' ev pp zk : hist tr s -> apply v E s t = Ok (s', ev) -> what t = SubmitPublicParams pp zk ->
    exists p is, encodes k zk pp p is /\ verifyProof keccak in_g2 pairing code (c_vk c) zk pp = Ok true.
  Proof.
    intros Hh A W. destruct (C28_accepted_vector v E c tr s t s' ev pp zk Hh A W) as (_ & _ & _ & V & _).
    rewrite env_halo2 in V.
    pose proof (proj1 (apply_ok v E s t s' ev A)) as Ht. unfold tx_ok in Ht. rewrite W in Ht. apply andb_prop in Ht as [_ Ht].
    apply andb_prop in Ht as [Ht Hz]. apply andb_prop in Ht as [Hp _].
    assert (Hb : Forall byte_ok zk). { apply Forall_forall. intros x Hx. rewrite forallb_forall in Hz. specialize (Hz x Hx). unfold is_byte in Hz. red. lia. }
    assert (Hw : Forall (fun w => 0 <= w) pp). { apply Forall_forall. intros x Hx. rewrite forallb_forall in Hp. specialize (Hp x Hx). unfold is_u256 in Hp. lia. }
    destruct (C58_accepts_encodings keccak in_g2 pairing code (c_vk c) (vk_pos tr s Hh) k Hok Hcode zk pp Hb Hw V) as (p & is & He).
    exists p, is. split; [exact He|exact V].
  Qed.
  (** every vector of public parameters the contract stores came with a proof the verifier accepted, *)
  Lemma stored_accepted tr s a pp zk : hist tr s -> In (a, pp, zk) (submissions tr) ->
    exists p is, encodes k zk pp p is /\ verifyProof keccak in_g2 pairing code (c_vk c) zk pp = Ok true.
  Proof.
    induction 1 as [s|tr s t Hh IH]; intros Hin; [destruct Hin|].
    unfold submissions in Hin. rewrite flat_map_app in Hin. apply in_app_or in Hin as [Hin|Hin]; [exact (IH Hin)|].
    cbn [flat_map] in Hin. rewrite app_nil_r in Hin. unfold Histories.accepted in Hin. cbn [outcome txn] in Hin.
    destruct (apply v E s t) as [[s' ev]| |] eqn:A; cbn [is_ok] in Hin; try contradiction.
    destruct (what t) as [x|x| |pp' zk'|x| |x|x|x| |] eqn:W; try contradiction. destruct Hin as [Hin|[]]. injection Hin as _ -> ->.
    exact (accepted_submission tr s t s' ev pp zk Hh A W).
  Qed.
  (** that is, one whose commitments and values satisfy the opening equation *)
  Theorem C59_stored_vectors_proved tr s a pp zk : in_g2_ok in_g2 -> pairing_ok pairing -> domain_ok k -> k_g2 k = g2 ->
    hist tr s -> In (a, pp, zk) (submissions tr) ->
    exists p is, encodes k zk pp p is /\
      (generic k (drawn keccak k is p) ->
        exists sec : Fr, k_neg_s_g2 k = g2mul g2 (fopp sec) /\ opening_point k is p (drawn keccak k is p) = g1mul (p_w' p) sec).
  Proof.
    intros HG HP Hd H2 Hh Hin. destruct (stored_accepted tr s a pp zk Hh Hin) as (p & is & He & V). exists p, is. split; [exact He|].
    intros Hg. exact (proj1 (C59_accepts_iff keccak in_g2 pairing code (c_vk c) (vk_pos tr s Hh) k Hok Hcode HG HP p is zk pp Hd H2 He Hg) V).
  Qed.
  (** a key is for one number of members: with any other no vector is ever accepted and the contract never leaves the key generation
      phase *)
  Theorem C58_only_its_size tr s : hist tr s -> Z.of_nat (k_instances k) <> 7 * c_number c + 14 -> submissions tr = [].
  Proof.
    intros Hh N5. destruct (submissions tr) as [|[[a pp] zk] l] eqn:El; [reflexivity|exfalso].
    assert (Hin : In (a, pp, zk) (submissions tr)) by (rewrite El; left; reflexivity). clear El.
    induction Hh as [s|tr s t Hh IH]; [destruct Hin|].
    unfold submissions in Hin. rewrite flat_map_app in Hin. apply in_app_or in Hin as [Hin|Hin]; [exact (IH Hin)|]. clear IH.
    cbn [flat_map] in Hin. rewrite app_nil_r in Hin. unfold Histories.accepted in Hin. cbn [outcome txn] in Hin.
    destruct (apply v E s t) as [[s' ev]| |] eqn:A; cbn [is_ok] in Hin; try contradiction.
    destruct (what t) as [x|x| |pp' zk'|x| |x|x|x| |] eqn:W; try contradiction. destruct Hin as [Hin|[]]. injection Hin as _ -> ->.
    destruct (accepted_submission tr s t s' ev pp zk Hh A W) as (p & is & (_ & Hl & _ & Hw) & _).
    destruct (C28_accepted_vector v E c tr s t s' ev pp zk Hh A W) as (_ & _ & _ & _ & L & _).
    rewrite Hw, map_length, Hl in L. exact (N5 L).
  Qed.
  Corollary C58_other_sizes_stuck tr s : hist tr s -> 0 < c_number c -> Z.of_nat (k_instances k) <> 7 * c_number c + 14 -> phase_rank (contractPhase s) < 3.
  Proof.
    intros Hh Hn N5. destruct (C28_public_params v E c tr s Hh) as (_ & _ & _ & H & _). specialize (H Hn).
    rewrite (C58_only_its_size tr s Hh N5) in H. destruct (Z.lt_ge_cases (phase_rank (contractPhase s)) 3) as [L|L]; [exact L|].
    apply H in L. cbn in L. lia.
  Qed.
  (** the deployed key is for five *)
  Corollary C58_only_five tr s : key_words k = vk_code -> hist tr s -> c_number c <> 5 -> submissions tr = [].
  Proof. intros Hk Hh N5. apply (C58_only_its_size tr s Hh). rewrite (key_instances k Hk). lia. Qed.
End Contract.

(** ** A case: a hash, instances and a proof that meet the hypotheses above; with a pairing check that says yes the verifier accepts,
    with one that says no it reverts *)
Section Case.
  Definition len_hash (b : bytes) : Z := Z.of_nat (length b).
  Definition p1 : proof := Proof_ (repeat g1 29) (repeat (f0 : Fr) 78) g1 g1.
  Definition is1 : list Fr := repeat (f0 : Fr) 49.
  Lemma p1_ok : proof_ok p1.
  Proof.
    split; [reflexivity|]. split; [reflexivity|]. split; [|split; exact g1_neq0].
    apply Forall_forall. intros P HP. apply repeat_spec in HP. rewrite HP. exact g1_neq0.
  Qed.
  Definition zeros (n : nat) : list Fr := repeat (f0 : Fr) n.
  Lemma p1_encodes_n k : encodes k (proof_bytes p1) (map scalar_word (zeros (k_instances k))) p1 (zeros (k_instances k)).
  Proof. split; [exact p1_ok|]. split; [apply repeat_length|split; reflexivity]. Qed.
  Lemma p1_encodes k : k_instances k = 49%nat -> encodes k (proof_bytes p1) (map scalar_word is1) p1 is1.
  Proof. intros E. pose proof (p1_encodes_n k) as H. rewrite E in H. exact H. Qed.
  Lemma absorb_len h ws : absorb Z len_hash word h ws = 32 * (1 + Z.of_nat (length ws)).
  Proof. unfold absorb, len_hash. rewrite length_word_bytes. cbn [length]. lia. Qed.
  Lemma len_words : length (proof_words p1) = 140%nat. Proof. exact (length_proof_words p1 p1_ok). Qed.
  Lemma len_between i j : (j <= 140)%nat -> (i <= j)%nat -> length (words_between i j (proof_words p1)) = (j - i)%nat.
  Proof. intros H H'. unfold words_between. rewrite firstn_length, skipn_length, len_words. lia. Qed.
  Lemma x1 k is : x (drawn len_hash k is p1) = fr 352.
  Proof. cbn [drawn challenges_of x transcript h_x]. rewrite absorb_len, len_between by lia. reflexivity. Qed.
  Lemma mu1 k is : mu (drawn len_hash k is p1) = fr 96.
  Proof. cbn [drawn challenges_of mu transcript h_mu]. rewrite absorb_len, len_between by lia. reflexivity. Qed.
  Lemma x1_pow : (fpow_fast r_mod 352 (2 ^ 18) =? 1) = false. Proof. vm_compute. reflexivity. Qed.
  Lemma fr_prod a b c : ((a * b) mod r_mod =? c mod r_mod) = false -> fr c <> (fr a * fr b)%fld.
  Proof. intros H E. assert (E' : fr c = fr (a * b)) by (rewrite E; symmetry; exact (of_Z_mul r_mod a b)). apply of_Z_inj_mod in E'. rewrite E', Z.eqb_refl in H. discriminate H. Qed.
  Lemma generic1 k : key_words k = vk_code -> generic k (drawn len_hash k is1 p1).
  Proof.
    intros Hk. unfold generic. rewrite x1, mu1. split; [|split].
    - apply (Fp_neq r_mod). reflexivity.
    - intros E. pose proof (fpow_fast_ok r_mod r_prime (fr 352) (2 ^ 18)) as H.
      unfold domain in E. rewrite (key_degree k Hk) in E.
      assert (E' : fval (fpow (fr 352) (2 ^ 18) : Fp r_mod) = 1) by (exact (f_equal (fun z : Fp r_mod => fval z) E)).
      change (fpow_fast r_mod (fval (fr 352 : Fp r_mod)) (2 ^ 18)) with (fpow_fast r_mod 352 (2 ^ 18)) in H.
      assert (H' : fpow_fast r_mod 352 (2 ^ 18) = 1) by exact (eq_trans (eq_sym H) E'). pose proof x1_pow as D. rewrite H' in D. discriminate D.
    - intros [| | |]; cbn [point].
      + assert (E : w_back Fr (k_omega k) 1 = fr (kw 5)).
        { apply (inv_unique Fr). rewrite (key_omega k Hk). rewrite (mul_comm Fr). exact omega_inverse. }
        rewrite E. apply fr_prod. vm_compute. reflexivity.
      + apply (Fp_neq r_mod). reflexivity.
      + rewrite (key_omega k Hk). apply fr_prod. vm_compute. reflexivity.
      + assert (E : w_back Fr (k_omega k) (blinding + 1) = fr (kw 6)).
        { apply (inv_unique Fr). rewrite (key_omega k Hk). exact omega_inverse_l. }
        rewrite E. apply fr_prod. vm_compute. reflexivity.
  Qed.
  (** a small key of another shape: any number [n] of instances, four rows *)
  Definition i4 : Z := 21888242871839275217838484774961031246007050428528088939761107053157389710902.
  Definition small_key (n : nat) : vkey := VKey 7 n 2 (fr 16416182153879456416684804308942956316411273300312025757773653139931856371713) (fr i4)
    (fr (r_mod - i4)) (fr (r_mod - 1)) g1 g2 g2 (repeat g1 23) (repeat g1 9).
  Lemma small_ok n : Z.of_nat n < 2 ^ 64 -> key_ok (small_key n).
  Proof. intros H. split; [reflexivity|]. split; [reflexivity|]. split; [exact H|reflexivity]. Qed.
  Lemma i4_half : fpow (fr i4) 2 = (fopp f1 : Fr).
  Proof.
    transitivity (fr (r_mod - 1)); [|exact (of_Z_eq r_mod _ _ (eq_refl : (r_mod - 1) mod r_mod = (- (1)) mod r_mod))].
    apply (Fp_ext r_mod). vm_compute. reflexivity.
  Qed.
  Lemma i4_inverse : (fr i4 * fr (r_mod - i4) = 1 :> Fr)%fld. Proof. apply (Fp_ext r_mod). vm_compute. reflexivity. Qed.
  Lemma i4_inverse_l : (fr (r_mod - 1) * fpow (fr i4) 6 = 1 :> Fr)%fld. Proof. apply (Fp_ext r_mod). vm_compute. reflexivity. Qed.
  Lemma quarter : (fr 16416182153879456416684804308942956316411273300312025757773653139931856371713 * fr 4 = 1 :> Fr)%fld. Proof. apply (Fp_ext r_mod). vm_compute. reflexivity. Qed.
  Lemma small_domain n : domain_ok (small_key n).
  Proof.
    split; [split; repeat constructor|]. split; [exact i4_half|]. split; [exact i4_inverse|]. split; [exact i4_inverse_l|exact quarter].
  Qed.
  Lemma x1_four : (fpow_fast r_mod 352 4 =? 1) = false. Proof. vm_compute. reflexivity. Qed.
  Lemma generic_small n is : generic (small_key n) (drawn len_hash (small_key n) is p1).
  Proof.
    unfold generic. rewrite x1, mu1. split; [|split].
    - apply (Fp_neq r_mod). reflexivity.
    - intros E. pose proof (fpow_fast_ok r_mod r_prime (fr 352) 4) as H.
      assert (E' : fval (fpow (fr 352) 4 : Fp r_mod) = 1) by (exact (f_equal (fun z : Fp r_mod => fval z) E)).
      change (fpow_fast r_mod (fval (fr 352 : Fp r_mod)) 4) with (fpow_fast r_mod 352 4) in H.
      assert (H' : fpow_fast r_mod 352 4 = 1) by exact (eq_trans (eq_sym H) E'). pose proof x1_four as D. rewrite H' in D. discriminate D.
    - change (k_omega (small_key n)) with (fr i4). intros [| | |]; cbn [point].
      + assert (E : w_back Fr (fr i4) 1 = fr (r_mod - i4)) by (apply (inv_unique Fr); rewrite (mul_comm Fr); exact i4_inverse).
        rewrite E. apply fr_prod. vm_compute. reflexivity.
      + apply (Fp_neq r_mod). reflexivity.
      + apply fr_prod. vm_compute. reflexivity.
      + assert (E : w_back Fr (fr i4) (blinding + 1) = fr (r_mod - 1)) by (apply (inv_unique Fr); exact i4_inverse_l).
        rewrite E. apply fr_prod. vm_compute. reflexivity.
  Qed.
  (** with any number of instances: none, one, or ten thousand *)
  Theorem C59_case_any_size n (yes : bool) : Z.of_nat n < 2 ^ 64 ->
    key_ok (small_key n) /\ domain_ok (small_key n) /\ generic (small_key n) (drawn len_hash (small_key n) (zeros n) p1) /\
    verifyProof len_hash (fun _ => true) (fun _ => yes) (fun _ => key_words (small_key n)) 7 (proof_bytes p1) (map scalar_word (zeros n)) =
      if yes then Ok true else Err "".
  Proof.
    intros Hn. split; [exact (small_ok n Hn)|]. split; [exact (small_domain n)|]. split; [exact (generic_small n _)|].
    exact (C59_decides len_hash (fun _ => true) (fun _ => yes) (fun _ => key_words (small_key n)) 7 ltac:(lia) (small_key n) (small_ok n Hn) eq_refl p1 (zeros n) _ _
      (small_domain n) (p1_encodes_n (small_key n)) (generic_small n _)).
  Qed.
  Theorem C59_case (yes : bool) : exists k, key_words k = vk_code /\ key_ok k /\ generic k (drawn len_hash k is1 p1) /\
    verifyProof len_hash (fun _ => true) (fun _ => yes) (fun _ => vk_code) 7 (proof_bytes p1) (map scalar_word is1) = if yes then Ok true else Err "".
  Proof.
    destruct key_exists as (k & Hk & Hok & _). exists k. split; [exact Hk|]. split; [exact Hok|]. split; [exact (generic1 k Hk)|].
    rewrite (C59_decides len_hash (fun _ => true) (fun _ => yes) (fun _ => vk_code) 7 ltac:(lia) k Hok (eq_sym Hk) p1 is1 _ _ (key_domain k Hk) (p1_encodes k (key_instances k Hk)) (generic1 k Hk)).
    reflexivity.
  Qed.
End Case.

Print Assumptions C58_true_or_revert.
Print Assumptions C58_accepts_encodings.
Print Assumptions C58_lengths.
Print Assumptions C58_encoding_unique.
Print Assumptions C59_decides.
Print Assumptions C59_accepts_iff.
Print Assumptions C60_key.
Print Assumptions C60_key_unique.
Print Assumptions C59_deployed.
Print Assumptions C60_domain.
Print Assumptions C60_labels.
Print Assumptions C60_deployed.
Print Assumptions C59_stored_vectors_proved.
Print Assumptions C58_only_its_size.
Print Assumptions C58_only_five.
Print Assumptions C58_other_sizes_stuck.
Print Assumptions C59_case.
Print Assumptions C59_case_any_size.
