(** C12, C13, C15, C16, C17, C19: the client and the contracts agree.
    Ranges over every 256-bit keccak, every EIP-197 membership test and pairing check with the assumed behaviour (they
    exist), all points, scalars, messages (shorter than 2^64 bytes), instance vectors and numbers of members.
    [enc P] is the pair of integer coordinates of P, (0,0) for the identity; [enc2] the same for the second group. *)
From Coq Require Import ZArith String List Bool Lia Permutation Znumtheory.
From Verif.Base Require Import Fld Fp EC Primes Curves Group Fermat Sqrt.
From Verif.Model Require Import Monad Evm Points HashEvm Dkg Lib Zkdvrf ModExp PairingSol HashSol PseudoRandSol GppSol RealEnv.
From Verif.Spec Require Import Dvrf Onchain Refinement Histories.
From Verif.Proofs Require Import HashProofs ModExpProofs BytesProofs HashSolProofs OnchainProofs InstanceProofs DkgProofs DvrfProofs GppProofs VerifyProofs PairingExists.
From Verif.Props Require Import P_Dvrf.
Import ListNotations.
Open Scope Z_scope.

Lemma pair_val (a b : Fq) : (v a, v b) = (val_q a, val_q b). Proof. reflexivity. Qed.
(** what [enc] is *)
Lemma enc_coords (P : G1) : enc P = (val_q (fst (xy P)), val_q (snd (xy P))). Proof. reflexivity. Qed.

(** the assumptions on the precompiles can be met *)
Lemma in_g2_exists : exists in_g2, in_g2_ok in_g2.
Proof.
  destruct (Z_of_nat_complete r_mod) as [n Hn]; [discriminate|].
  exists (fun Q => existsb (fun k => geqb (g2mul g2 (fr k)) Q) (0 :: zseq n)). intros Q. rewrite existsb_exists. split.
  - intros (k & _ & E). apply geqb_eq in E. exists (fr k). symmetry. exact E.
  - intros [s ->]. destruct (all_scalars n (eq_sym Hn) s) as (k & I & E). exists k. split; auto. rewrite E. apply geqb_eq. reflexivity.
Qed.

(** ** C19 *)
Theorem C19_same_point keccak domain msg : keccak_ok keccak -> Z.of_nat (length domain) < 2 ^ 64 -> Z.of_nat (length msg) < 2 ^ 64 ->
  exists P : G1, hash_to_curve_bn keccak domain msg = Ok P /\ sol_hashToG1 keccak domain msg = Ok (val_q (fst (xy P)), val_q (snd (xy P))).
Proof. intros K D M. destruct (sol_hash_ok keccak K domain msg D M) as (P & A & B). exists P. split; [exact A|]. rewrite <- enc_coords. exact B. Qed.
Theorem C19_same_field_elements keccak domain msg : keccak_ok keccak -> Z.of_nat (length domain) < 2 ^ 64 -> Z.of_nat (length msg) < 2 ^ 64 ->
  hashToField keccak domain msg = (val_q (fst (hash_to_field_evm keccak domain msg)), val_q (snd (hash_to_field_evm keccak domain msg))).
Proof.
  intros K D M. rewrite (hashToField_ok keccak K domain msg D M). exact (pair_val _ _).
Qed.
Theorem C19_same_map (t : Fq) : exists P : G1, map_to_curve_evm t = Ok P /\ mapToG1 (val_q t) = Ok (val_q (fst (xy P)), val_q (snd (xy P))).
Proof.
  destruct (C18_map_total t) as (P & x & y & E & _). exists P. split; [exact E|]. rewrite <- enc_coords. apply mapToG1_ok. exact E.
Qed.
(** the on-chain map refuses integers that are not reduced *)
Theorem C19_map_domain t : q_mod <= t -> mapToG1 t = Err "mapToG1 failed: invalid field element".
Proof. intros H. unfold mapToG1. rewrite HQ_eq. destruct (Z.ltb_spec t q_mod); [lia|]. reflexivity. Qed.
(** the two addition chains of ModExp.sol *)
Lemma v_mul (x y : Fq) : v (x * y)%fld = (v x * v y) mod q_mod. Proof. reflexivity. Qed.
Lemma v_one : v f1 = 1. Proof. reflexivity. Qed.
Lemma v_zero : v f0 = 0. Proof. reflexivity. Qed.
Lemma inverse_v (x : Fq) : x <> f0 -> ModexpInverse_run (v x) = v (finv x).
Proof. intros N. unfold v. rewrite inverse_run. unfold fq_invert. destruct (feq_dec x f0) as [E|_]; [contradiction|]. reflexivity. Qed.
Lemma v_of a : 0 <= a < q_mod -> v (fq a) = a. Proof. intros H. rewrite v_fq. apply Z.mod_small. exact H. Qed.
Theorem C19_inverse_chain a : 0 < a < q_mod -> 0 <= ModexpInverse_run a < q_mod /\ (a * ModexpInverse_run a) mod q_mod = 1.
Proof.
  intros H. assert (E : v (fq a) = a) by (apply v_of; lia).
  assert (N : fq a <> f0) by (intros X; rewrite X, v_zero in E; lia).
  pose proof (inverse_v (fq a) N) as I. rewrite E in I. rewrite I. split; [apply v_range|].
  rewrite <- E at 1. rewrite <- v_mul, (mul_comm Fq), finv_l by exact N. exact v_one.
Qed.
Lemma sqrt_v (x : Fq) : ModexpSqrt_run (v x) = v (root q_mod q_prime x). Proof. exact (sqrt_run x). Qed.
Theorem C19_sqrt_chain a : 0 <= a < q_mod -> (exists y, (y * y) mod q_mod = a) -> (ModexpSqrt_run a * ModexpSqrt_run a) mod q_mod = a.
Proof.
  intros H [y Ey]. assert (E : v (fq a) = a) by (apply v_of; lia).
  pose proof (sqrt_v (fq a)) as R. rewrite E in R. rewrite R, <- v_mul. refine (eq_trans _ E). f_equal.
  apply (root_spec q_mod q_prime q4). exists (fq y). apply v_inj. rewrite v_mul, v_fq, <- Zmult_mod, Ey. symmetry. exact E.
Qed.
Example C19_meets : exists P : G1, map_to_curve_evm (fq 5) = Ok P /\ mapToG1 5 = Ok (enc P) /\ 0 < 5 < q_mod /\ (exists y, (y * y) mod q_mod = 4).
Proof.
  destruct (C19_same_map (fq 5)) as (P & A & B). exists P. split; [exact A|]. split; [exact B|]. split; [split; reflexivity|]. exists 2. reflexivity.
Qed.

(** ** C13 *)
(** each coordinate x is encoded as (x mod 2^136, x / 2^136), both below 2^136 *)
Theorem C13_encoding (P : G1) : let x := val_q (fst (xy P)) in let y := val_q (snd (xy P)) in
  map val_r (point_to_public P) = [x mod 2 ^ 136; x / 2 ^ 136; y mod 2 ^ 136; y / 2 ^ 136] /\ Forall (fun a => 0 <= val_r a < 2 ^ 136) (point_to_public P).
Proof.
  intros x y. unfold point_to_public. rewrite !coord_eq. cbn [app map]. change val_r with vr.
  rewrite !vr_lo, !vr_hi. split; [reflexivity|]. repeat constructor; rewrite ?vr_lo, ?vr_hi; try apply lo_range; try apply hi_range.
Qed.
Theorem C13_encoding2 (Q : G2c) : let x := fst (xy Q) in let y := snd (xy Q) in
  map val_r (point2_to_public Q) = flat_map (fun c : Fq => [val_q c mod 2 ^ 136; val_q c / 2 ^ 136]) [fst x; snd x; fst y; snd y].
Proof.
  intros x y. unfold point2_to_public. unfold x, y. destruct (xy Q) as [x' y']. cbn [fst snd]. rewrite !coord_eq. cbn [app map flat_map]. change val_r with vr.
  rewrite !vr_lo, !vr_hi. reflexivity.
Qed.
Theorem C13_injective (P Q : G1) : point_to_public P = point_to_public Q -> P = Q.
Proof. intros E. pose proof (point_roundtrip P) as A. rewrite E, point_roundtrip in A. congruence. Qed.
Theorem C13_injective2 (P Q : G2c) : point2_to_public P = point2_to_public Q -> P = Q.
Proof. intros E. pose proof (point2_roundtrip P) as A. rewrite E, point2_roundtrip in A. congruence. Qed.
(** the on-chain reader, with its checked arithmetic, and the client's reader both give the point back *)
Theorem C13_read_onchain (P : G1) : readBnG1 (map val_r (point_to_public P)) = Ok (val_q (fst (xy P)), val_q (snd (xy P))).
Proof. exact (readBnG1_enc P). Qed.
Theorem C13_read_client (P : G1) (Q : G2c) : public_to_point (point_to_public P) = Ok P /\ public_to_point2 (point2_to_public Q) = Ok Q.
Proof. split; [apply point_roundtrip|apply point2_roundtrip]. Qed.
Example C13_meets : exists P Q : G1, P <> Q /\ point_to_public P <> point_to_public Q.
Proof. exists g1, g0. split; [exact g1_neq0|]. intros E. apply C13_injective in E. exact (g1_neq0 E). Qed.

(** ** C12 *)
Theorem C12_round_trip cfg pp pks inst : zlen pks = number_of_members cfg -> length (public_shares pp) = length pks ->
  length (ciphers pp) = length pks -> instance_of pp pks = Ok inst -> from_instance cfg inst = Ok (pp, pks).
Proof.
  intros N S C I. apply from_instance_of; auto. exact (proj1 (C11_instance_size cfg pp pks inst N C I)).
Qed.
(** encoding such parameters never fails *)
Theorem C12_encodes pp pks : length (public_shares pp) = length pks -> exists inst, instance_of pp pks = Ok inst.
Proof. intros L. rewrite instance_shares by auto. eauto. Qed.
Theorem C12_wrong_length cfg inst : zlen inst <> 7 * number_of_members cfg + 14 -> exists m, from_instance cfg inst = Panic m.
Proof.
  intros N. unfold from_instance. destruct (Z.eqb_spec (zlen inst) (instance_size cfg)) as [E|_].
  - exfalso. apply N. rewrite E. unfold instance_size. lia.
  - eexists. reflexivity.
Qed.
(** different parameters have different vectors *)
Corollary C12_injective cfg pp pp' pks pks' inst : zlen pks = number_of_members cfg -> zlen pks' = number_of_members cfg ->
  length (public_shares pp) = length pks -> length (ciphers pp) = length pks -> length (public_shares pp') = length pks' -> length (ciphers pp') = length pks' ->
  instance_of pp pks = Ok inst -> instance_of pp' pks' = Ok inst -> pp = pp' /\ pks = pks'.
Proof.
  intros N N' S C S' C' I I'. pose proof (C12_round_trip cfg pp pks inst N S C I) as A. pose proof (C12_round_trip cfg pp' pks' inst N' S' C' I') as B.
  rewrite A in B. split; congruence.
Qed.
Definition demo_pp : member_pp := mkPP [g1; g0] [fr 5; fr 6] gk g1 g2.
Example C12_meets : exists inst, instance_of demo_pp [gk; g0] = Ok inst /\ from_instance (mkConfig 1 2) inst = Ok (demo_pp, [gk; g0]).
Proof.
  destruct (C12_encodes demo_pp [gk; g0] eq_refl) as [inst E]. exists inst. split; [exact E|]. apply C12_round_trip; auto; reflexivity.
Qed.

(** ** C15 *)
Section Gpp.
  Variable in_g2 : G2c -> bool.
  Variable pairing : list (G1 * G2c) -> bool.
  Hypothesis HG : in_g2_ok in_g2.
  Hypothesis HP : pairing_ok pairing.

  (** whatever instance vectors the client can decode: if the contract computes keys from them, they are the client's *)
  Theorem C15_same_keys cfg insts pps gpk gpk' vks : insts <> [] ->
    Forall2 (fun inst pp => exists pks, from_instance cfg inst = Ok (pp, pks)) insts pps ->
    createGpp in_g2 pairing (number_of_members cfg) gpk (map (map val_r) insts) = Ok (gpk', vks) ->
    exists gpp (s : Fr), dkg_global_public_params pps = Ok gpp /\ vks = map enc (verify_keys gpp) /\ gpk' = gpk /\
      g_ga gpp = g1mul g1 s /\ gpk = enc2 (g2mul g2 s).
  Proof. exact (createGpp_inv in_g2 pairing HG HP cfg insts pps gpk gpk' vks). Qed.

  (** for the vectors of well-formed parameters it computes them, for exactly the global key with the right discrete
      logarithm (the bound on n is the contract's uint32 arithmetic) *)
  Theorem C15_accepts cfg pps pkss insts : pps <> [] -> zlen pps <= number_of_members cfg -> 4 * number_of_members cfg + 8 < 2 ^ 32 ->
    Forall2 (fun pp pks => zlen pks = number_of_members cfg /\ length (public_shares pp) = length pks /\ length (ciphers pp) = length pks) pps pkss ->
    Forall2 (fun '(pp, pks) inst => instance_of pp pks = Ok inst) (combine pps pkss) insts ->
    exists gpp (s : Fr), dkg_global_public_params pps = Ok gpp /\ g_ga gpp = g1mul g1 s /\
      createGpp in_g2 pairing (number_of_members cfg) (enc2 (g2mul g2 s)) (map (map val_r) insts) = Ok (enc2 (g2mul g2 s), map enc (verify_keys gpp)) /\
      forall gpk r, createGpp in_g2 pairing (number_of_members cfg) gpk (map (map val_r) insts) = Ok r -> gpk = enc2 (g2mul g2 s).
  Proof.
    intros NE L B F I. destruct (createGpp_ok in_g2 pairing HG HP cfg pps pkss insts (enc2 (g2mul g2 (f0 : Fr))) NE L B F I) as (gpp & Eg & _).
    destruct (G1_dlog (g_ga gpp)) as [s Es]. exists gpp, s. split; [exact Eg|]. split; [exact Es|]. split.
    - destruct (createGpp_ok in_g2 pairing HG HP cfg pps pkss insts (enc2 (g2mul g2 s)) NE L B F I) as (gpp' & Eg' & C).
      assert (gpp' = gpp) by congruence. subst gpp'. apply (C s Es eq_refl).
    - intros gpk [g' vks] H.
      assert (D : Forall2 (fun inst pp => exists pks, from_instance cfg inst = Ok (pp, pks)) insts pps).
      { clear - F I. revert insts I. induction F as [|pp pks pps pkss (A & S & C) F IH]; cbn [combine]; intros insts I; inversion I; subst; constructor; auto.
        eexists. apply C12_round_trip; eauto. }
      assert (NI : insts <> []) by (intros ->; inversion D; congruence).
      destruct (C15_same_keys cfg insts pps gpk g' vks NI D H) as (gpp' & s' & E' & _ & _ & G' & K). assert (gpp' = gpp) by congruence. subst gpp'.
      rewrite Es in G'. apply g1mul_inj in G'; [|exact g1_neq0]. subst s'. exact K.
  Qed.

  (** when moreover every dealer's parameters pass the client's public check, the accepted key is the client's g2a *)
  Theorem C15_gpk_is_g2a pps gpp gpk (s : Fr) : dkg_global_public_params pps = Ok gpp -> Forall (fun pp => length (public_shares pp) = length (public_shares (hd demo_pp pps))) pps ->
    Forall (fun pp => check_public pairing pp = Ok tt /\ exists b : Fr, g2a pp = g2mul g2 b) pps ->
    g_ga gpp = g1mul g1 s -> gpk = enc2 (g2mul g2 s) -> gpk = enc2 (g_g2a gpp).
  Proof.
    intros E L F Es ->. assert (NE : pps <> []) by (intros ->; discriminate E).
    rewrite (global_ok pps _ NE L) in E. assert (X : gpp = mkGPP (gsum (map ga pps)) (gsum (map g2a pps)) (map (fun i => gsum (map (fun pp => nth i (public_shares pp) g0) pps)) (seq 0 (length (public_shares (hd demo_pp pps)))))) by congruence.
    rewrite X in Es |- *. cbn [g_ga g_g2a] in *. clear X E L NE. f_equal. revert s Es. induction F as [|pp pps [C [b Eb]] F IH]; cbn [map]; intros s Es.
    - rewrite gsum_nil in *. rewrite <- (g1mul_0 g1) in Es. apply g1mul_inj in Es; [|exact g1_neq0]. subst s. apply g2mul_0.
    - rewrite gsum_cons in *. unfold check_public in C. rewrite Eb in C. apply (is_dl_equal_iff pairing HP) in C. rewrite C in Es.
      destruct (G1_dlog (gsum (map ga pps))) as [u Eu]. rewrite Eu, <- g1mul_add in Es. apply g1mul_inj in Es; [|exact g1_neq0]. subst s.
      rewrite Eb, <- (IH u Eu). apply g2mul_add.
  Qed.
End Gpp.
Lemma g1mul_one P : g1mul P (fr 1) = P. Proof. exact (smul_1 G1 r_mod r_prime G1_exponent P). Qed.
Example C15_meets : exists in_g2 pairing inst vks, in_g2_ok in_g2 /\ pairing_ok pairing /\ instance_of demo_pp [gk; g0] = Ok inst /\
  createGpp in_g2 pairing 2 (enc2 (g2mul g2 (fr 2))) [map val_r inst; map val_r inst] = Ok (enc2 (g2mul g2 (fr 2)), vks) /\ length vks = 2%nat.
Proof.
  destruct in_g2_exists as [ig HG]. destruct pairing_exists as [pr HP]. destruct (C12_encodes demo_pp [gk; g0] eq_refl) as [inst E].
  destruct (C15_accepts ig pr HG HP (mkConfig 1 2) [demo_pp; demo_pp] [[gk; g0]; [gk; g0]] [inst; inst]) as (gpp & s & Eg & Es & C & _).
  - discriminate.
  - reflexivity.
  - reflexivity.
  - repeat constructor.
  - cbn [combine]. constructor; [exact E|]. constructor; [exact E|]. constructor.
  - exists ig, pr, inst, (map enc (verify_keys gpp)). split; [exact HG|]. split; [exact HP|]. split; [exact E|].
    rewrite (global_ok [demo_pp; demo_pp] 2) in Eg; [|discriminate|constructor; [reflexivity|constructor; [reflexivity|constructor]]].
    match type of Eg with Ok ?x = _ => assert (X : gpp = x) by congruence end.
    assert (Z : s = fr 2).
    { rewrite X in Es. cbn [g_ga map demo_pp ga] in Es. rewrite !gsum_cons, gsum_nil, g0_r in Es.
      assert (Y : (g1 ⊕ g1)%grp = g1mul g1 (fr 2)).
      { transitivity (g1mul g1 (fr 1 + fr 1)%fld); [|f_equal; apply (Fp_ext r_mod); reflexivity]. rewrite g1mul_add. exact (eq_sym (f_equal2 gadd (g1mul_one g1) (g1mul_one g1))). }
      rewrite Y in Es. apply g1mul_inj in Es; [auto|exact g1_neq0]. }
    subst s. split; [exact C|]. rewrite X. reflexivity.
Qed.

(** ** C16 *)
(** the byte string hashed for the challenge is the same *)
Theorem C16_transcript (sigma vk r2 r1 h g : G1) : transcript sigma vk r2 r1 h g = pack [enc g; enc h; enc r1; enc r2; enc vk; enc sigma].
Proof. exact (transcript_pack sigma vk r2 r1 h g). Qed.
Theorem C16_agree keccak cfg (e : Dkg.partial_eval) msg (vk : G1) : keccak_ok keccak -> 1 <= pe_index e <= number_of_members cfg -> Z.of_nat (length msg) < 2 ^ 64 ->
  exists b, verifyPartialEval keccak msg (enc (pe_value e)) (val_r (pe_z e)) (val_r (pe_c e)) (enc vk) = Ok b /\
    (b = true <-> pe_verify keccak e cfg msg vk = Ok tt).
Proof.
  intros K I L. exists (is_ok (pe_verify keccak e cfg msg vk)). split; [exact (pe_agree keccak K cfg e msg vk I L)|].
  destruct (pe_verify keccak e cfg msg vk) as [[]| |]; cbn [is_ok]; split; congruence.
Qed.
(** every argument list the contract accepts is an evaluation the client accepts, z being read modulo r *)
Theorem C16_accepted_onchain keccak cfg msg sigma z c vk i : keccak_ok keccak -> 1 <= i <= number_of_members cfg -> Z.of_nat (length msg) < 2 ^ 64 ->
  verifyPartialEval keccak msg sigma z c vk = Ok true ->
  exists (S V : G1), sigma = enc S /\ vk = enc V /\ 0 <= c < r_mod /\ pe_verify keccak (mkPartialEval i S (fr z) (fr c)) cfg msg V = Ok tt.
Proof. intros K I L. exact (pe_inv keccak K cfg msg sigma z c vk i I L). Qed.
(** ... and z really is not required to be reduced: a submitted proof is malleable *)
Theorem C16_z_malleable keccak msg sigma z c vk : verifyPartialEval keccak msg sigma (z + r_mod) c vk = verifyPartialEval keccak msg sigma z c vk.
Proof. exact (z_reduced keccak msg sigma z c vk). Qed.
(** coordinates that are not reduced or not on the curve make the call fail *)
Theorem C16_bad_point keccak msg sigma z c vk b : verifyPartialEval keccak msg sigma z c vk = Ok b ->
  keccak_ok keccak -> Z.of_nat (length msg) < 2 ^ 64 -> exists (S V : G1), sigma = enc S /\ vk = enc V.
Proof.
  intros H K L. destruct (msg_hash keccak K msg L) as (h & _ & E2). rewrite (full_fast _ _ _ _ _ _ _ E2) in H.
  destruct (fast_inv _ _ _ _ _ _ _ H) as (? & S & V & _ & A & B). eauto.
Qed.
(** an honest evaluation satisfies both *)
Example C16_meets keccak : keccak_ok keccak -> exists e, evaluate keccak (mkShareKey 1 (fr 5) (g1mul g1 (fr 5))) [7; 8] (fr 9) = Ok e /\
  pe_verify keccak e (mkConfig 1 1) [7; 8] (g1mul g1 (fr 5)) = Ok tt /\
  verifyPartialEval keccak [7; 8] (enc (pe_value e)) (val_r (pe_z e)) (val_r (pe_c e)) (enc (g1mul g1 (fr 5))) = Ok true.
Proof.
  intros K. destruct (evaluate_ok keccak (mkShareKey 1 (fr 5) (g1mul g1 (fr 5))) [7; 8] (fr 9)) as (h & _ & E). cbn [index sk vk] in E.
  match type of E with _ = Ok ?x => exists x end. split; [exact E|].
  match goal with |- pe_verify _ ?x _ _ _ = _ /\ _ => set (e := x) in * end.
  assert (V : pe_verify keccak e (mkConfig 1 1) [7; 8] (g1mul g1 (fr 5)) = Ok tt).
  { apply (evaluate_verifies keccak (mkShareKey 1 (fr 5) (g1mul g1 (fr 5))) [7; 8] (fr 9) e (mkConfig 1 1)); auto. cbn. lia. }
  split; [exact V|]. destruct (C16_agree keccak (mkConfig 1 1) e [7; 8] (g1mul g1 (fr 5)) K) as (b & A & B); [cbn; lia|reflexivity|].
  rewrite A. f_equal. apply B. exact V.
Qed.

(** ** C17 *)
Section Final.
  Variable keccak : bytes -> Z.
  Variable in_g2 : G2c -> bool.
  Variable pairing : list (G1 * G2c) -> bool.
  Hypothesis K : keccak_ok keccak.
  Hypothesis HG : in_g2_ok in_g2.

  (** the contract's two tests (pairing, then value = keccak of the coordinates) against the client's verification; a value
      is 32 bytes, read by the contract as a big-endian integer *)
  Theorem C17_agree msg (S : G1) value (s : Fr) : Z.of_nat (length msg) < 2 ^ 64 -> 0 <= value < 2 ^ 256 ->
    let '(x, y) := enc S in
    (verifyPseudoRand keccak in_g2 pairing msg (x, y) (enc2 (g2mul g2 s)) = Ok true /\ value = keccak (word x ++ word y)) <->
    pr_verify keccak pairing (mkPseudoRandom S (be_bytes 32 value)) msg (g2mul g2 s) = Ok tt.
  Proof. intros L V. pose proof (pr_agree keccak K in_g2 pairing HG msg S value s L V) as A. destruct (enc S) as [x y]. exact A. Qed.
  Theorem C17_total msg (S : G1) (s : Fr) : Z.of_nat (length msg) < 2 ^ 64 ->
    exists b, verifyPseudoRand keccak in_g2 pairing msg (enc S) (enc2 (g2mul g2 s)) = Ok b.
  Proof. exact (pr_total keccak K in_g2 pairing HG msg S s). Qed.
  (** anything the contract accepts, the client accepts *)
  Theorem C17_accepted_onchain msg x y gpk : Z.of_nat (length msg) < 2 ^ 64 -> verifyPseudoRand keccak in_g2 pairing msg (x, y) gpk = Ok true ->
    exists (S : G1) (s : Fr), (x, y) = enc S /\ gpk = enc2 (g2mul g2 s) /\
      pr_verify keccak pairing (mkPseudoRandom S (be_bytes 32 (keccak (word x ++ word y)))) msg (g2mul g2 s) = Ok tt.
  Proof. exact (pr_inv keccak K in_g2 pairing HG msg (x, y) gpk). Qed.
End Final.
Example C17_meets keccak : keccak_ok keccak -> exists in_g2 pairing h, in_g2_ok in_g2 /\ pairing_ok pairing /\
  verifyPseudoRand keccak in_g2 pairing [1] (enc (g1mul h (fr 6))) (enc2 (g2mul g2 (fr 6))) = Ok true.
Proof.
  intros K. destruct in_g2_exists as [ig HG]. destruct pairing_exists as [pr HP]. destruct (msg_hash keccak K [1] eq_refl) as (h & E & _).
  exists ig, pr, h. split; [exact HG|]. split; [exact HP|].
  assert (V : pr_verify keccak pr (mkPseudoRandom (g1mul h (fr 6)) (prf_value keccak (g1mul h (fr 6)))) [1] (g2mul g2 (fr 6)) = Ok tt).
  { apply (pr_verify_iff keccak pr HP _ [1] (fr 6) h E). split; reflexivity. }
  rewrite prf_value_word in V. apply (pr_agree keccak K ig pr HG [1]) in V; [|reflexivity|apply K]. apply V.
Qed.

Print Assumptions C12_round_trip.
Print Assumptions C13_encoding.
Print Assumptions C13_read_onchain.
Print Assumptions C15_same_keys.
Print Assumptions C15_accepts.
Print Assumptions C16_agree.
Print Assumptions C16_accepted_onchain.
Print Assumptions C17_agree.
Print Assumptions C19_same_point.
Print Assumptions C19_inverse_chain.
Print Assumptions C19_sqrt_chain.
