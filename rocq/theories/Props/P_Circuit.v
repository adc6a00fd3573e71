(** C41, C42 and the in-circuit half of C05: the DKG circuit. *)
From Coq Require Import ZArith Znumtheory String List Bool Lia Setoid.
From Verif.Base Require Import Fermat Fld Fp EC Primes Curves Group Order Fq2 Poly.
From Verif.Model Require Import Monad Evm Points Dkg Lib Circ MainGate GrumpkinChip IntegerChip FixedBase DkgCircuit PairingSol GppSol.
From Verif.Spec Require Import Dvrf CircuitSpec Accepts Onchain.
From Verif.Proofs Require Import DkgProofs DvrfProofs SvdwProofs CircProofs GrumpkinProofs FixedBaseProofs IntegerProofs CircuitParts CircuitPoints DkgCircuitProofs Exceptional DkgComplete DkgExact Rare BytesProofs InstanceProofs OnchainProofs DkgDecode CircuitClient DkgSat Malicious.
Import ListNotations.
Open Scope Z_scope.

(** ** C05 *)
Lemma Forall2_len {A B} (R : A -> B -> Prop) l l' : Forall2 R l l' -> length l = length l'.
Proof. intros H. induction H; cbn [length]; congruence. Qed.
Lemma shares_length n h sh a : (1 <= n)%nat -> sem (assign_shares n h) (sh, a) -> length sh = n.
Proof.
  intros Hn H. unfold assign_shares in H. destruct (sem_binv _ _ _ H) as (cs & _ & H1). destruct cs as [|c0 rest]; [destruct H1|].
  destruct (sem_binv _ _ _ H1) as (s0 & _ & H2). destruct (sem_binv _ _ _ H2) as (sr & Hr & H3). cbn [sem] in H3.
  destruct (pair_inj H3) as [-> _]. apply -> (@sem_cmap nat Fr) in Hr. apply Forall2_len in Hr. rewrite seq_length in Hr. cbn [length]. lia.
Qed.
(** whatever the prover assigns, the share cells are the values at 1..n of one polynomial with t coefficients, and every
    such polynomial can be assigned *)
Theorem C05_in_circuit n (hints : list Fr) out : (1 <= n)%nat -> hints <> [] ->
  (sem (assign_shares n hints) out <->
   exists coeffs, length coeffs = length hints /\ out = (map (fun i => poly_at coeffs (fr i)) (zseq n), poly_at coeffs f0)).
Proof.
  intros Hn Nh. unfold zseq. split.
  - destruct out as [sh a]. intros H. pose proof (shares_length n hints sh a Hn H) as L. destruct (sem_shares n hints sh a H) as (cs & Lc & _ & Ea & Es).
    exists cs. split; [exact Lc|]. rewrite Ea. f_equal. rewrite map_map. apply (nth_ext _ _ f0 (poly_at cs (fr (Z.of_nat 0)))).
    + rewrite map_length, seq_length. exact L.
    + intros i Hi. rewrite L in Hi. rewrite (Es i Hi), (map_nth (fun i => poly_at cs (fr (Z.of_nat i)))), seq_nth by exact Hi. reflexivity.
  - intros (cs & Lc & ->). rewrite map_map. apply sat_shares; auto. intros ->. apply Nh. destruct hints; [reflexivity|discriminate Lc].
Qed.
(** the assigned values are the shares the client computes *)
Theorem C05_circuit_agrees n coeffs sh : (1 <= n)%nat -> coeffs <> [] -> shares (Z.of_nat n) coeffs = Ok sh ->
  forall out, honest (assign_shares n coeffs) out <-> out = (sh, hd f0 coeffs).
Proof.
  intros Hn N Hs. rewrite shares_ok, Nat2Z.id in Hs by (auto; lia).
  assert (E : sh = map (fun i => poly_at coeffs (fr (Z.of_nat i))) (seq 1 n)).
  { match type of Hs with Ok ?x = _ => assert (E : sh = x) by congruence end. rewrite E. unfold zseq. rewrite map_map. apply map_ext. intros i. symmetry. apply poly_at_peval. }
  subst sh. pose proof (hon_shares n coeffs N Hn) as H. rewrite poly_at_0 in H. intros out. split.
  - intros H'. exact (honest_fun _ _ _ H' H).
  - intros ->. exact H.
Qed.

(** ** C41 *)
Theorem C41_circuit_new mp aux c : member_circuit mp aux = Ok c <->
  zlen (mp_coeffs mp) = threshold (mp_config mp) /\ zlen (mp_public_keys mp) = number_of_members (mp_config mp) /\
  c = mkDkgCircuit (mp_coeffs mp) (mp_r mp) (mp_public_keys mp) aux.
Proof.
  unfold member_circuit, dkg_circuit_new, zlen. destruct (Z.eqb_spec (Z.of_nat (length (mp_coeffs mp))) (threshold (mp_config mp))) as [E|E]; cbn [assert bind].
  - destruct (Z.eqb_spec (Z.of_nat (length (mp_public_keys mp))) (number_of_members (mp_config mp))) as [E'|E']; cbn [assert bind].
    + split; [intros H|intros (_ & _ & ->); reflexivity]. split; [exact E|]. split; [exact E'|]. congruence.
    + split; [discriminate|intros (_ & X & _); contradiction].
  - split; [discriminate|intros (X & _); contradiction].
Qed.
Lemma params_fields poseidon cfg pks coeffs r mp : 1 <= number_of_members cfg -> member_params_new poseidon cfg pks coeffs r = Ok mp ->
  mp_config mp = cfg /\ mp_coeffs mp = coeffs /\ mp_r mp = r /\ mp_public_keys mp = pks.
Proof.
  intros Hn H. destruct (params_inv _ _ _ _ _ _ H) as [HL Nc]. rewrite member_params_new_ok in H by auto.
  match type of H with Ok ?x = _ => assert (E : mp = x) by congruence end. rewrite E. repeat split.
Qed.
(** The prover run by a member on its own witness succeeds for exactly one vector of public values: the instance the client
    computes from the same witness; and it succeeds for that one unless an incomplete addition meets an exceptional case. *)
Theorem C41_exact poseidon aux1 aux2 cfg pks coeffs r mp aux c :
  1 <= number_of_members cfg -> member_params_new poseidon cfg pks coeffs r = Ok mp -> member_circuit mp aux = Ok c ->
  exists inst, instance_of (mp_public_params mp) pks = Ok inst /\
    forall v, zlen v = instance_size cfg ->
      (prover_ok (synthesize poseidon aux1 aux2 c v) <->
       v = inst /\ table_assignable (g1 : G1) aux1 /\ table_assignable (g2 : G2c) aux2 /\
       ~ dealing_exceptional aux1 aux2 coeffs (number_of_members cfg) /\ aux_point_ok aux (fval (r : Fp r_mod)) pks).
Proof.
  intros Hn H Hc. destruct (params_fields _ _ _ _ _ _ Hn H) as (F1 & F2 & F3 & F4). destruct (params_inv _ _ _ _ _ _ H) as [HL Nc].
  apply C41_circuit_new in Hc as (L1 & L2 & ->). rewrite F1, F2, F3, F4 in *.
  eexists. split; [exact (client_instance poseidon cfg pks coeffs r mp Hn H)|]. intros v Lv.
  assert (Np : pks <> []) by (intros ->; unfold zlen in HL; cbn in HL; lia).
  assert (Lv' : length v = (7 * length pks + 14)%nat) by (unfold instance_size, zlen in *; lia).
  assert (E : number_of_members cfg = Z.of_nat (length pks)) by (unfold zlen in HL; lia). rewrite E.
  exact (honest_iff poseidon aux1 aux2 coeffs r pks aux v Np Nc Lv').
Qed.
(** How rare the exceptional cases are.  Given the other coefficients, at most 13 (n + 2) secrets: *)
Theorem C41_secrets_rare aux1 aux2 rest n (secrets : list Fr) : NoDup secrets ->
  (forall a0, In a0 secrets -> dealing_exceptional aux1 aux2 (a0 :: rest) (Z.of_nat n)) -> (length secrets <= 13 * (n + 2))%nat.
Proof. exact (secrets_rare aux1 aux2 rest n secrets). Qed.
(** ... for a non-zero nonce and member keys that are not the identity at most 510 + 509 n auxiliary points *)
Theorem C41_aux_points_rare s pks (l : list Gk) : 0 < s < r_mod -> Forall (fun pk : Gk => pk <> g0) pks -> NoDup l ->
  (forall A, In A l -> ~ aux_point_ok A s pks) -> (length l <= 510 + 509 * length pks)%nat.
Proof.
  intros B F N H. replace (510 + 509 * length pks)%nat with (1 + 509 * (1 + length pks))%nat by lia. rewrite <- (bad_auxes_length pks s).
  apply NoDup_incl_length; [exact N|]. intros A HA. destruct (in_dec geq_dec A (bad_auxes pks s)) as [I|I]; [exact I|exfalso].
  assert (r_mod < q_mod) by reflexivity. exact (H A HA (bad_auxes_ok pks s A ltac:(lia) F I)).
Qed.
(** ... and 12 auxiliary points of order r for each of the two tables *)
Theorem C41_tables_rare (l1 : list G1) (l2 : list G2c) :
  (NoDup l1 -> (forall A, In A l1 -> ~ table_assignable (g1 : G1) A) -> (length l1 <= 12)%nat) /\
  (NoDup l2 -> (forall A, In A l2 -> zmul r_mod A = g0 /\ ~ table_assignable (g2 : G2c) A) -> (length l2 <= 12)%nat).
Proof.
  split; intros N H.
  - apply (NoDup_incl_length (l' := bad_aux G1 g1) N). intros A HA. destruct (in_dec geq_dec A (bad_aux G1 g1)) as [I|I]; [exact I|exfalso].
    exact (H A HA (proj2 (bad_aux_iff G1 g1 A (G1_exponent A)) I)).
  - apply (NoDup_incl_length (l' := bad_aux G2c g2) N). intros A HA. destruct (in_dec geq_dec A (bad_aux G2c g2)) as [I|I]; [exact I|exfalso].
    destruct (H A HA) as [O X]. exact (X (proj2 (bad_aux_iff G2c g2 A O) I)).
Qed.
(** A dealing whose secret or a share is zero, a zero nonce or a member key that is the identity cannot be proved at all *)
Theorem C41_zero_unprovable poseidon aux1 aux2 cfg pks coeffs r mp aux c v :
  1 <= number_of_members cfg -> member_params_new poseidon cfg pks coeffs r = Ok mp -> member_circuit mp aux = Ok c -> zlen v = instance_size cfg ->
  (exists i, 0 <= i <= number_of_members cfg /\ poly_at coeffs (fr i) = f0) \/ r = f0 \/ In (g0 : Gk) pks ->
  ~ prover_ok (synthesize poseidon aux1 aux2 c v).
Proof.
  intros Hn H Hc Lv Hz P. destruct (C41_exact poseidon aux1 aux2 cfg pks coeffs r mp aux c Hn H Hc) as (inst & _ & X).
  apply (X v Lv) in P. destruct P as (_ & _ & _ & E & (_ & Eg & F)). clear X. destruct Hz as [(i & Bi & Z0)|[Z0|Z0]].
  - apply E. unfold dealing_exceptional. cbv zeta. destruct (Z.eq_dec i 0) as [->|Ni].
    + left. right. right. right. rewrite Z0. reflexivity.
    + right. right. exists i. split; [lia|]. right. right. right. rewrite Z0. reflexivity.
  - apply Eg. right. left. rewrite Z0. reflexivity.
  - rewrite Forall_forall in F. destruct (F g0 Z0) as [N _]. apply N. reflexivity.
Qed.
(** the assumptions are met: tables exist, and then for all keys, nonces and other coefficients some secret and auxiliary
    point make the prover succeed *)
Theorem C41_tables_exist : exists (aux1 : G1) (aux2 : G2c), table_assignable (g1 : G1) aux1 /\ table_assignable (g2 : G2c) aux2.
Proof.
  destruct (avoid (G := G1) (bad_aux G1 g1) (map (fun i => zmul i g1) (zseq 13))) as (A1 & _ & H1).
  { apply (multiples_NoDup (G := G1) g1 r_mod); [exact r_prime|exact g1_neq0|exact g1_order|reflexivity]. }
  { rewrite map_length, length_zseq. unfold bad_aux. rewrite app_length, !map_length. cbn [length]. lia. }
  destruct (avoid (G := G2c) (bad_aux G2c g2) (map (fun i => zmul i g2) (zseq 13))) as (A2 & I2 & H2).
  { apply (multiples_NoDup (G := G2c) g2 r_mod); [exact r_prime|exact g2_neq0|exact g2_order|reflexivity]. }
  { rewrite map_length, length_zseq. unfold bad_aux. rewrite app_length, !map_length. cbn [length]. lia. }
  exists A1, A2. split; [exact (proj2 (bad_aux_iff G1 g1 A1 (G1_exponent A1)) H1)|].
  apply in_map_iff in I2 as (i & E & _). assert (O : zmul r_mod A2 = g0) by (rewrite <- E; apply G2_sub_exponent).
  exact (proj2 (bad_aux_iff G2c g2 A2 O) H2).
Qed.
Lemma fr_NoDup k : (Z.of_nat k < r_mod) -> NoDup (map fr (zseq k)).
Proof.
  intros B. assert (I : forall i, In i (zseq k) -> 1 <= i <= Z.of_nat k) by (intros i Hi; apply in_zseq in Hi; lia).
  pose proof (NoDup_zseq k) as N. revert I N. generalize (zseq k). induction l as [|a l IH]; intros I N; cbn [map]; constructor.
  - intros H. apply in_map_iff in H as (b & E & Hb). inversion N; subst. pose proof (I a (or_introl eq_refl)). pose proof (I b (or_intror Hb)).
    apply fr_inj in E; [|lia|lia]. subst. contradiction.
  - inversion N; subst. apply IH; auto. intros i Hi. apply I. right; auto.
Qed.
Theorem C41_provable poseidon aux1 aux2 cfg pks rest r :
  table_assignable (g1 : G1) aux1 -> table_assignable (g2 : G2c) aux2 ->
  zlen pks = number_of_members cfg -> 1 <= number_of_members cfg < 2 ^ 200 -> zlen rest + 1 = threshold cfg ->
  r <> f0 -> Forall (fun pk : Gk => pk <> g0) pks ->
  exists a0 aux mp c inst, member_params_new poseidon cfg pks (a0 :: rest) r = Ok mp /\ member_circuit mp aux = Ok c /\
    instance_of (mp_public_params mp) pks = Ok inst /\ zlen inst = instance_size cfg /\ prover_ok (synthesize poseidon aux1 aux2 c inst).
Proof.
  intros T1 T2 Lp Hn Lr Nr F. set (n := length pks). assert (En : number_of_members cfg = Z.of_nat n) by (unfold zlen in Lp; unfold n; lia).
  assert (Big : 13 * (2 ^ 200 + 2) + 1 < r_mod) by reflexivity.
  destruct (secret_exists aux1 aux2 rest n (map fr (zseq (S (13 * (n + 2)))))) as (a0 & _ & Ea).
  { apply fr_NoDup. lia. }
  { rewrite map_length, length_zseq. lia. }
  pose proof (fval_range r_mod r eq_refl) as Br. assert (Nz : fval (r : Fp r_mod) <> 0).
  { intros X. apply Nr. apply Fp_ext. exact X. }
  assert (RQ : r_mod < q_mod) by reflexivity.
  destruct (aux_exists pks (fval (r : Fp r_mod)) ltac:(lia) ltac:(fold n; lia) F) as [A HA].
  destruct (member_params_new poseidon cfg pks (a0 :: rest) r) as [mp|e|e] eqn:Em.
  - destruct (params_fields _ _ _ _ _ _ (proj1 Hn) Em) as (F1 & F2 & F3 & F4).
    assert (Hc : member_circuit mp A = Ok (mkDkgCircuit (a0 :: rest) r pks A)).
    { apply C41_circuit_new. rewrite F1, F2, F3, F4. split; [unfold zlen in *; cbn [length]; lia|]. split; [exact Lp|reflexivity]. }
    destruct (C41_exact poseidon aux1 aux2 cfg pks (a0 :: rest) r mp A _ (proj1 Hn) Em Hc) as (inst & Hi & X).
    assert (Li : zlen inst = instance_size cfg).
    { pose proof (client_instance poseidon cfg pks (a0 :: rest) r mp (proj1 Hn) Em) as Y. rewrite Y in Hi. assert (E : inst = honest_instance poseidon (a0 :: rest) (fq (fval (r : Fp r_mod))) pks) by congruence.
      rewrite E. unfold honest_instance, zlen, instance_size.
      rewrite !app_length, (flat_len4 (fun i => g1mul g1 (poly_at (a0 :: rest) (fr i)))), map_length, combine_length, length_zseq, Nat.min_id, coords_len, point_to_public_len, point2_to_public_len.
      cbn [gk_coords length]. fold n. lia. }
    exists a0, A, mp, (mkDkgCircuit (a0 :: rest) r pks A), inst. split; [exact Em|]. split; [exact Hc|]. split; [exact Hi|]. split; [exact Li|].
    apply (X inst Li). split; [reflexivity|]. split; [exact T1|]. split; [exact T2|]. rewrite En. split; [exact Ea|exact HA].
  - exfalso. rewrite (member_params_new_ok poseidon cfg pks (a0 :: rest) r (proj1 Hn) Lp ltac:(discriminate)) in Em. discriminate Em.
  - exfalso. rewrite (member_params_new_ok poseidon cfg pks (a0 :: rest) r (proj1 Hn) Lp ltac:(discriminate)) in Em. discriminate Em.
Qed.

(** ** C42 *)
(** every satisfying assignment, by any prover, is a dealing *)
Theorem C42_sound poseidon aux1 aux2 cfg inst : accepts poseidon aux1 aux2 cfg inst ->
  exists coeffs rs pks, zlen coeffs = threshold cfg /\ zlen pks = number_of_members cfg /\ dealing_instance poseidon coeffs rs pks inst.
Proof.
  intros (Li & c & L1 & L2 & S). unfold zlen, instance_size in *.
  assert (Li' : length inst = (7 * length (dc_public_keys c) + 14)%nat) by (clear -Li L2; lia).
  destruct (circuit_sound poseidon aux1 aux2 c inst S Li') as (cs & rs & pks & E1 & E2 & D). exists cs, rs, pks.
  rewrite E1, E2. split; [exact L1|]. split; [exact L2|exact D].
Qed.
(** and conversely: exactly the dealings whose fixed-base multiplications can avoid the exceptional cases *)
Theorem C42_exact poseidon aux1 aux2 cfg inst : 1 <= threshold cfg -> 1 <= number_of_members cfg < 2 ^ 200 ->
  (accepts poseidon aux1 aux2 cfg inst <->
   table_assignable (g1 : G1) aux1 /\ table_assignable (g2 : G2c) aux2 /\
   exists coeffs rs pks, zlen coeffs = threshold cfg /\ zlen pks = number_of_members cfg /\
     dealing_instance poseidon coeffs rs pks inst /\ dealing_reachable aux1 aux2 coeffs (number_of_members cfg)).
Proof.
  intros Ht Hn. split.
  - intros (Li & c & L1 & L2 & S). unfold zlen, instance_size in *.
    assert (Li' : length inst = (7 * length (dc_public_keys c) + 14)%nat) by (clear -Li L2; lia).
    assert (N1 : dc_coeffs c <> []) by (intros X; rewrite X in L1; cbn in L1; clear -L1 Ht; lia).
    assert (N2 : dc_public_keys c <> []) by (intros X; rewrite X in L2; cbn in L2; clear -L2 Hn; lia).
    rewrite <- L2 in Hn. apply (satisfiable_iff poseidon aux1 aux2 c inst N1 N2 (proj2 Hn) Li') in S.
    destruct S as (T1 & T2 & cs & rs & pks & E1 & E2 & D & R). split; [exact T1|]. split; [exact T2|]. exists cs, rs, pks.
    rewrite E2 in R. rewrite <- L2, E1, E2. split; [exact L1|]. split; [reflexivity|]. split; [exact D|exact R].
  - intros (T1 & T2 & cs & rs & pks & E1 & E2 & D & R). pose proof (dealing_length _ _ _ _ _ D) as Li. unfold accepts, zlen, instance_size in *. split; [rewrite Li, <- E2; lia|].
    exists (mkDkgCircuit cs f0 pks g0). cbn [dc_coeffs dc_public_keys]. split; [exact E1|]. split; [exact E2|].
    assert (N1 : cs <> []) by (intros X; rewrite X in E1; cbn in E1; clear -E1 Ht; lia).
    assert (N2 : pks <> []) by (intros X; rewrite X in E2; cbn in E2; clear -E2 Hn; lia).
    rewrite <- E2 in Hn, R.
    apply (satisfiable_iff poseidon aux1 aux2 (mkDkgCircuit cs f0 pks g0) inst N1 N2 (proj2 Hn) Li).
    split; [exact T1|]. split; [exact T2|]. exists cs, rs, pks. split; [reflexivity|]. split; [reflexivity|]. split; [exact D|exact R].
Qed.
(** what an accepted instance means for everyone reading it: it decodes, the public consistency check passes, and every member
    whose key pair is in the list decrypts, from its ciphertext, its value of one polynomial with t coefficients, whose public
    commitment is in its place *)
Theorem C42_meaning poseidon pairing aux1 aux2 cfg inst : pairing_ok pairing -> accepts poseidon aux1 aux2 cfg inst ->
  exists coeffs pks pp, zlen coeffs = threshold cfg /\ zlen pks = number_of_members cfg /\ from_instance cfg inst = Ok (pp, pks) /\
    ga pp = g1mul g1 (poly_at coeffs f0) /\ g2a pp = g2mul g2 (poly_at coeffs f0) /\ check_public pairing pp = Ok tt /\
    (forall i, 1 <= i <= number_of_members cfg -> get (public_shares pp) (i - 1) = Ok (g1mul g1 (poly_at coeffs (fr i)))) /\
    (forall k i, key_pair k -> get pks (i - 1) = Ok (mk_pk k) -> exists cipher,
       get (ciphers pp) (i - 1) = Ok cipher /\ decrypt_share poseidon k (gr pp) cipher = poly_at coeffs (fr i)).
Proof.
  intros HP A. destruct (C42_sound _ _ _ _ _ A) as (cs & rs & pks & L1 & L2 & D). exists cs, pks, (dealt_params poseidon cs rs pks).
  split; [exact L1|]. split; [exact L2|]. split; [exact (dealing_decodes poseidon cfg cs rs pks inst D L2)|]. split; [reflexivity|]. split; [reflexivity|].
  split; [|split].
  - unfold check_public. cbn [dealt_params ga g2a]. apply (is_dl_equal_iff pairing HP). reflexivity.
  - intros i Hi. exact (mal_share_pub poseidon cfg pks L2 (cs, rs) i Hi).
  - intros k i Hk Hi. exact (mal_decrypt poseidon cfg pks L2 (cs, rs) k i Hk Hi).
Qed.
Lemma NoDup_map_inj {A B} (f : A -> B) l : (forall a b, In a l -> In b l -> f a = f b -> a = b) -> NoDup l -> NoDup (map f l).
Proof.
  intros Hf N. induction N as [|a l Na N IH]; cbn [map]; constructor.
  - intros H. apply in_map_iff in H as (b & E & Hb). apply Na. rewrite <- (Hf b a (or_intror Hb) (or_introl eq_refl) E). exact Hb.
  - apply IH. intros x y Hx Hy. apply Hf; right; auto.
Qed.
Lemma NoDup_fr_upto n : Z.of_nat n < r_mod -> NoDup (map fr (map Z.of_nat (seq 0 (S n)))).
Proof.
  intros B. rewrite map_map. apply NoDup_map_inj; [|apply seq_NoDup].
  intros a b Ha Hb E. apply in_seq in Ha, Hb. apply fr_inj in E; lia.
Qed.
(** an instance stands for one dealing only *)
Theorem C42_unique poseidon cfg inst coeffs rs pks coeffs' rs' pks' : threshold cfg <= number_of_members cfg + 1 -> number_of_members cfg < r_mod ->
  zlen coeffs = threshold cfg -> zlen pks = number_of_members cfg -> dealing_instance poseidon coeffs rs pks inst ->
  zlen coeffs' = threshold cfg -> zlen pks' = number_of_members cfg -> dealing_instance poseidon coeffs' rs' pks' inst ->
  coeffs = coeffs' /\ rs = rs' /\ pks = pks'.
Proof.
  intros Ht Hn L1 L2 D L1' L2' D'.
  pose proof (dealing_decodes poseidon cfg _ _ _ inst D L2) as E. pose proof (dealing_decodes poseidon cfg _ _ _ inst D' L2') as E'.
  rewrite E in E'. assert (X : (dealt_params poseidon coeffs rs pks, pks) = (dealt_params poseidon coeffs' rs' pks', pks')) by congruence.
  clear E E' D D'. destruct (pair_inj X) as [P Ep]. clear X. split; [|split; [|exact Ep]].
  - set (n := length pks). assert (En : number_of_members cfg = Z.of_nat n) by (rewrite <- L2; reflexivity).
    apply (agree_coeffs Fr coeffs coeffs' (map fr (map Z.of_nat (seq 0 (S n))))).
    + apply (NoDup_fr_upto n). rewrite <- En. exact Hn.
    + clear -L1 L1'. unfold zlen in *. lia.
    + rewrite !map_length, seq_length. clear -L1 Ht En. unfold zlen in *. lia.
    + intros x Hx. rewrite map_map in Hx. apply in_map_iff in Hx as (i & <- & Hi). apply in_seq in Hi. rewrite <- !poly_at_peval.
      apply (g1mul_inj g1 _ _ g1_neq0). destruct i as [|i].
      * pose proof (f_equal ga P) as G. cbn [dealt_params ga] in G. exact G.
      * assert (Hi' : 1 <= Z.of_nat (S i) <= number_of_members cfg) by (clear -Hi En; lia).
        pose proof (mal_share_pub poseidon cfg pks L2 (coeffs, rs) (Z.of_nat (S i)) Hi') as S1.
        pose proof (mal_share_pub poseidon cfg pks' L2' (coeffs', rs') (Z.of_nat (S i)) Hi') as S2.
        unfold mpp in S1, S2. cbn [fst snd] in S1, S2. rewrite P in S1. rewrite S1 in S2.
        assert (Oinj : forall a b : G1, Ok a = Ok b -> a = b) by (intros a b e; congruence). exact (Oinj _ _ S2).
  - pose proof (f_equal gr P) as G. cbn [dealt_params gr] in G. exact (smul_inj Gk q_mod q_prime Gk_exponent rs rs' gk gk_neq0 G).
Qed.
