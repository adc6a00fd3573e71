(** The instance vector of the client against the one of the circuit. *)
From Coq Require Import ZArith String List Bool Lia Setoid.
From Verif.Base Require Import Fermat Fld Fp EC Primes Curves Group Order Fq2 Poly.
From Verif.Model Require Import Monad Evm Points Dkg Lib Circ DkgCircuit.
From Verif.Spec Require Import Dvrf CircuitSpec.
From Verif.Proofs Require Import HashProofs DkgProofs DvrfProofs InstanceProofs GppProofs CircProofs DkgCircuitProofs DkgComplete DkgExact Rare.
Import ListNotations.
Open Scope Z_scope.

Lemma params_inv poseidon cfg pks coeffs r mp : member_params_new poseidon cfg pks coeffs r = Ok mp ->
  zlen pks = number_of_members cfg /\ coeffs <> [].
Proof.
  unfold member_params_new. intros H. destruct (Z.eqb_spec (zlen pks) (number_of_members cfg)) as [E|E]; [|discriminate H].
  split; [exact E|]. intros X. subst coeffs. discriminate H.
Qed.
Lemma poly_at_0 coeffs : poly_at coeffs f0 = hd f0 coeffs.
Proof. rewrite poly_at_peval. exact (peval_0 Fr coeffs). Qed.
Lemma hd_peval coeffs : peval coeffs (f0 : Fr) = hd f0 coeffs. Proof. exact (peval_0 Fr coeffs). Qed.
Lemma flat_map_map {A B C} (f : B -> list C) (g : A -> B) l : flat_map f (map g l) = flat_map (fun a => f (g a)) l.
Proof. rewrite !flat_map_concat_map, map_map. reflexivity. Qed.
Section Comm.
  Variable K : Fld.
  Add Field KFc : (flaw K).
  Lemma fadd_comm (a b : K) : (a + b = b + a)%fld. Proof. ring. Qed.
End Comm.

Theorem client_instance poseidon cfg pks coeffs r mp : 1 <= number_of_members cfg -> member_params_new poseidon cfg pks coeffs r = Ok mp ->
  instance_of (mp_public_params mp) pks = Ok (honest_instance poseidon coeffs (fq (fval (r : Fp r_mod))) pks).
Proof.
  intros Hn H. pose proof (params_inv _ _ _ _ _ _ H) as [HL Nc]. rewrite member_params_new_ok in H by auto.
  match type of H with Ok ?x = _ => assert (E : mp = x) by congruence end. clear H. subst mp. cbn [mp_public_params].
  rewrite instance_shares by (cbn [public_shares]; rewrite map_length, length_zseq; reflexivity). cbn [public_shares ga g2a gr ciphers].
  unfold honest_instance. f_equal. rewrite !poly_at_0. f_equal. rewrite flat_map_map. f_equal.
  - apply flat_map_ext. intros i. rewrite poly_at_peval. reflexivity.
  - f_equal. unfold gk_coords. f_equal. f_equal. apply map_ext. intros [i pk]. unfold cipher, pad_of, rs_of. rewrite poly_at_peval. apply (fadd_comm Fr).
Qed.

Lemma fr_0 : fr 0 = f0. Proof. reflexivity. Qed.
Lemma exceptional_split aux1 aux2 cs n :
  ~ dealing_exceptional aux1 aux2 cs n <->
  ~ exceptional (g1 : G1) aux1 (fval (poly_at cs f0 : Fp r_mod)) /\ ~ exceptional (g2 : G2c) aux2 (fval (poly_at cs f0 : Fp r_mod)) /\
  (forall i, (1 <= i <= n)%Z -> ~ exceptional (g1 : G1) aux1 (fval (poly_at cs (fr i) : Fp r_mod))).
Proof.
  unfold dealing_exceptional. rewrite fr_0. split.
  - intros N. split; [intros X; apply N; left; exact X|]. split; [intros X; apply N; right; left; exact X|].
    intros i Hi X. apply N. right. right. exists i. split; [exact Hi|exact X].
  - intros (A & B & C) [X|[X|(i & Hi & X)]]; [exact (A X)|exact (B X)|exact (C i Hi X)].
Qed.

Theorem honest_iff poseidon aux1 aux2 cs (r : Fr) (pks : list Gk) (A : Gk) inst : pks <> [] -> cs <> [] -> length inst = (7 * length pks + 14)%nat ->
  (prover_ok (synthesize poseidon aux1 aux2 (mkDkgCircuit cs r pks A) inst) <->
   inst = honest_instance poseidon cs (fq (fval (r : Fp r_mod))) pks /\
   table_assignable (g1 : G1) aux1 /\ table_assignable (g2 : G2c) aux2 /\ ~ dealing_exceptional aux1 aux2 cs (Z.of_nat (length pks)) /\
   aux_point_ok A (fval (r : Fp r_mod)) pks).
Proof.
  intros Np Nc L. rewrite exceptional_split. unfold aux_point_ok. split.
  - intros H. pose proof (circuit_instance poseidon aux1 aux2 cs r pks A inst Np L H) as E.
    pose proof (circuit_regular poseidon aux1 aux2 cs r pks A inst Np H) as (_ & T1 & T2 & E1 & E2 & E3 & NA & Eg & Fk).
    split; [exact E|]. split; [exact T1|]. split; [exact T2|]. split; [split; [exact E1|split; [exact E2|exact E3]]|].
    split; [exact NA|]. split; [exact Eg|exact Fk].
  - intros (E & T1 & T2 & (E1 & E2 & E3) & NA & Eg & Fk). rewrite E.
    exact (circuit_complete poseidon aux1 aux2 cs r pks A Nc Np T1 T2 E1 E2 E3 NA Eg Fk).
Qed.
