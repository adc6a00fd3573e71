(** C61, C62: what an accepted proof means, and that there are accepted proofs.  For every circuit over the deployed domain, every description of it by polynomials, every
    advice that does not satisfy it and every way of choosing the later messages of the prover, all but few challenges and secrets
    lead to rejection; and for advice that does satisfy it a prover has answers that are accepted for all but few challenges. *)
From Coq Require Import ZArith NArith Nnat String List Bool Lia Field.
From Verif.Base Require Import Fld Fp EC Primes Curves Group Poly.
From Verif.Model Require Import Monad Evm Points Halo2VerifierSol VerifierCall Zkdvrf RealEnv.
From Verif.Spec Require Import Few Dvrf Onchain Plonk PlonkVerifier PlonkCall PlonkCircuit PlonkSound Histories.
From Verif.Proofs Require Import FewProofs VerifierKey VerifierCosets VerifierCallProofs PlonkSoundFr PlonkCompleteFr PlonkExample.
From Verif.Props Require Import P_Verifier.
Import ListNotations.
Open Scope Z_scope.

(** *** monotonicity of the conversation *)
Lemma all_but_few_impl d adv (P Q : messages Fr -> (nat -> list Fr) -> list Fr -> list Fr -> list Fr -> challenges -> Fr -> Prop) :
  (forall m h evals w w' ch s, P m h evals w w' ch s -> Q m h evals w w' ch s) -> all_but_few d adv P -> all_but_few d adv Q.
Proof.
  intros I. unfold all_but_few. apply except_impl. intros th R A' S' HA HS. specialize (R A' S' HA HS). revert R. apply except_impl. intros be R.
  revert R. apply except_impl. intros ga R Z L Rn HZ HL HR. specialize (R Z L Rn HZ HL HR). revert R. apply except_impl. intros y0 R h Hh.
  specialize (R h Hh). revert R. apply except_impl. intros X R evals. specialize (R evals). revert R. apply except_impl. intros ze R.
  revert R. apply except_impl. intros nu0 R w Hw. specialize (R w Hw). revert R. apply except_impl. intros mu0 R w' Hw'. specialize (R w' Hw').
  revert R. apply except_impl. intros s R. apply I. exact R.
Qed.

Lemma made_key_ok n d omega n_inv s fx sg k : (d <= 28)%nat -> (n <= rows d)%nat -> made_from n d omega n_inv s fx sg k -> key_ok k.
Proof.
  intros Hd Hn (Kn & Kd & _ & _ & _ & _ & _ & Kf & Ks). split; [rewrite Kf, map_length, seq_length; reflexivity|].
  split; [rewrite Ks, map_length, seq_length; reflexivity|]. rewrite Kn, Kd. pose proof (rows_big d Hd) as B. split; [|lia].
  apply Z.le_lt_trans with (2 ^ 28); [lia|reflexivity].
Qed.

Section Soundness.
  Variable d : nat.
  Hypothesis d_ok : (3 <= d <= 28)%nat.
  Notation rows := (rows d).
  Variables omega n_inv : Fr.
  Hypothesis omega_half : fpow omega (2 ^ (N.of_nat d - 1)) = (fopp f1 : Fr).
  Hypothesis n_inv_ok : (n_inv * fr (2 ^ Z.of_nat d) = 1 :> Fr)%fld.
  Variable c : circuit Fr.
  Hypothesis Hc : circuit_ok Fr rows c.
  Variables fx sg : nat -> list Fr.
  Hypothesis Hd : describes Fr rows omega delta c fx sg.
  Variable insts : list Fr.
  Hypothesis Hinsts : (length insts <= rows)%nat.
  Variable adv : nat -> list Fr.
  Hypothesis Hadv : forall i, short Fr rows (adv i).
  Variable pairing : list (G1 * G2c) -> bool.
  Hypothesis HP : pairing_ok pairing.
  (** the advice columns do not satisfy the circuit with these instances *)
  Hypothesis Hbad : ~ satisfied Fr mds_at mds_inv_at limb_tag rows c insts (fun j i => in_row Fr omega (adv j) i).

  (** ** C61: then the opening equation fails *)
  Theorem C61_soundness : all_but_few d adv (fun m h evals w w' ch s => forall k, made_from (length insts) d omega n_inv s fx sg k ->
    generic k ch /\ ~ verifies k insts (proof_of s m h evals w w') ch pairing).
  Proof. exact (sound_fr d d_ok omega n_inv omega_half n_inv_ok c Hc fx sg Hd insts Hinsts adv Hadv pairing HP Hbad). Qed.

  (** and verifyProof reverts on every encoding of such a proof for which the hash draws those challenges *)
  Theorem C61_call_rejects in_g2 vk : in_g2_ok in_g2 -> 0 <= vk ->
    all_but_few d adv (fun m h evals w w' ch s => forall k code keccak b ws, made_from (length insts) d omega n_inv s fx sg k -> domain_ok k -> code vk = key_words k ->
      encodes k b ws (proof_of s m h evals w w') insts -> drawn keccak k insts (proof_of s m h evals w w') = ch ->
      verifyProof keccak in_g2 pairing code vk b ws = Err ""%string).
  Proof.
    intros HG Hvk. generalize C61_soundness. apply all_but_few_impl. intros m h evals w w' ch s R k code keccak b ws Hk Hdom Hcode He Hdr.
    destruct (R k Hk) as (Hg & Hv). rewrite <- Hdr in Hg, Hv.
    pose proof (made_key_ok (length insts) d omega n_inv s fx sg k (proj2 d_ok) Hinsts Hk) as Hok.
    rewrite (C59_decides keccak in_g2 pairing code vk Hvk k Hok Hcode (proof_of s m h evals w w') insts b ws Hdom He Hg).
    revert Hv. unfold verifies. destruct (pairing [(opening_point k insts (proof_of s m h evals w w') (drawn keccak k insts (proof_of s m h evals w w')), k_g2 k); (p_w' (proof_of s m h evals w w'), k_neg_s_g2 k)]).
    - intros Hv. exfalso. exact (Hv eq_refl).
    - intros _. rewrite andb_false_r. reflexivity.
  Qed.
  (** so no history of the contract stores the vector with such a proof *)
  Theorem C61_never_stored v in_g2 cf : in_g2_ok in_g2 ->
    all_but_few d adv (fun m h evals w w' ch s => forall k code keccak zk pp a tr st, made_from (length insts) d omega n_inv s fx sg k -> domain_ok k ->
      code (c_vk cf) = key_words k ->
      encodes k zk pp (proof_of s m h evals w w') insts -> drawn keccak k insts (proof_of s m h evals w w') = ch ->
      Histories.hist v (real_env keccak in_g2 pairing (verifyProof keccak in_g2 pairing code)) cf tr st -> ~ In (a, pp, zk) (submissions tr)).
  Proof.
    intros HG. destruct (Z.lt_ge_cases (c_vk cf) 0) as [Neg|Pos].
    - generalize C61_soundness. apply all_but_few_impl. intros m h evals w w' ch s _ k code keccak zk pp a tr st _ _ _ _ _ Hh _.
      pose proof (vk_pos v keccak in_g2 pairing code cf tr st Hh). lia.
    - generalize (C61_call_rejects in_g2 (c_vk cf) HG Pos). apply all_but_few_impl.
      intros m h evals w w' ch s R k code keccak zk pp a tr st Hk Hdom Hcode He Hdr Hh Hin.
      destruct (stored_accepted v keccak in_g2 pairing code cf k (made_key_ok (length insts) d omega n_inv s fx sg k (proj2 d_ok) Hinsts Hk) Hcode tr st a pp zk Hh Hin) as (p & is & _ & V).
      rewrite (R k code keccak zk pp Hk Hdom Hcode He Hdr) in V. discriminate V.
  Qed.
End Soundness.

(** ** C62: completeness *)
Lemma can_answer_impl d adv (P Q : messages Fr -> (nat -> list Fr) -> list Fr -> list Fr -> list Fr -> challenges -> Fr -> Prop) :
  (forall m h evals w w' ch s, P m h evals w w' ch s -> Q m h evals w w' ch s) -> can_answer d adv P -> can_answer d adv Q.
Proof.
  intros I R th. destruct (R th) as (A' & S' & HA & HS & R1). exists A', S'. split; [exact HA|]. split; [exact HS|].
  revert R1. apply except_impl. intros be R1. revert R1. apply except_impl. intros ga (Z & L & HZ & HL & R1). exists Z, L. split; [exact HZ|]. split; [exact HL|].
  intros Rn HR y0. destruct (R1 Rn HR y0) as (h & Hh & R2). exists h. split; [exact Hh|]. revert R2. apply except_impl. intros X (ev & Le & R2).
  exists ev. split; [exact Le|]. intros ze nu0. destruct (R2 ze nu0) as (w & Hw & R3). exists w. split; [exact Hw|]. revert R3. apply except_impl.
  intros mu0 (w' & Hw' & R3). exists w'. split; [exact Hw'|]. intros s. apply I. exact (R3 s).
Qed.
Section Completeness.
  Variable d : nat.
  Hypothesis d_ok : (3 <= d <= 28)%nat.
  Notation rows := (rows d).
  Variables omega n_inv : Fr.
  Hypothesis omega_half : fpow omega (2 ^ (N.of_nat d - 1)) = (fopp f1 : Fr).
  Hypothesis n_inv_ok : (n_inv * fr (2 ^ Z.of_nat d) = 1 :> Fr)%fld.
  Variable c : circuit Fr.
  Hypothesis Hc : circuit_ok Fr rows c.
  Hypothesis Hcy : cycles Fr rows c.
  Variables fx sg : nat -> list Fr.
  Hypothesis Hd : describes Fr rows omega delta c fx sg.
  Variable insts : list Fr.
  Hypothesis Hinsts : (length insts <= rows)%nat.
  Variable adv : nat -> list Fr.
  Hypothesis Hadv : forall i, short Fr rows (adv i).
  Variable pairing : list (G1 * G2c) -> bool.
  Hypothesis HP : pairing_ok pairing.
  (** the advice columns satisfy the circuit with these instances *)
  Hypothesis Hsat : satisfied Fr mds_at mds_inv_at limb_tag rows c insts (fun j i => in_row Fr omega (adv j) i).

  Theorem C62_completeness : can_answer d adv (fun m h evals w w' ch s => forall k, made_from (length insts) d omega n_inv s fx sg k ->
    generic k ch /\ verifies k insts (proof_of s m h evals w w') ch pairing).
  Proof. exact (complete_fr d d_ok omega n_inv omega_half n_inv_ok c Hc Hcy fx sg Hd insts Hinsts adv Hadv pairing HP Hsat). Qed.
  (** verifyProof returns true on the encoding of such a proof when the hash draws those challenges *)
  Theorem C62_call_accepts in_g2 vk : in_g2_ok in_g2 -> 0 <= vk ->
    can_answer d adv (fun m h evals w w' ch s => forall k code keccak b ws, made_from (length insts) d omega n_inv s fx sg k -> domain_ok k -> code vk = key_words k ->
      encodes k b ws (proof_of s m h evals w w') insts -> drawn keccak k insts (proof_of s m h evals w w') = ch ->
      verifyProof keccak in_g2 pairing code vk b ws = Ok true).
  Proof.
    intros HG Hvk. generalize C62_completeness. apply can_answer_impl. intros m h evals w w' ch s R k code keccak b ws Hk Hdom Hcode He Hdr.
    destruct (R k Hk) as (Hg & Hv). rewrite <- Hdr in Hg, Hv. pose proof (made_key_ok (length insts) d omega n_inv s fx sg k (proj2 d_ok) Hinsts Hk) as Hok.
    rewrite (C59_decides keccak in_g2 pairing code vk Hvk k Hok Hcode (proof_of s m h evals w w') insts b ws Hdom He Hg).
    unfold verifies in Hv. rewrite Hv. pose proof Hk as (_ & _ & _ & _ & _ & K2 & Ks & _). rewrite K2, Ks.
    assert (I2 : in_g2 g2 = true). { apply HG. exists (f1 : Fr). reflexivity. }
    assert (I3 : in_g2 (g2mul g2 (fopp s)) = true). { apply HG. exists (fopp s). reflexivity. }
    rewrite I2, I3. reflexivity.
  Qed.
End Completeness.

(** every key that meets the conditions of C59 with eight rows or more has such a domain, the deployed one among them *)
Theorem C61_domain k : domain_ok k -> fpow (k_omega k) (2 ^ (N.of_nat (k_degree k) - 1)) = (fopp f1 : Fr) /\
  (k_n_inv k * fr (2 ^ Z.of_nat (k_degree k)) = 1 :> Fr)%fld /\ (k_degree k <= 28)%nat.
Proof. intros ((_ & D) & H1 & _ & _ & H2). split; [exact H1|]. split; [exact H2|exact D]. Qed.
Theorem C61_deployed_domain k : key_words k = vk_code -> k_degree k = 18%nat /\ k_instances k = 49%nat /\
  fpow (k_omega k) (2 ^ 17) = (fopp f1 : Fr) /\ (k_n_inv k * fr (2 ^ 18) = 1 :> Fr)%fld.
Proof.
  intros Hk. destruct (key_domain k Hk) as (_ & H1 & _ & _ & H2). rewrite (key_degree k Hk) in H1, H2.
  split; [exact (key_degree k Hk)|]. split; [exact (key_instances k Hk)|]. split; [exact H1|exact H2].
Qed.
(** and every secret and description over such a domain has a key *)
Section Keys.
  Variable K : Fld.
  Add Field KKeys : (flaw K).
  Open Scope fld_scope.
  Lemma pow_zero (w : K) m : fpow w (2 ^ m) = - (1) -> w <> 0.
  Proof.
    intros E ->. assert (M : (2 ^ m)%N <> 0%N) by (apply N.pow_nonzero; discriminate).
    rewrite <- (N.succ_pred _ M) in E. rewrite (fpow_succ K) in E. apply (f1_neq_0 K).
    transitivity (- - (1) : K); [ring|]. rewrite <- E. ring.
  Qed.
  Lemma inv_right (w : K) : w <> 0 -> w * finv w = 1. Proof. intros. field. assumption. Qed.
  Lemma inv_left (w : K) : w <> 0 -> finv w * w = 1. Proof. intros. field. assumption. Qed.
End Keys.
Theorem C61_keys_exist n d omega n_inv s fx sg : (3 <= d <= 28)%nat -> (n <= rows d)%nat ->
  fpow omega (2 ^ (N.of_nat d - 1)) = (fopp f1 : Fr) -> (n_inv * fr (2 ^ Z.of_nat d) = 1 :> Fr)%fld ->
  exists k, made_from n d omega n_inv s fx sg k /\ key_ok k /\ domain_ok k.
Proof.
  intros Hd Hn Ho Hi. pose proof (pow_zero Fr omega _ Ho) as N0.
  exists (VKey 0 n d n_inv omega (finv omega) (finv (fpow omega 6)) g1 g2 (g2mul g2 (fopp s)) (map (fun j => commit s (fx j)) (seq 0 23)) (map (fun j => commit s (sg j)) (seq 0 9))).
  assert (M : forall k, made_from n d omega n_inv s fx sg k -> made_from n d omega n_inv s fx sg k /\ key_ok k).
  { intros k Hk. split; [exact Hk|exact (made_key_ok n d omega n_inv s fx sg k (proj2 Hd) Hn Hk)]. }
  destruct (M _ (conj eq_refl (conj eq_refl (conj eq_refl (conj eq_refl (conj eq_refl (conj eq_refl (conj eq_refl (conj eq_refl eq_refl)))))))
    : made_from n d omega n_inv s fx sg (VKey 0 n d n_inv omega (finv omega) (finv (fpow omega 6)) g1 g2 (g2mul g2 (fopp s)) (map (fun j => commit s (fx j)) (seq 0 23)) (map (fun j => commit s (sg j)) (seq 0 9))))) as [H1 H2].
  split; [exact H1|]. split; [exact H2|]. split; [cbn [k_degree]; split; [exact (Nat.le_trans _ _ _ (le_S _ _ (le_n 2)) (proj1 Hd))|exact (proj2 Hd)]|].
  split; [exact Ho|]. split; [exact (inv_right Fr omega N0)|].
  split; [exact (inv_left Fr _ (fpow_neq0 Fr omega 6 N0))|exact Hi].
Qed.

(** ** A case: over the deployed domain, the circuit with one copy, of the first instance into the first cell of the first advice column;
    with instance one, zero advice does not satisfy it and advice one does *)
Definition no_adv (_ : nat) : list Fr := [].
Definition one_adv (j : nat) : list Fr := match j with O => [f1] | _ => [] end.
Theorem C61_C62_case : exists (omega n_inv : Fr) (c : circuit Fr) fx sg (insts : list Fr),
  fpow omega (2 ^ 17) = (fopp f1 : Fr) /\ (n_inv * fr (2 ^ 18) = 1 :> Fr)%fld /\ circuit_ok Fr (rows 18) c /\ cycles Fr (rows 18) c /\
  describes Fr (rows 18) omega delta c fx sg /\ length insts = 49%nat /\
  (forall j, short Fr (rows 18) (no_adv j)) /\ ~ satisfied Fr mds_at mds_inv_at limb_tag (rows 18) c insts (fun j i => in_row Fr omega (no_adv j) i) /\
  (forall j, short Fr (rows 18) (one_adv j)) /\ satisfied Fr mds_at mds_inv_at limb_tag (rows 18) c insts (fun j i => in_row Fr omega (one_adv j) i).
Proof.
  destruct C60_key as (k & Hk & _). destruct (C61_deployed_domain k Hk) as (_ & _ & Ho & Hn). exists (k_omega k), (k_n_inv k), (copy_circuit Fr), (fun _ => []).
  assert (D : (3 <= 18 <= 28)%nat) by (split; repeat constructor). pose proof (rows_8 18 (proj1 D)) as R8.
  assert (R7 : (6 < rows 18)%nat) by (apply (Nat.lt_le_trans _ 8); [repeat constructor|exact R8]).
  destruct (copy_described Fr (rows 18) R7 (k_omega k) (k_n_inv k) delta (omega_rows 18 D _ Ho) (omega_rows_inj 18 D _ Ho) (n_inv_rows 18 _ Hn)) as (sg & Hs).
  exists sg, (repeat (f1 : Fr) 49). split; [exact Ho|]. split; [exact Hn|]. split; [apply copy_ok|]. split; [apply copy_cycles|]. split; [exact Hs|]. split; [reflexivity|].
  assert (S0 : short Fr (rows 18) []) by apply Nat.le_0_l.
  split; [intros j; exact S0|]. split; [|split].
  - intros H. apply (copy_satisfied Fr mds_at mds_inv_at limb_tag (rows 18) R7) in H. exact (f1_neq_0 Fr (eq_sym H)).
  - intros [|j]; [|exact S0]. apply (Nat.le_trans _ 8); [repeat constructor|exact R8].
  - apply (copy_satisfied Fr mds_at mds_inv_at limb_tag (rows 18) R7). exact (one_const Fr _).
Qed.

Print Assumptions C61_soundness.
Print Assumptions C61_call_rejects.
Print Assumptions C61_never_stored.
Print Assumptions C61_domain.
Print Assumptions C61_deployed_domain.
Print Assumptions C61_keys_exist.
Print Assumptions C62_completeness.
Print Assumptions C62_call_accepts.
Print Assumptions C61_C62_case.
