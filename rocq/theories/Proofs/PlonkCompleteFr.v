(** Completeness over the deployed domain, for proofs as the verifier sees them. *)
From Coq Require Import ZArith NArith Nnat List Lia Bool Field.
From Verif.Base Require Import Fld Fp EC Primes Curves Group Poly.
From Verif.Model Require Import Points.
From Verif.Spec Require Import Few Dvrf Onchain Plonk PlonkVerifier PlonkCircuit PlonkSound.
From Verif.Proofs Require Import FewProofs VerifierKey VerifierCosets RowLagrange ConstraintSound PlonkSoundK PlonkSoundFr PlonkCompleteK.
Import ListNotations.

Section Gen.
  Variable K : Fld.
  Add Field kf : (flaw K).
  Lemma zero_l (x : K) : fmul f0 x = f0. Proof. ring. Qed.
  Lemma sub_same (x : K) : fsub x x = f0. Proof. ring. Qed.
End Gen.
Lemma off_all (K : Fld) (finite : exists all : list K, NoDup all /\ forall x, In x all) n : (1 <= n)%nat ->
  except (n + 1) (fun X : K => X <> f0 /\ fpow X (N.of_nat n) <> f1).
Proof.
  intros n1.
  assert (P1 : except n (fun X : K => fsub (fpow X (N.of_nat n)) f1 <> f0)).
  { apply (pf_at K finite).
    - apply pf_sub; [apply pf_pow|apply (pf_le K 0); [lia|apply pf_const]].
    - exists f0. destruct n as [|m]; [lia|]. rewrite Nat2N.inj_succ, fpow_succ. intros E. apply (fsub_eq0 K) in E. apply (f1_neq_0 K). rewrite <- E. apply zero_l. }
  assert (P2 : except 1 (fun X : K => ~ In X [f0])) by (apply except_list; auto).
  pose proof (except_and _ _ _ _ P1 P2) as Q. revert Q. apply except_impl. intros X (H1 & H2). split.
  - intros ->. apply H2. left. reflexivity.
  - intros E. apply H1. rewrite E. apply (sub_same K).
Qed.
Lemma off_points (K : Fld) (p : rot -> K) : except 4 (fun mu => forall r, mu <> p r).
Proof.
  apply (except_impl 4 (fun mu => ~ In mu (map p [Prev; Cur; Next; Last]))); [|apply except_list; auto].
  intros mu H r E. apply H. rewrite E. apply in_map. destruct r; cbn; auto.
Qed.

Section Complete.
  Variable d : nat.
  Hypothesis d_ok : (3 <= d <= 28)%nat.
  Notation rows := (rows d).
  Variables omega n_inv : Fr.
  Hypothesis omega_half : fpow omega (2 ^ (N.of_nat d - 1)) = (fopp f1 : Fr).
  Hypothesis n_inv_ok : (n_inv * fr (2 ^ Z.of_nat d) = 1 :> Fr)%fld.
  Variable c : circuit Fr.
  Hypothesis Hc : circuit_ok Fr rows c.
  Hypothesis Hcy : cycles Fr rows c.
  Variables fx sg : nat -> list Fr.
  Hypothesis Hd : describes Fr rows omega delta c fx sg.
  Variable insts : list Fr.
  Hypothesis Hinsts : (length insts <= rows)%nat.
  Variable adv : nat -> list Fr.
  Hypothesis Hadv : forall i, short Fr rows (adv i).
  Variable pairing : list (G1 * G2c) -> bool.
  Hypothesis HP : pairing_ok pairing.

  Theorem complete_fr : satisfied Fr mds_at mds_inv_at limb_tag rows c insts (fun j i => in_row Fr omega (adv j) i) ->
    can_answer d adv (fun m h evals w w' ch s => forall k, made_from (length insts) d omega n_inv s fx sg k ->
      generic k ch /\ verifies k insts (proof_of s m h evals w w') ch pairing).
  Proof.
    intros Hs.
    pose proof (plonk_complete Fr mds_at mds_inv_at delta limb_tag rows omega n_inv (rows_8 d (proj1 d_ok)) (omega_rows d d_ok omega omega_half)
      (omega_rows_inj d d_ok omega omega_half) (n_inv_rows d n_inv n_inv_ok) c Hc Hcy fx sg Hd insts Hinsts adv Hadv Hs) as PC.
    unfold can_answer. intros th. destruct (PC th) as (A' & S' & HA & HS & R). clear PC. exists A', S'. split; [exact HA|]. split; [exact HS|].
    revert R. apply except_impl. intros be R. revert R. apply except_impl. intros ga (Z & L & HZ & HL & R).
    exists Z, L. split; [exact HZ|]. split; [exact HL|]. intros Rn HR y0. destruct (R Rn HR y0) as (h & Hh & R'). clear R.
    exists h. split; [exact Hh|]. set (m := Messages Fr adv A' S' Z L Rn) in *.
    assert (R1 : (1 <= rows)%nat) by (apply (Nat.le_trans _ 8); [repeat constructor|exact (rows_8 d (proj1 d_ok))]).
    generalize (off_all Fr (Fp_finite r_mod r_prime) rows R1). apply except_impl. intros X (X0 & Xn).
    exists (map (fun cr => peval (column Fr fx sg m (fst cr)) (point Fr omega X (snd cr))) openings).
    split; [apply map_length|]. intros ze nu0.
    set (evals := map (fun cr => peval (column Fr fx sg m (fst cr)) (point Fr omega X (snd cr))) openings).
    assert (Hcl : forall cl r, opened cl r = true -> claimed (Proof_ [] evals g0 g0) cl r = peval (column Fr fx sg m cl) (point Fr omega X r)).
    { intros cl r Ho. unfold opened in Ho. destruct (in_dec cr_eq_dec (cl, r) openings) as [I|]; [|discriminate Ho].
      unfold claimed. cbn [p_evals]. unfold evals.
      pose proof (fun dec => nth_index dec (fun cr => peval (column Fr fx sg m (fst cr)) (point Fr omega X (snd cr))) openings [] f0 (cl, r) I) as NI.
      rewrite app_nil_r in NI. apply NI. }
    destruct (R' X X0 Xn (claimed (Proof_ [] evals g0 g0)) Hcl ze nu0) as (w & Hw & Rw). exists w. split; [exact Hw|].
    generalize (off_points Fr (point Fr omega X)). apply except_impl. intros mu0 Hmu. destruct (Rw mu0 Hmu) as (w' & Hw' & Rs).
    exists w'. split; [exact Hw'|]. intros s k Hk. set (ch := Challenges th be ga y0 X ze nu0 mu0). split.
    - split; [exact X0|]. split.
      + cbn [x ch]. rewrite (domain_is (length insts) d omega n_inv s fx sg k Hk). exact Xn.
      + intros r. cbn [mu x ch]. rewrite (proj1 (proj2 (proj2 Hk))). exact (Hmu r).
    - apply (verifies_iff (length insts) d omega n_inv s fx sg k Hk m h evals w w' ch insts pairing HP). exact (Rs s).
  Qed.
End Complete.
