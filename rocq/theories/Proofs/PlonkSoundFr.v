(** Soundness for BN254's scalar field and the points a proof really contains. *)
From Coq Require Import ZArith NArith Nnat List Lia Field Bool.
From Verif.Base Require Import Fld Fp EC Primes Curves Group Poly.
From Verif.Model Require Import Points.
From Verif.Spec Require Import Few Dvrf Plonk PlonkVerifier PlonkCircuit PlonkSound.
From Verif.Proofs Require Import FewProofs DkgProofs VerifierKey VerifierCosets VerifierPoints Kzg OpenSound PlonkSoundK.
Import ListNotations.

(** *** roots of unity of order a power of two *)
Section Two.
  Variable K : Fld.
  Open Scope fld_scope.
  Add Field kf : (flaw K).
  Hypothesis two : (1 + 1 : K) <> 0.
  Lemma m1_pow d : fpow (- (1) : K) (N.of_nat d) = 1 -> Nat.even d = true.
  Proof.
    assert (P : forall d, fpow (- (1) : K) (N.of_nat d) = if Nat.even d then 1 else - (1)).
    { intros k. induction k as [|d' IH]; [reflexivity|]. rewrite Nat2N.inj_succ, fpow_succ, IH, Nat.even_succ, <- Nat.negb_even. destruct (Nat.even d'); cbn [negb]; ring. }
    rewrite P. destruct (Nat.even d); [reflexivity|]. intros E. exfalso. apply two. transitivity (1 - - (1) : K); [ring|]. rewrite E. ring.
  Qed.
  Lemma sq (v : K) : fpow v 2 = v * v.
  Proof. change 2%N with (N.succ (N.succ 0)). rewrite !fpow_succ, fpow_0. ring. Qed.
  Lemma two_adic m : forall (v : K) d, fpow v (2 ^ N.of_nat m) = - (1) -> fpow v (N.of_nat d) = 1 -> exists q, d = (2 ^ S m * q)%nat.
  Proof.
    induction m as [|m IH]; intros v d Hv Hd.
    - assert (E : v = - (1)). { rewrite <- Hv. change (2 ^ N.of_nat 0)%N with (N.succ 0). rewrite fpow_succ, fpow_0. ring. }
      rewrite E in Hd. apply m1_pow in Hd. apply Nat.even_spec in Hd as (q & ->). exists q. reflexivity.
    - assert (Ev : Nat.even d = true).
      { apply m1_pow. rewrite <- Hv, <- (fpow_mul K), N.mul_comm, (fpow_mul K), Hd. apply fpow_1_l. }
      apply Nat.even_spec in Ev as (e & ->). destruct (IH (v * v) e) as (q & ->).
      + rewrite <- Hv, Nat2N.inj_succ, N.pow_succ_r', (fpow_mul K). rewrite sq. reflexivity.
      + rewrite <- Hd, Nat2N.inj_mul, (fpow_mul K). rewrite (sq v : fpow v (N.of_nat 2) = _). reflexivity.
      + exists q. rewrite !Nat.pow_succ_r'. lia.
  Qed.
  Lemma powers_inj m (v : K) n : n = (2 ^ S m)%nat -> fpow v (2 ^ N.of_nat m) = - (1) -> forall i j, (i < n)%nat -> (j < n)%nat ->
    fpow v (N.of_nat i) = fpow v (N.of_nat j) -> i = j.
  Proof.
    intros Hn Hv. assert (V0 : v <> 0).
    { intros E. apply two. assert (Z0 : fpow v (2 ^ N.of_nat m) = 0).
      { rewrite E. rewrite <- (N.succ_pred (2 ^ N.of_nat m)) by (apply N.pow_nonzero; discriminate). rewrite fpow_succ. ring. }
      rewrite Hv in Z0. transitivity (- (- (1)) - - (1) : K); [ring|]. rewrite Z0. ring. }
    assert (W : forall i j, (i <= j)%nat -> (j < n)%nat -> fpow v (N.of_nat i) = fpow v (N.of_nat j) -> i = j).
    { intros i j L Lj E. assert (D : fpow v (N.of_nat (j - i)) = 1).
      { apply (fmul_cancel_l K (fpow v (N.of_nat i))); [apply fpow_neq0; exact V0|]. rewrite <- fpow_add, <- Nat2N.inj_add.
        replace (i + (j - i))%nat with j by lia. rewrite <- E. ring. }
      destruct (two_adic m v (j - i) Hv D) as (q & Q). rewrite <- Hn in Q. destruct q as [|q]; [lia|]. exfalso. clear -Q Lj L. nia. }
    intros i j Li Lj E. destruct (Nat.le_ge_cases i j) as [L|L]; [exact (W i j L Lj E)|symmetry; exact (W j i L Li (eq_sym E))].
  Qed.
  Lemma ones m (phi : Z -> K) : phi 0%Z = 0 -> (forall z, phi (z + 1)%Z = phi z + 1) -> fsum (map (fun _ => 1 : K) (seq 0 m)) = phi (Z.of_nat m).
  Proof.
    intros P0 PS. induction m as [|m IH]; [symmetry; exact P0|]. rewrite seq_S, map_app, fsum_app, IH. cbn [map Nat.add].
    rewrite Nat2Z.inj_succ. unfold Z.succ. rewrite PS, fsum_cons, fsum_nil. ring.
  Qed.
End Two.

Lemma rows_N d : N.of_nat (rows d) = (2 ^ N.of_nat d)%N. Proof. apply N2Nat.id. Qed.
Lemma rows_pow d : rows d = (2 ^ d)%nat.
Proof. apply Nat2N.inj. rewrite rows_N, Nat2N.inj_pow. reflexivity. Qed.
Lemma rows_8 d : (3 <= d)%nat -> (8 <= rows d)%nat.
Proof. intros H. rewrite rows_pow. change 8%nat with (2 ^ 3)%nat. apply Nat.pow_le_mono_r; [discriminate|exact H]. Qed.
Lemma rows_big d : (d <= 28)%nat -> (Z.of_nat (rows d) <= 2 ^ 28)%Z.
Proof. intros H. rewrite <- nat_N_Z, rows_N, N2Z.inj_pow, nat_N_Z. apply Z.pow_le_mono_r; [reflexivity|]. lia. Qed.
Global Opaque rows.

Section Domain.
  Variable d : nat.
  Hypothesis d_ok : (3 <= d <= 28)%nat.
  Notation rows := (rows d).
  Variables omega n_inv : Fr.
  Hypothesis omega_half : fpow omega (2 ^ (N.of_nat d - 1)) = (fopp f1 : Fr).
  Hypothesis n_inv_ok : (n_inv * fr (2 ^ Z.of_nat d) = 1 :> Fr)%fld.
  Lemma rows_half : N.of_nat rows = (2 ^ (N.of_nat d - 1) * 2)%N.
  Proof.
    rewrite rows_N. replace (N.of_nat d) with (N.succ (N.of_nat d - 1)) at 1 by (clear -d_ok; lia). rewrite N.pow_succ_r'. apply N.mul_comm.
  Qed.
  Open Scope fld_scope.
  Lemma omega_rows : fpow omega (N.of_nat rows) = 1.
  Proof. rewrite rows_half. exact (proj1 (root_order Fr omega _ omega_half two_neq)). Qed.
  Lemma omega_rows_inj i j : (i < rows)%nat -> (j < rows)%nat -> fpow omega (N.of_nat i) = fpow omega (N.of_nat j) -> i = j.
  Proof.
    apply (powers_inj Fr two_neq (d - 1) omega rows).
    - rewrite rows_pow. f_equal. clear -d_ok. lia.
    - rewrite Nat2N.inj_sub. exact omega_half.
  Qed.
  Lemma fr_succ z : fr (z + 1) = fr z + 1. Proof. exact (of_Z_add r_mod z 1). Qed.
  Lemma n_inv_rows : n_inv * fsum (map (fun _ => 1 : Fr) (seq 0 rows)) = 1.
  Proof.
    rewrite (ones Fr rows fr eq_refl fr_succ), <- nat_N_Z, rows_N, N2Z.inj_pow, nat_N_Z. exact n_inv_ok.
  Qed.
  Lemma cosets_lt' i j a b : (i < j < 9)%nat -> (fpow delta (N.of_nat i) * fpow omega a <> fpow delta (N.of_nat j) * fpow omega b)%fld.
  Proof.
    intros Hij. pose proof quots as Q. rewrite forallb_forall in Q. specialize (Q j ltac:(apply in_seq; lia)).
    rewrite forallb_forall in Q. specialize (Q i ltac:(apply in_seq; lia)). apply N.eqb_eq in Q.
    apply (coset_disjoint Fr delta omega (N.of_nat rows) (840 * 2 ^ 28) (N.of_nat i) (N.of_nat j) (quot i j * 2 ^ (28 - N.of_nat d)) a b).
    - exact omega_rows. - exact delta_order. - exact delta_neq0.
    - assert (D : (2 ^ 28 = 2 ^ (28 - N.of_nat d) * N.of_nat rows)%N). { rewrite rows_N, <- N.pow_add_r. f_equal. clear -d_ok. lia. }
      rewrite D. rewrite Q at 1. rewrite !N.mul_assoc. f_equal. rewrite <- !N.mul_assoc. f_equal. apply N.mul_comm.
    - lia.
  Qed.
  Lemma labels_inj j j' i i' : (j < 9)%nat -> (j' < 9)%nat -> (i < rows)%nat -> (i' < rows)%nat ->
    fpow delta (N.of_nat j) * fpow omega (N.of_nat i) = fpow delta (N.of_nat j') * fpow omega (N.of_nat i') -> j = j' /\ i = i'.
  Proof.
    intros Lj Lj' Li Li' E. destruct (Nat.lt_trichotomy j j') as [L|[->|L]].
    - exfalso. exact (cosets_lt' j j' _ _ (conj L Lj') E).
    - split; [reflexivity|]. apply (omega_rows_inj i i' Li Li'). exact (fmul_cancel_l Fr _ _ _ (fpow_neq0 Fr delta (N.of_nat j') delta_neq0) E).
    - exfalso. exact (cosets_lt' j' j _ _ (conj L Lj) (eq_sym E)).
  Qed.
End Domain.

(** *** the points of a proof are commitments to its columns *)
Lemma nth_index {A B} (dec : forall a b : A, {a = b} + {a <> b}) (f : A -> B) (l : list A) r d a : In a l -> nth (index_in dec a l) (map f l ++ r) d = f a.
Proof.
  induction l as [|b l IH]; intros H; [destruct H|]. cbn [map app index_in]. destruct (dec a b) as [->|N]; [reflexivity|]. cbn [nth]. apply IH.
  destruct H as [->|H]; [contradiction|exact H].
Qed.
Definition col_known (cl : col) : bool :=
  match cl with Quot => true | Fix_ i => Nat.ltb i 23 | Sig i => Nat.ltb i 9 | _ => if in_dec col_eq_dec cl commitments then true else false end.
Lemma cols_known : forallb col_known (flat_map snd rotation_sets) = true. Proof. reflexivity. Qed.
Lemma g1mul_one : g1mul g1 (f1 : Fr) = g1. Proof. reflexivity. Qed.
Lemma nth_map_seq {B} (f : nat -> B) m i d : (i < m)%nat -> nth i (map f (seq 0 m)) d = f i.
Proof. intros L. rewrite (nth_indep _ d (f 0%nat)) by (rewrite map_length, seq_length; exact L). rewrite map_nth, seq_nth by exact L. reflexivity. Qed.
Lemma nth_right {B} (l r : list B) i d : nth (length l + i) (l ++ r) d = nth i r d.
Proof. rewrite app_nth2 by lia. f_equal. lia. Qed.

Section Points.
  Variables ni d : nat.
  Notation rows := (rows d).
  Variables omega n_inv s : Fr.
  Variables fx sg : nat -> list Fr.
  Variable k : vkey.
  Hypothesis Hk : made_from ni d omega n_inv s fx sg k.
  Variable m : messages Fr.
  Variable h : nat -> list Fr.
  Variables evals w w' : list Fr.
  Variable c : challenges.
  Notation p := (proof_of s m h evals w w').
  Lemma piece_is i : (i < pieces)%nat -> piece p i = commit s (h i).
  Proof.
    intros L. unfold piece, proof_of. cbn [p_commitments].
    replace (length commitments) with (length (map (fun cl => commit s (column Fr (fun _ => []) (fun _ => []) m cl)) commitments)) by apply map_length.
    rewrite nth_right. exact (nth_map_seq (fun i => commit s (h i)) pieces i g0 L).
  Qed.
  Lemma commit_add P Q a : commit s (padd P (pscale Fr a Q)) = gadd (commit s P) (g1mul (commit s Q) a).
  Proof. unfold commit. rewrite peval_padd, peval_pscale, g1mul_add, g1mul_mul. reflexivity. Qed.
  Lemma domain_is : domain k = N.of_nat rows.
  Proof. destruct Hk as (_ & E & _). unfold domain. rewrite E. symmetry. apply rows_N. Qed.
  Lemma quotient_is : quotient_commitment k p c = commit s (hlist Fr rows h (x c)).
  Proof.
    unfold quotient_commitment, hlist, xn. rewrite domain_is.
    assert (G : forall l, (forall i, In i l -> (i < pieces)%nat) -> fold_right (fun i acc => gadd (piece p i) (g1mul acc (fpow (x c) (N.of_nat rows)))) g0 l =
      commit s (fold_right (fun i acc => padd (h i) (pscale Fr (fpow (x c) (N.of_nat rows)) acc)) [] l)).
    { induction l as [|i l IH]; intros Hl; cbn [fold_right].
      - symmetry. exact (g1mul_0 g1).
      - rewrite IH by (intros j Hj; apply Hl; right; exact Hj). rewrite piece_is by (apply Hl; left; reflexivity). symmetry. apply commit_add. }
    apply G. intros i Hi. apply in_seq in Hi. exact (proj2 Hi).
  Qed.
  Lemma commitment_is cl : col_known cl = true -> commitment_of k p c cl = commit s (full_column Fr rows fx sg m h (x c) cl).
  Proof.
    destruct Hk as (_ & _ & _ & _ & _ & _ & _ & Kf & Ks).
    assert (N : forall cl, In cl commitments -> nth (index_in col_eq_dec cl commitments) (p_commitments p) g0 = commit s (column Fr (fun _ => []) (fun _ => []) m cl)).
    { intros cl0 I. unfold proof_of. cbn [p_commitments]. exact (nth_index col_eq_dec _ commitments _ g0 cl0 I). }
    destruct cl; cbn [col_known commitment_of full_column column]; intros H.
    - destruct (in_dec col_eq_dec (Adv i) commitments) as [I|]; [exact (N _ I)|discriminate H].
    - rewrite Kf. apply (nth_map_seq (fun j => commit s (fx j)) 23 i g0). apply Nat.ltb_lt. exact H.
    - rewrite Ks. apply (nth_map_seq (fun j => commit s (sg j)) 9 i g0). apply Nat.ltb_lt. exact H.
    - destruct (in_dec col_eq_dec (PermZ i) commitments) as [I|]; [exact (N _ I)|discriminate H].
    - destruct (in_dec col_eq_dec (LookZ i) commitments) as [I|]; [exact (N _ I)|discriminate H].
    - destruct (in_dec col_eq_dec (LookA i) commitments) as [I|]; [exact (N _ I)|discriminate H].
    - destruct (in_dec col_eq_dec (LookS i) commitments) as [I|]; [exact (N _ I)|discriminate H].
    - exact quotient_is.
    - destruct (in_dec col_eq_dec Rand commitments) as [I|]; [exact (N _ I)|discriminate H].
  Qed.
  Variable insts : list Fr.
  Lemma value_is cl r : value_of k insts p c cl r =
    claim Fr mds_at mds_inv_at delta limb_tag rows omega n_inv insts (claimed p) (theta c) (beta c) (gamma c) (y c) (x c) cl r.
  Proof.
    destruct Hk as (_ & _ & Ko & Kn & _). destruct cl; try reflexivity. cbn [value_of claim]. unfold quotient_value, qv, xn. rewrite domain_is, Ko, Kn. reflexivity.
  Qed.
  Lemma opening_is : opening_point k insts p c =
    g1mul g1 (lin Fr (point Fr omega (x c)) (claim Fr mds_at mds_inv_at delta limb_tag rows omega n_inv insts (claimed p) (theta c) (beta c) (gamma c) (y c) (x c))
      (fun cl => peval (full_column Fr rows fx sg m h (x c) cl) s) (zeta c) (nu c) (mu c) (peval w s) (peval w' s)).
  Proof.
    unfold opening_point.
    rewrite (linearised_ext Fr G1 (fun a P => g1mul P a) (point Fr (k_omega k) (x c)) (point Fr omega (x c)) (fun r => f_equal (fun o => point Fr o (x c) r) (proj1 (proj2 (proj2 Hk))))
      (value_of k insts p c) _ value_is (commitment_of k p c) (fun cl => g1mul g1 (peval (full_column Fr rows fx sg m h (x c) cl) s))).
    - destruct Hk as (_ & _ & _ & _ & Kg & _). rewrite Kg.
      rewrite <- g1mul_one at 1.
      exact (linearised_hom Fr G1 (fun a P => g1mul P a) (fun a => g1mul g1 a) (g1mul_0 g1) (g1mul_add g1) (g1mul_opp g1)
        (fun a b => eq_sym (g1mul_mul g1 a b)) _ _ (fun cl => peval (full_column Fr rows fx sg m h (x c) cl) s) (zeta c) (nu c) (mu c) (peval w s) (peval w' s)).
    - intros st cl Hst Hcl. apply commitment_is. pose proof cols_known as CK. rewrite forallb_forall in CK. apply CK. apply in_flat_map. exists st. split; assumption.
  Qed.
  Variable pairing : list (G1 * G2c) -> bool.
  Hypothesis HP : pairing_ok pairing.
  Lemma verifies_iff : verifies k insts p c pairing <->
    lin Fr (point Fr omega (x c)) (claim Fr mds_at mds_inv_at delta limb_tag rows omega n_inv insts (claimed p) (theta c) (beta c) (gamma c) (y c) (x c))
      (fun cl => peval (full_column Fr rows fx sg m h (x c) cl) s) (zeta c) (nu c) (mu c) (peval w s) (peval w' s) = fmul s (peval w' s).
  Proof.
    unfold verifies. rewrite opening_is. pose proof Hk as (_ & _ & _ & _ & _ & K2 & Ks & _). rewrite K2, Ks.
    refine (iff_trans (kzg_check pairing HP _ _ s) _). unfold proof_of. cbn [p_w']. unfold commit. rewrite <- g1mul_mul. split.
    - intros E. apply g1mul_inj in E; [exact E|exact g1_neq0].
    - intros E. rewrite E. reflexivity.
  Qed.
End Points.

Section Sound.
  Variable d : nat.
  Hypothesis d_ok : (3 <= d <= 28)%nat.
  Notation rows := (rows d).
  Variables omega n_inv : Fr.
  Hypothesis omega_half : fpow omega (2 ^ (N.of_nat d - 1)) = (fopp f1 : Fr).
  Hypothesis n_inv_ok : (n_inv * fr (2 ^ Z.of_nat d) = 1 :> Fr)%fld.
  Variable c : circuit Fr.
  Hypothesis Hc : circuit_ok Fr rows c.
  Variables fx sg : nat -> list Fr.
  Hypothesis Hd : describes Fr rows omega delta c fx sg.
  Variable insts : list Fr.
  Hypothesis Hinsts : (length insts <= rows)%nat.
  Variable adv : nat -> list Fr.
  Hypothesis Hadv : forall i, short Fr rows (adv i).
  Variable pairing : list (G1 * G2c) -> bool.
  Hypothesis HP : pairing_ok pairing.

  Theorem sound_fr : ~ satisfied Fr mds_at mds_inv_at limb_tag rows c insts (fun j i => in_row Fr omega (adv j) i) ->
    all_but_few d adv (fun m h evals w w' ch s => forall k, made_from (length insts) d omega n_inv s fx sg k ->
      generic k ch /\ ~ verifies k insts (proof_of s m h evals w w') ch pairing).
  Proof.
    intros NS.
    generalize (plonk_sound Fr (Fp_finite r_mod r_prime) mds_at mds_inv_at delta limb_tag rows omega n_inv (rows_8 d (proj1 d_ok)) (omega_rows d d_ok omega omega_half)
      (omega_rows_inj d d_ok omega omega_half) (n_inv_rows d n_inv n_inv_ok) (labels_inj d d_ok omega omega_half) c Hc fx sg Hd insts Hinsts adv Hadv NS).
    unfold all_but_few. apply except_impl. intros th R A' S' HA HS. specialize (R A' S' HA HS). revert R. apply except_impl. intros be R.
    revert R. apply except_impl. intros ga R Z L Rn HZ HL HR. specialize (R Z L Rn HZ HL HR). revert R. apply except_impl. intros y0 R h Hh.
    specialize (R h Hh). revert R. apply except_impl. intros X (X0 & Xn & R) evals.
    set (m := Messages Fr adv A' S' Z L Rn) in *.
    specialize (R (claimed (Proof_ [] evals g0 g0))). revert R. apply except_impl. intros ze R. revert R. apply except_impl. intros nu0 R w Hw. specialize (R w Hw).
    revert R. apply except_impl. intros mu0 (Hmu & R) w' Hw'. specialize (R w' Hw'). revert R. apply except_impl. intros s R k Hk.
    set (ch := Challenges th be ga y0 X ze nu0 mu0). split.
    - split; [exact X0|]. split; [|].
      + cbn [x ch]. rewrite (domain_is (length insts) d omega n_inv s fx sg k Hk). exact Xn.
      + intros r. cbn [mu x ch]. rewrite (proj1 (proj2 (proj2 Hk))). exact (Hmu r).
    - intros V. apply R. apply (verifies_iff (length insts) d omega n_inv s fx sg k Hk m h evals w w' ch insts pairing HP) in V. exact V.
  Qed.
End Sound.
