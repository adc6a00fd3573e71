(** The points a column is opened at are distinct; the specification's points are those the verifier computes. *)
From Coq Require Import ZArith NArith List Bool Lia Field.
From Verif.Base Require Import Fld Group.
From Verif.Spec Require Import Plonk.
From Verif.Proofs Require Import VerifierOpen VerifierAlgebra.
Import ListNotations.

Section Points.
  Variable K : Fld.
  Add Field Kf : (flaw K).
  Open Scope fld_scope.
  Variables w v : K.
  Hypothesis wv : w * v = 1.
  Variable d : nat.
  Hypothesis d_two : (2 <= d)%nat.
  Hypothesis half : fpow w (2 ^ (N.of_nat d - 1)) = - (1).
  Hypothesis odd : (1 : K) <> - (1).
  Lemma w_nz : w <> 0.
  Proof. intros ->. apply (f1_neq_0 K). rewrite <- wv. ring. Qed.
  Lemma full : fpow w (2 ^ N.of_nat d) = 1.
  Proof.
    replace (N.of_nat d) with (N.succ (N.of_nat d - 1)) by lia. rewrite N.pow_succ_r', N.mul_comm, fpow_mul, half. cbn. ring.
  Qed.
  Lemma no_210 : fpow w 210 <> 1.
  Proof.
    intros E. apply odd. transitivity (fpow (fpow w 210) (2 ^ (N.of_nat d - 2))); [rewrite E; symmetry; apply fpow_1_l|].
    rewrite <- fpow_mul. replace (210 * 2 ^ (N.of_nat d - 2))%N with (2 ^ (N.of_nat d - 1) * 105)%N.
    2:{ replace (N.of_nat d - 1)%N with (N.succ (N.of_nat d - 2)) by lia. rewrite N.pow_succ_r'. lia. }
    rewrite fpow_mul, half. cbn. ring.
  Qed.
  Lemma no_div n e : (n * e)%N = 210%N -> fpow w n <> 1.
  Proof. intros E H. apply no_210. rewrite <- E, fpow_mul, H. apply fpow_1_l. Qed.
  Lemma v_inv : v = finv w.
  Proof. transitivity (w * v * finv w); [|rewrite wv; ring]. field. exact w_nz. Qed.
  Variable x : K.
  Hypothesis x_nz : x <> 0.
  Notation pr := (pr K w v x).
  Definition ex (r : rot) : N := match r with Last => 0 | Prev => 5 | Cur => 6 | Next => 7 end.
  Lemma pr_ex r : pr r * fpow w 6 = x * fpow w (ex r).
  Proof.
    rewrite v_inv. destruct r; cbn; field; exact w_nz.
  Qed.
  Lemma ex_neq r r' : (ex r < ex r')%N -> fpow w (ex r) <> fpow w (ex r').
  Proof.
    intros L E. replace (ex r') with (ex r + (ex r' - ex r))%N in E by lia. rewrite fpow_add in E.
    assert (E1 : fpow w (ex r' - ex r) = 1).
    { apply (fmul_cancel_l K (fpow w (ex r))); [apply fpow_neq0, w_nz|]. rewrite <- E. ring. }
    destruct r, r'; cbn in L; try discriminate L; cbn [ex] in E1;
      (revert E1; first [exact (no_div 5 42 eq_refl)|exact (no_div 6 35 eq_refl)|exact (no_div 7 30 eq_refl)|exact (no_div 1 210 eq_refl)|exact (no_div 2 105 eq_refl)]).
  Qed.
  Lemma pr_distinct r r' : r <> r' -> pr r - pr r' <> 0.
  Proof.
    intros Hn E. apply fsub_eq0 in E.
    assert (E1 : fpow w (ex r) = fpow w (ex r')).
    { apply (fmul_cancel_l K x); [exact x_nz|]. rewrite <- !pr_ex, E. reflexivity. }
    destruct (N.lt_trichotomy (ex r) (ex r')) as [L|[L|L]].
    - exact (ex_neq _ _ L E1).
    - apply Hn. destruct r, r'; try reflexivity; discriminate L.
    - exact (ex_neq _ _ L (eq_sym E1)).
  Qed.
  Lemma pr_point r : pr r = point K w x r.
  Proof.
    unfold VerifierAlgebra.pr, pts, point, w_back, blinding. rewrite v_inv. pose proof w_nz. destruct r; cbn; field; auto.
  Qed.
End Points.

Section Ext_.
  Variable K : Fld.
  Variable G : Grp.
  Variable smul : K -> G -> G.
  Variables p p' : rot -> K.
  Hypothesis Hp : forall r, p r = p' r.
  Variables e e' : col -> rot -> K.
  Hypothesis He : forall c r, e c r = e' c r.
  Variables c c' : col -> G.
  Hypothesis Hc : forall s cl, In s rotation_sets -> In cl (snd s) -> c cl = c' cl.
  Variables zeta nu mu : K.
  Lemma vanish_ext rs : vanish K p mu rs = vanish K p' mu rs.
  Proof. unfold vanish. f_equal. apply map_ext. intros r. rewrite Hp. reflexivity. Qed.
  Lemma interpolated_ext rs (v v' : rot -> K) : (forall r, v r = v' r) -> interpolated K p mu rs v = interpolated K p' mu rs v'.
  Proof.
    intros Hv. unfold interpolated, basis. f_equal. apply map_ext. intros r. rewrite Hv. f_equal. f_equal. apply map_ext. intros r'.
    rewrite !Hp. reflexivity.
  Qed.
  Lemma values_ext cs r : values K e zeta cs r = values K e' zeta cs r.
  Proof. unfold values. induction cs as [|a cs IH]; cbn; [reflexivity|]. rewrite IH, He. reflexivity. Qed.
  Lemma commitment_ext cs : (forall cl, In cl cs -> c cl = c' cl) -> commitment K G smul c zeta cs = commitment K G smul c' zeta cs.
  Proof.
    unfold commitment. induction cs as [|a cs IH]; intros H; cbn; [reflexivity|].
    rewrite IH, (H a) by (first [now left|intros; apply H; now right]). reflexivity.
  Qed.
  Lemma linearised_ext gen w w' : linearised K G smul p e c gen zeta nu mu w w' = linearised K G smul p' e' c' gen zeta nu mu w w'.
  Proof.
    unfold linearised. rewrite vanish_ext. f_equal. f_equal.
    revert Hc. generalize rotation_sets. intros l Hl. induction l as [|s l IH]; cbn [fold_right]; [reflexivity|].
    rewrite IH by (intros; eapply Hl; [right; eassumption|assumption]).
    unfold scale. rewrite !vanish_ext, (interpolated_ext _ _ (values K e' zeta (snd s))) by (intros; apply values_ext).
    rewrite (commitment_ext (snd s)) by (intros; apply (Hl s); [now left|assumption]). reflexivity.
  Qed.
End Ext_.

(** the combined constraints depend on the values of the columns only *)
Section ExtC.
  Variable K : Fld.
  Variables (mds mds_inv : nat -> nat -> K) (delta tag : K).
  Variables e e' : col -> rot -> K.
  Hypothesis He : forall c r, e c r = e' c r.
  Variables inst l0 llast lblind theta beta gamma x : K.
  Lemma a_ext i : a K e i = a K e' i. Proof. apply He. Qed.
  Lemma f_ext i : f K e i = f K e' i. Proof. apply He. Qed.
  Lemma full_ext i : full_round K mds e i = full_round K mds e' i.
  Proof. unfold full_round. rewrite f_ext, He. do 3 f_equal. apply map_ext. intros j. rewrite a_ext, f_ext. reflexivity. Qed.
  Lemma middle_ext i : middle K mds e i = middle K mds e' i.
  Proof. unfold middle. rewrite !a_ext, !f_ext. reflexivity. Qed.
  Lemma unmixed_ext i : unmixed K mds_inv e i = unmixed K mds_inv e' i.
  Proof. unfold unmixed. f_equal. apply map_ext. intros j. rewrite He. reflexivity. Qed.
  Lemma permuted_ext j : permuted K e inst j = permuted K e' inst j.
  Proof. unfold permuted. do 8 (destruct j as [|j]; [first [apply a_ext|apply f_ext|reflexivity]|]). apply f_ext. Qed.
  Lemma step_ext k js : permutation_step K delta e inst llast lblind beta gamma x k js = permutation_step K delta e' inst llast lblind beta gamma x k js.
  Proof.
    unfold permutation_step. rewrite !He. f_equal. f_equal; f_equal; f_equal; apply map_ext; intros j; rewrite permuted_ext, ?He; reflexivity.
  Qed.
  Lemma look_ext i : look_input K tag e theta i = look_input K tag e' theta i.
  Proof. unfold look_input. rewrite !a_ext, !f_ext. do 5 (destruct i as [|i]; [reflexivity|]). reflexivity. Qed.
  Lemma lookup_ext i : lookup K tag e l0 llast lblind theta beta gamma i = lookup K tag e' l0 llast lblind theta beta gamma i.
  Proof. unfold lookup, look_table. rewrite look_ext, !He, !f_ext. reflexivity. Qed.
  Lemma constraints_ext : constraints K mds mds_inv delta tag e inst l0 llast lblind theta beta gamma x =
    constraints K mds mds_inv delta tag e' inst l0 llast lblind theta beta gamma x.
  Proof.
    unfold constraints. f_equal; [unfold main_gate; rewrite !a_ext, !f_ext, He; reflexivity|].
    f_equal; [apply map_ext; intros; apply full_ext|].
    f_equal; [unfold partial_rounds; rewrite !middle_ext, !unmixed_ext, !a_ext, !f_ext; reflexivity|].
    f_equal; [unfold pad_and_add; rewrite !He, !a_ext, !f_ext; reflexivity|].
    f_equal; [unfold permutation; rewrite !step_ext, !He; reflexivity|].
    rewrite !flat_map_concat_map. f_equal. apply map_ext. intros. apply lookup_ext.
  Qed.
  Lemma combined_ext y : combined K mds mds_inv delta tag e inst l0 llast lblind theta beta gamma x y =
    combined K mds mds_inv delta tag e' inst l0 llast lblind theta beta gamma x y.
  Proof. unfold combined. rewrite constraints_ext. reflexivity. Qed.
End ExtC.
