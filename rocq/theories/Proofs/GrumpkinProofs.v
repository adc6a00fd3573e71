(** The Grumpkin chip computes the group law: gadget by gadget, then scalar multiplication. *)
From Coq Require Import ZArith List Lia Bool Setoid Ring Field.
From Verif.Base Require Import Fld EC Group Order.
From Verif.Model Require Import Circ MainGate GrumpkinChip.
From Verif.Proofs Require Import CircProofs.
Import ListNotations.

Section Gadgets.
  Variable K : Fld.
  Variable b : K.
  Variable T32 : K.
  Open Scope fld_scope.
  Add Field KfG : (flaw K).
  Hypothesis T32_ok : T32 * (1 + 1) = 1 + (1 + 1).

  Lemma inv_or_0_mul (x : K) : x <> 0 -> inv_or_0 K x * x = 1.
  Proof. intros H. unfold inv_or_0. rewrite (proj2 (feqb_neq K x 0) H). apply finv_l; auto. Qed.
  Lemma inv_neq0 (x : K) : x <> 0 -> inv_or_0 K x = finv x.
  Proof. intros H. unfold inv_or_0. rewrite (proj2 (feqb_neq K x 0) H). reflexivity. Qed.

  Lemma sem_mul_sub (a c d x : K) : sem (mul_sub K a c d) x <-> x = a * c - d.
  Proof.
    cbn. unfold row; cbn. split.
    - intros (y & (_ & _ & H & ->)). transitivity (a * c - d - 0); [rewrite <- H; ring|ring].
    - intros ->. exists (a * c - d). split; auto. exists tt. split; [ring|auto].
  Qed.
  Lemma honest_mul_sub (a c d : K) : honest (mul_sub K a c d) (a * c - d).
  Proof. cbn. unfold row; cbn. split; auto. split; [ring|auto]. Qed.
  Lemma sem_mul_sub_sub (a c d e x : K) : sem (mul_sub_sub K a c d e) x <-> x = a * c - d - e.
  Proof.
    cbn. unfold row; cbn. split.
    - intros (y & (_ & _ & H & ->)). transitivity (a * c - d - e - 0); [rewrite <- H; ring|ring].
    - intros ->. exists (a * c - d - e). split; auto. exists tt. split; [ring|auto].
  Qed.
  Lemma honest_mul_sub_sub (a c d e : K) : honest (mul_sub_sub K a c d e) (a * c - d - e).
  Proof. cbn. unfold row; cbn. split; auto. split; [ring|auto]. Qed.
  Lemma sem_sub_invert (a c x : K) : sem (sub_invert_unsafe K a c) x <-> (a - c) * x = 1.
  Proof.
    cbn. unfold row; cbn. split.
    - intros (y & _ & z & _ & _ & H & _ & E & ->). subst z. transitivity ((a - c) * y - 1 + 1); [ring|].
      transitivity (0 + 1 : K); [|ring]. f_equal. rewrite <- H. ring.
    - intros H. exists x. split; auto. exists x. split; auto. exists tt. split; [|exists tt; auto].
      transitivity ((a - c) * x - 1); [ring|rewrite H; ring].
  Qed.
  Lemma honest_sub_invert (a c : K) : a <> c -> honest (sub_invert_unsafe K a c) (finv (a - c)).
  Proof.
    intros N. assert (D : a - c <> 0) by (apply fsub_neq0; auto).
    cbn. unfold row; cbn. rewrite (inv_neq0 _ D). repeat split; auto.
    transitivity (finv (a - c) * (a - c) - 1); [ring|rewrite finv_l by auto; ring].
  Qed.
  Lemma sem_sub_mul (a c d x : K) : sem (sub_mul K a c d) x <-> x = (a - c) * d.
  Proof.
    cbn. unfold row; cbn. split.
    - intros (y & (_ & _ & H & ->)). transitivity ((a - c) * d - 0); [rewrite <- H; ring|ring].
    - intros ->. exists ((a - c) * d). split; auto. exists tt. split; [ring|auto].
  Qed.
  Lemma honest_sub_mul (a c d : K) : honest (sub_mul K a c d) ((a - c) * d).
  Proof. cbn. unfold row; cbn. split; auto. split; [ring|auto]. Qed.
  Lemma sem_scale_mul (s a c x : K) : sem (scale_mul K s a c) x <-> x = s * a * c.
  Proof.
    cbn. unfold row; cbn. split.
    - intros (y & (_ & _ & H & ->)). transitivity (s * a * c - 0); [rewrite <- H; ring|ring].
    - intros ->. exists (s * a * c). split; auto. exists tt. split; [ring|auto].
  Qed.
  Lemma honest_scale_mul (s a c : K) : honest (scale_mul K s a c) (s * a * c).
  Proof. cbn. unfold row; cbn. split; auto. split; [ring|auto]. Qed.
  Lemma sem_lambda_double (x y l : K) : sem (lambda_double_unsafe K T32 (x, y)) l <-> l * y = T32 * (x * x).
  Proof.
    cbn. unfold row; cbn. split.
    - intros (z & (_ & _ & H & ->)). transitivity (0 + T32 * (x * x)); [rewrite <- H; ring|ring].
    - intros H. exists l. split; auto. exists tt. split; auto. transitivity (l * y - T32 * (x * x)); [ring|rewrite H; ring].
  Qed.
  Lemma honest_lambda_double (x y : K) : y <> 0 -> honest (lambda_double_unsafe K T32 (x, y)) (finv y * x * x * T32).
  Proof.
    intros N. cbn. unfold row; cbn. rewrite (inv_neq0 _ N). repeat split; auto.
    transitivity ((finv y * y - 1) * (T32 * (x * x))); [ring|rewrite finv_l by auto; ring].
  Qed.

  (** *** against the curve *)
  Hypothesis two_neq0 : two K <> 0.
  Hypothesis three_neq0 : three K <> 0.
  Hypothesis b_neq0 : b <> 0.
  Let E : Grp := ECgrp K b two_neq0 three_neq0 b_neq0.

  (** the cells hold the affine coordinates of the point *)
  Definition is_pt (p : K * K) (P : E) : Prop := EC.pt K b P = Aff K (fst p) (snd p).
  Lemma is_pt_neq0 p (P : E) : is_pt p P -> P <> g0.
  Proof. unfold is_pt. intros H E0. subst P. cbn in H. discriminate. Qed.
  Lemma is_pt_ex (P : E) : P <> g0 -> exists p, is_pt p P.
  Proof.
    intros N. destruct (aff_cases K b P) as [H|(x & y & H)]; [contradiction|]. exists (x, y). exact H.
  Qed.
  Lemma is_pt_fun p (P Q : E) : is_pt p P -> is_pt p Q -> P = Q.
  Proof. unfold is_pt. intros H1 H2. apply EC_ext. congruence. Qed.
  Lemma is_pt_inj p p' (P : E) : is_pt p P -> is_pt p' P -> p = p'.
  Proof. unfold is_pt. destruct p, p'; cbn. intros H1 H2. rewrite H1 in H2. injection H2; intros; subst; auto. Qed.
  Lemma is_pt_on p (P : E) : is_pt p P -> snd p * snd p = fst p * fst p * fst p + b.
  Proof. unfold is_pt. intros H. apply on_aff. rewrite <- H. apply pt_ok. Qed.
  Lemma on_is_pt p : snd p * snd p = fst p * fst p * fst p + b -> exists P : E, is_pt p P.
  Proof. intros H. exists (mkEC K b (Aff K (fst p) (snd p)) (proj2 (on_aff K b _ _) H)). reflexivity. Qed.

  Lemma x_neq p q (P Q : E) : is_pt p P -> is_pt q Q -> (fst p <> fst q <-> P <> Q /\ P <> (⊖ Q)%grp).
  Proof.
    unfold is_pt. intros HP HQ. split.
    - intros N. split; intros E0; subst P; apply N.
      + rewrite HP in HQ. injection HQ; auto.
      + cbn in HP. rewrite HQ in HP. cbn in HP. injection HP; auto.
    - intros [N1 N2]. eapply neq_x; eauto.
  Qed.

  Lemma pt_chord p q (P Q : E) l : is_pt p P -> is_pt q Q -> fst p <> fst q ->
    l * (fst p - fst q) = snd p - snd q ->
    is_pt (l * l - fst p - fst q, l * (fst p - (l * l - fst p - fst q)) - snd p) (P ⊕ Q)%grp.
  Proof.
    unfold is_pt. intros HP HQ N Hl. cbn [fst snd]. cbn. rewrite HP, HQ, radd_chord by auto.
    assert (El : (snd q - snd p) / (fst q - fst p) = l).
    { assert (D : fst q - fst p <> 0) by (apply fsub_neq0; auto).
      apply (fmul_cancel_l K (fst q - fst p)); auto.
      transitivity (snd q - snd p); [field; auto|]. transitivity (- (snd p - snd q)); [ring|]. rewrite <- Hl. ring. }
    rewrite El. reflexivity.
  Qed.

  Theorem sem_g_add p q (P Q : E) c : is_pt p P -> is_pt q Q ->
    sem (g_add K p q) c -> fst p <> fst q /\ is_pt c (P ⊕ Q)%grp.
  Proof.
    destruct p as [xa ya], q as [xb yb]. intros HP HQ H. unfold g_add in H.
    apply sem_bind in H as (inv & Hi & H). apply sem_sub_invert in Hi.
    apply sem_bind in H as (l & Hl & H). apply sem_sub_mul in Hl.
    apply sem_bind in H as (x & Hx & H). apply sem_mul_sub_sub in Hx.
    apply sem_bind in H as (s & Hs & H). apply sem_sub in Hs.
    apply sem_bind in H as (y & Hy & H). apply sem_mul_sub in Hy. cbn in H. subst c.
    assert (N : xa <> xb).
    { intros ->. apply (f1_neq_0 K). rewrite <- Hi. ring. }
    split; [exact N|]. subst y s x.
    apply (pt_chord (xa, ya) (xb, yb) P Q l); auto. cbn [fst snd]. subst l.
    transitivity ((ya - yb) * ((xa - xb) * inv)); [ring|rewrite Hi; ring].
  Qed.
  Theorem honest_g_add p q (P Q : E) : is_pt p P -> is_pt q Q -> P <> Q -> P <> (⊖ Q)%grp ->
    exists c, honest (g_add K p q) c /\ is_pt c (P ⊕ Q)%grp.
  Proof.
    intros HP HQ N1 N2. assert (N : fst p <> fst q) by (apply (x_neq p q P Q); auto).
    destruct p as [xa ya], q as [xb yb]. cbn [fst] in N.
    assert (Ex : exists c, honest (g_add K (xa, ya) (xb, yb)) c).
    { unfold g_add. eexists.
      eapply hbind; [apply honest_sub_invert; auto|]. eapply hbind; [apply honest_sub_mul|].
      eapply hbind; [apply honest_mul_sub_sub|]. eapply hbind; [apply honest_sub; reflexivity|].
      eapply hbind; [apply honest_mul_sub|]. reflexivity. }
    destruct Ex as [c Hc]. exists c. split; auto. apply honest_sem in Hc. eapply sem_g_add in Hc; eauto. tauto.
  Qed.

  (** a point with y = 0 has order two *)
  Hypothesis no_torsion : forall P : E, (P ⊕ P)%grp = g0 -> P = g0.
  Lemma y_neq0 p (P : E) : is_pt p P -> snd p <> 0.
  Proof.
    intros HP E0. apply (is_pt_neq0 p P); auto. apply no_torsion.
    replace P with (⊖ P)%grp at 2; [apply gopp_r|]. apply EC_ext. cbn. unfold is_pt in HP. rewrite HP. cbn. f_equal. rewrite E0. ring.
  Qed.
  Lemma pt_tangent p (P : E) l : is_pt p P -> l * snd p = T32 * (fst p * fst p) ->
    is_pt (l * l - fst p - fst p, l * (fst p - (l * l - fst p - fst p)) - snd p) (P ⊕ P)%grp.
  Proof.
    intros HP Hl. pose proof (y_neq0 p P HP) as Ny. unfold is_pt in *. cbn [fst snd]. cbn. rewrite HP, radd_tangent by auto.
    assert (El : three K * (fst p * fst p) / (two K * snd p) = l).
    { assert (D : two K * snd p <> 0) by (apply fmul_neq0; auto).
      apply (fmul_cancel_l K (two K * snd p)); auto.
      transitivity (three K * (fst p * fst p)); [field; split; auto|].
      transitivity ((T32 * (1 + 1)) * (fst p * fst p)); [rewrite T32_ok; reflexivity|].
      transitivity ((1 + 1) * (T32 * (fst p * fst p))); [ring|]. rewrite <- Hl. unfold two. ring. }
    rewrite El. reflexivity.
  Qed.
  Theorem sem_g_double_incomplete p (P : E) c : is_pt p P -> sem (g_double_incomplete K T32 p) c -> is_pt c (P ⊕ P)%grp.
  Proof.
    destruct p as [x y]. intros HP H. unfold g_double_incomplete in H.
    apply sem_bind in H as (l & Hl & H). apply sem_lambda_double in Hl.
    apply sem_bind in H as (x' & Hx & H). apply sem_mul_sub_sub in Hx.
    apply sem_bind in H as (s & Hs & H). apply sem_sub in Hs.
    apply sem_bind in H as (y' & Hy & H). apply sem_mul_sub in Hy. cbn in H. subst c.
    subst y' s x'. apply (pt_tangent (x, y) P l); auto.
  Qed.
  Theorem honest_g_double_incomplete p (P : E) : is_pt p P -> exists c, honest (g_double_incomplete K T32 p) c /\ is_pt c (P ⊕ P)%grp.
  Proof.
    intros HP. pose proof (y_neq0 p P HP) as Ny. destruct p as [x y]. cbn [snd] in Ny.
    assert (Ex : exists c, honest (g_double_incomplete K T32 (x, y)) c).
    { unfold g_double_incomplete. eexists.
      eapply hbind; [apply honest_lambda_double; auto|]. eapply hbind; [apply honest_mul_sub_sub|].
      eapply hbind; [apply honest_sub; reflexivity|]. eapply hbind; [apply honest_mul_sub|]. reflexivity. }
    destruct Ex as [c Hc]. exists c. split; auto. apply honest_sem in Hc. eapply sem_g_double_incomplete; eauto.
  Qed.
  Lemma sem_invert (a x : K) : sem (invert_unsafe a) x <-> a * x = 1.
  Proof. unfold invert_unsafe. rewrite sem_cell1. split; [apply fsub_eq0|intros ->; ring]. Qed.
  Lemma honest_invert (a : K) : a <> 0 -> honest (invert_unsafe a) (finv a).
  Proof.
    intros N. unfold invert_unsafe. rewrite (proj2 (feqb_neq K a 0) N). apply honest_cell1. split; auto.
    transitivity (finv a * a - 1); [ring|rewrite finv_l by auto; ring].
  Qed.
  Theorem sem_g_double p (P : E) c : is_pt p P -> sem (g_double K T32 p) c -> is_pt c (P ⊕ P)%grp.
  Proof.
    destruct p as [x y]. intros HP H. unfold g_double in H.
    apply sem_bind in H as (n & Hn & H). apply sem_scale_mul in Hn.
    apply sem_bind in H as (inv & Hi & H). apply sem_invert in Hi.
    apply sem_bind in H as (l & Hl & H). apply sem_mul in Hl.
    apply sem_bind in H as (x' & Hx & H). apply sem_mul_sub_sub in Hx.
    apply sem_bind in H as (s & Hs & H). apply sem_sub in Hs.
    apply sem_bind in H as (y' & Hy & H). apply sem_mul_sub in Hy. cbn in H. subst c.
    subst y' s x'. apply (pt_tangent (x, y) P l); auto. cbn [fst snd]. subst l n.
    transitivity (T32 * (x * x) * (y * inv)); [ring|rewrite Hi; ring].
  Qed.
  Theorem honest_g_double p (P : E) : is_pt p P -> exists c, honest (g_double K T32 p) c /\ is_pt c (P ⊕ P)%grp.
  Proof.
    intros HP. pose proof (y_neq0 p P HP) as Ny. destruct p as [x y]. cbn [snd] in Ny.
    assert (Ex : exists c, honest (g_double K T32 (x, y)) c).
    { unfold g_double. eexists.
      eapply hbind; [apply honest_scale_mul|]. eapply hbind; [apply honest_invert; auto|]. eapply hbind; [apply honest_mul; reflexivity|].
      eapply hbind; [apply honest_mul_sub_sub|].
      eapply hbind; [apply honest_sub; reflexivity|]. eapply hbind; [apply honest_mul_sub|]. reflexivity. }
    destruct Ex as [c Hc]. exists c. split; auto. apply honest_sem in Hc. eapply sem_g_double; eauto.
  Qed.
  (** [add_incomplete]: for distinct x the sum; for equal points no constraint on the slope *)
  Theorem sem_g_add_incomplete p q (P Q : E) c : is_pt p P -> is_pt q Q ->
    sem (g_add_incomplete K p q) c -> fst p <> fst q -> is_pt c (P ⊕ Q)%grp.
  Proof.
    destruct p as [xa ya], q as [xb yb]. intros HP HQ H N. cbn [fst] in N. unfold g_add_incomplete in H.
    apply sem_bind in H as (l0 & H0 & H). unfold apply in H0.
    apply sem_bind in H0 as (l1 & H0 & H1). apply sem_bind in H1 as (u1 & H1 & H2). apply constrain_inv in H1.
    cbn in H2. subst l0. cbn in H0. destruct H0 as (v0 & _ & v1 & _ & x & _ & ->).
    apply sem_bind in H as (u2 & H2 & H). apply constrain_inv in H2. cbn in H2. subst v1. cbn [nth] in *.
    apply sem_bind in H as (t & Ht & H). apply sem_mul_sub in Ht.
    apply sem_bind in H as (l3 & H3 & H). unfold apply in H3.
    apply sem_bind in H3 as (l4 & H3 & H4). cbn in H3. subst l4. apply sem_bind in H4 as (u4 & H4 & _). apply constrain_inv in H4.
    apply sem_bind in H as (l5 & H5 & H). unfold apply in H5.
    apply sem_bind in H5 as (l6 & H5 & H6). cbn in H5. destruct H5 as (y & _ & ->). apply sem_bind in H6 as (u6 & H6 & H7). apply constrain_inv in H6.
    cbn in H7. subst l5. cbn in H. subst c. unfold row in *. cbn in H1, H4, H6.
    assert (Ex : x = v0 * v0 - xa - xb). { transitivity (v0 * v0 - xa - xb - 0); [rewrite <- H1; ring|ring]. }
    assert (Et : v0 * xb - yb = t). { transitivity (0 + t); [rewrite <- H4; ring|ring]. }
    assert (Ey : y = t - v0 * x). { transitivity (0 + (t - v0 * x)); [rewrite <- H6; ring|ring]. }
    subst t. subst y x.
    replace (v0 * xa - ya - v0 * (v0 * v0 - xa - xb)) with (v0 * (xa - (v0 * v0 - xa - xb)) - ya) by ring.
    apply (pt_chord (xa, ya) (xb, yb) P Q v0); auto. cbn [fst snd].
    transitivity (v0 * xa - v0 * xb); [ring|]. transitivity ((v0 * xa - ya) + ya - (v0 * xb - yb + yb)); [ring|].
    rewrite Et. ring.
  Qed.

  (** *** negation, selection, on-curve check *)
  Lemma pt_neg p (P : E) : is_pt p P -> is_pt (fst p, - snd p) (⊖ P)%grp.
  Proof. unfold is_pt. intros H. cbn. rewrite H. reflexivity. Qed.
  Lemma sem_g_neg p (P : E) c : is_pt p P -> sem (g_neg K p) c -> is_pt c (⊖ P)%grp.
  Proof.
    intros HP H. unfold g_neg in H. apply sem_bind in H as (y & Hy & H). apply sem_neg_with_constant in Hy. cbn in H. subst c y.
    replace (0 - snd p) with (- snd p) by ring. apply pt_neg; auto.
  Qed.
  Lemma honest_g_neg p (P : E) : is_pt p P -> exists c, honest (g_neg K p) c /\ is_pt c (⊖ P)%grp.
  Proof.
    intros HP. assert (Ex : exists c, honest (g_neg K p) c).
    { unfold g_neg. eexists. eapply hbind; [apply honest_neg_with_constant; reflexivity|]. reflexivity. }
    destruct Ex as [c Hc]. exists c. split; auto. eapply sem_g_neg; eauto. apply honest_sem; auto.
  Qed.
  Lemma sem_g_select (c : bool) p q x : sem (g_select K (bit K c) p q) x <-> x = if c then p else q.
  Proof.
    unfold g_select. rewrite sem_bind. split.
    - intros (a & Ha & H). apply sem_select in Ha. apply sem_bind in H as (d & Hd & H). apply sem_select in Hd. cbn in H. subst.
      destruct c; destruct p, q; reflexivity.
    - intros ->. eexists. split; [apply sem_select; reflexivity|]. apply sem_bind. eexists. split; [apply sem_select; reflexivity|].
      destruct c; destruct p, q; reflexivity.
  Qed.
  Lemma honest_g_select (c : bool) p q : honest (g_select K (bit K c) p q) (if c then p else q).
  Proof.
    unfold g_select. eapply hbind; [apply honest_select; reflexivity|]. eapply hbind; [apply honest_select; reflexivity|].
    destruct c; destruct p, q; reflexivity.
  Qed.
  Lemma sem_on_curve p u : sem (assert_is_on_curve K b p) u <-> exists P : E, is_pt p P.
  Proof.
    destruct p as [x y]. unfold assert_is_on_curve. split.
    - intros H. apply sem_bind in H as (y2 & Hy & H). apply sem_mul in Hy. apply sem_bind in H as (x2 & Hx & H). apply sem_mul in Hx.
      apply sem_bind in H as (x3 & Hx3 & H). apply sem_mul in Hx3. apply sem_bind in H as (x3b & Hb & H). apply sem_add_constant in Hb.
      apply constrain_inv in H. subst. apply on_is_pt. auto.
    - intros (P & HP). apply is_pt_on in HP. cbn [fst snd] in HP.
      apply sem_bind. eexists. split; [apply sem_mul; reflexivity|]. apply sem_bind. eexists. split; [apply sem_mul; reflexivity|].
      apply sem_bind. eexists. split; [apply sem_mul; reflexivity|]. apply sem_bind. eexists. split; [apply sem_add_constant; reflexivity|].
      apply sem_constrain. auto.
  Qed.
  Lemma honest_on_curve p (P : E) : is_pt p P -> honest (assert_is_on_curve K b p) tt.
  Proof.
    destruct p as [x y]. unfold assert_is_on_curve. intros HP. apply is_pt_on in HP. cbn [fst snd] in HP.
    eapply hbind; [apply honest_mul; reflexivity|]. eapply hbind; [apply honest_mul; reflexivity|].
    eapply hbind; [apply honest_mul; reflexivity|]. eapply hbind; [apply honest_add_constant; reflexivity|].
    apply honest_constrain. auto.
  Qed.
  Lemma sem_assign_point h c : sem (assign_point K b h) c -> exists P : E, is_pt c P.
  Proof.
    unfold assign_point. intros H. apply sem_bind in H as (x & _ & H). apply sem_bind in H as (y & _ & H).
    apply sem_bind in H as (u & Hu & H). apply sem_on_curve in Hu. cbn in H. subst c. auto.
  Qed.
  Lemma honest_assign_point p (P : E) : is_pt p P -> honest (assign_point K b p) p.
  Proof.
    intros HP. unfold assign_point. eapply hbind; [apply honest_assign_value|]. eapply hbind; [apply honest_assign_value|].
    eapply hbind; [|cbn; destruct p; reflexivity]. apply (honest_on_curve _ P). destruct p; exact HP.
  Qed.

  (** *** double-and-add *)
  (** value of a bit string, least significant bit first *)
  Fixpoint bval (bs : list bool) : Z := match bs with [] => 0 | c :: r => Z.b2z c + 2 * bval r end.
  Lemma bval_app bs c : bval (bs ++ [c]) = (bval bs + 2 ^ Z.of_nat (length bs) * Z.b2z c)%Z.
  Proof.
    induction bs as [|d bs IH]; [cbn -[Z.mul Z.b2z Z.add]; lia|].
    cbn [app bval length]. rewrite IH, Nat2Z.inj_succ, Z.pow_succ_r by lia. lia.
  Qed.
  Definition step_inv (A P : E) (done : list K) (st : apoint K * apoint K) : Prop :=
    exists bs, done = map (bit K) bs /\ is_pt (fst st) (A ⊕ zmul (bval bs) P)%grp /\
               is_pt (snd st) (zmul (2 ^ Z.of_nat (length bs)) P).
  Lemma dbl_pow (P : E) n : (zmul (2 ^ Z.of_nat n) P ⊕ zmul (2 ^ Z.of_nat n) P)%grp = zmul (2 ^ Z.of_nat (S n)) P.
  Proof. rewrite <- zmul_add. f_equal. rewrite Nat2Z.inj_succ, Z.pow_succ_r by lia. lia. Qed.
  Lemma add_bit (A P : E) bs c : (A ⊕ zmul (bval (bs ++ [c])) P)%grp =
    (if c then (A ⊕ zmul (bval bs) P) ⊕ zmul (2 ^ Z.of_nat (length bs)) P else A ⊕ zmul (bval bs) P)%grp.
  Proof.
    rewrite bval_app. destruct c; cbn [Z.b2z].
    - rewrite Z.mul_1_r, zmul_add, gassoc. reflexivity.
    - rewrite Z.mul_0_r, Z.add_0_r. reflexivity.
  Qed.
  Lemma sem_mul_step (A P : E) bs c st st' : step_inv A P (map (bit K) bs) st -> sem (mul_step K T32 st (bit K c)) st' ->
    step_inv A P (map (bit K) (bs ++ [c])) st'.
  Proof.
    intros (bs0 & Eb & Hr & Hd) H. assert (bs0 = bs).
    { clear -Eb. revert bs0 Eb. induction bs as [|c bs IH]; intros [|d bs0] Eb; cbn in Eb; try discriminate; auto.
      assert (Ec : bit K c = bit K d) by congruence. assert (Er : map (bit K) bs = map (bit K) bs0) by congruence. f_equal; auto.
      destruct c, d; auto; cbn in Ec; exfalso; apply (f1_neq_0 K); auto. }
    subst bs0. destruct st as [res dbl]. unfold mul_step in H. cbn [fst snd] in *.
    apply sem_bind in H as (t & Ht & H). eapply sem_g_add in Ht as [_ Ht]; eauto.
    apply sem_bind in H as (r' & Hr' & H). apply sem_g_select in Hr'.
    apply sem_bind in H as (d' & Hd' & H). eapply sem_g_double_incomplete in Hd'; eauto. cbn in H. subst st' r'.
    exists (bs ++ [c]). split; auto. cbn [fst snd]. split.
    - rewrite add_bit. destruct c; auto.
    - rewrite dbl_pow in Hd'. rewrite app_length, Nat.add_1_r. auto.
  Qed.
  Lemma sem_mul_loop (A P : E) bs2 : forall bs st st', step_inv A P (map (bit K) bs) st ->
    sem (cfold (mul_step K T32) (map (bit K) bs2) st) st' -> step_inv A P (map (bit K) (bs ++ bs2)) st'.
  Proof.
    induction bs2 as [|c bs2 IH]; cbn [map cfold]; intros bs st st' Hi H.
    - cbn in H. subst. rewrite app_nil_r. auto.
    - apply sem_bind in H as (st1 & H1 & H). replace (bs ++ c :: bs2) with ((bs ++ [c]) ++ bs2) by (rewrite <- app_assoc; reflexivity).
      eapply IH; eauto. eapply sem_mul_step; eauto.
  Qed.
  Lemma step_inv0 (A P : E) aux point : is_pt aux A -> is_pt point P -> step_inv A P (map (bit K) []) (aux, point).
  Proof.
    intros HA HP. exists []. split; auto. cbn [fst snd length bval]. split.
    - rewrite zmul_0, g0_r. auto.
    - change (2 ^ Z.of_nat 0)%Z with 1%Z. rewrite zmul_1. auto.
  Qed.
  Lemma step_inv_bs (A P : E) bs st : step_inv A P (map (bit K) bs) st ->
    is_pt (fst st) (A ⊕ zmul (bval bs) P)%grp /\ is_pt (snd st) (zmul (2 ^ Z.of_nat (length bs)) P).
  Proof.
    intros (bs0 & Eb & H). assert (bs0 = bs); [|subst; auto].
    clear -Eb. revert bs0 Eb. induction bs as [|c bs IH]; intros [|d bs0] Eb; cbn in Eb; try discriminate; auto.
    assert (Ec : bit K c = bit K d) by congruence. assert (Er : map (bit K) bs = map (bit K) bs0) by congruence. f_equal; auto.
    destruct c, d; auto; cbn in Ec; exfalso; apply (f1_neq_0 K); auto.
  Qed.

  (** whatever the prover assigns, the output is the bit string times the point *)
  Theorem sem_mul_bits (A P : E) aux auxn point bs out : is_pt aux A -> is_pt auxn (⊖ A)%grp -> is_pt point P ->
    sem (g_mul_bits K T32 (Some (aux, auxn)) point (map (bit K) bs)) out ->
    is_pt out (zmul (bval bs) P).
  Proof.
    intros HA HN HP H. cbn [g_mul_bits] in H. apply sem_bind in H as (st & Hs & H).
    eapply (sem_mul_loop A P bs [] (aux, point)) in Hs; [|apply step_inv0; auto]. cbn [app] in Hs.
    apply step_inv_bs in Hs as [Hr _]. eapply sem_g_add in H as [_ H]; eauto.
    replace (zmul (bval bs) P) with ((A ⊕ zmul (bval bs) P) ⊕ ⊖ A)%grp; auto.
    rewrite (gcomm E A), gassoc, gopp_r, g0_r. reflexivity.
  Qed.

  (** the exceptional inputs of the algorithm *)
  Definition regular (A P : E) (bs : list bool) : Prop :=
    (forall i, (i < length bs)%nat ->
       (A ⊕ zmul (bval (firstn i bs)) P)%grp <> zmul (2 ^ Z.of_nat i) P /\
       (A ⊕ zmul (bval (firstn i bs)) P)%grp <> (⊖ zmul (2 ^ Z.of_nat i) P)%grp) /\
    zmul (bval bs) P <> g0 /\ zmul (bval bs) P <> (⊖ (A ⊕ A))%grp.

  Lemma pow_neq0 (P : E) n : P <> g0 -> zmul (2 ^ Z.of_nat n) P <> g0.
  Proof.
    intros NP. induction n as [|n IH]; [change (2 ^ Z.of_nat 0)%Z with 1%Z; rewrite zmul_1; auto|].
    rewrite <- dbl_pow. intros H. apply no_torsion in H. auto.
  Qed.
  Lemma honest_loop (A P : E) bs2 : forall bs st, step_inv A P (map (bit K) bs) st ->
    (forall i, (length bs <= i < length (bs ++ bs2))%nat ->
       (A ⊕ zmul (bval (firstn i (bs ++ bs2))) P)%grp <> zmul (2 ^ Z.of_nat i) P /\
       (A ⊕ zmul (bval (firstn i (bs ++ bs2))) P)%grp <> (⊖ zmul (2 ^ Z.of_nat i) P)%grp) ->
    exists st', honest (cfold (mul_step K T32) (map (bit K) bs2) st) st' /\ step_inv A P (map (bit K) (bs ++ bs2)) st'.
  Proof.
    induction bs2 as [|c bs2 IH]; cbn [map cfold]; intros bs st Hi HR.
    - exists st. split; [reflexivity|]. rewrite app_nil_r. auto.
    - destruct (step_inv_bs _ _ _ _ Hi) as [Hr Hd].
      assert (R := HR (length bs)). rewrite firstn_app, firstn_all, Nat.sub_diag in R. cbn [firstn] in R. rewrite app_nil_r in R.
      rewrite app_length in R. cbn [length] in R. specialize (R ltac:(lia)).
      destruct (honest_g_add _ _ _ _ Hr Hd) as (t & Ht & _); [tauto|tauto|].
      destruct (honest_g_double_incomplete _ _ Hd) as (d' & Hd' & _).
      assert (H1 : honest (mul_step K T32 st (bit K c)) ((if c then t else fst st), d')).
      { destruct st as [res dbl]. unfold mul_step. cbn [fst snd] in *. eapply hbind; [exact Ht|]. eapply hbind; [apply honest_g_select|].
        eapply hbind; [exact Hd'|]. reflexivity. }
      destruct (IH (bs ++ [c]) ((if c then t else fst st), d')) as (st' & H2 & I2).
      + eapply sem_mul_step; eauto. apply honest_sem; eauto.
      + intros i L. rewrite <- app_assoc in *. cbn [app] in *. apply HR. rewrite app_length in L. cbn [length] in L. lia.
      + exists st'. split; [eapply hbind; eauto|]. rewrite <- app_assoc in I2. exact I2.
  Qed.
  Theorem honest_mul_bits (A P : E) aux auxn point bs : is_pt aux A -> is_pt auxn (⊖ A)%grp -> is_pt point P ->
    regular A P bs ->
    exists out, honest (g_mul_bits K T32 (Some (aux, auxn)) point (map (bit K) bs)) out /\ is_pt out (zmul (bval bs) P).
  Proof.
    intros HA HN HP (R & N0 & N2).
    destruct (honest_loop A P bs [] (aux, point)) as (st & Hs & Hi).
    { apply step_inv0; auto. }
    { cbn [app]. intros i L. apply R. lia. }
    cbn [app] in Hi. apply step_inv_bs in Hi as [Hr _].
    destruct (honest_g_add _ _ _ _ Hr HN) as (c & Hc & _).
    - intros H. apply N2. rewrite gopp_add. apply (gadd_inj_l E A). rewrite H.
      rewrite <- gassoc, gopp_r, g0_l. reflexivity.
    - rewrite gopp_inv. intros H. apply N0. apply (gadd_inj_l E A). rewrite H, g0_r. reflexivity.
    - exists c. assert (Hh : honest (g_mul_bits K T32 (Some (aux, auxn)) point (map (bit K) bs)) c).
      { cbn [g_mul_bits]. eapply hbind; eauto. }
      split; [exact Hh|]. exact (sem_mul_bits A P aux auxn point bs c HA HN HP (honest_sem _ _ Hh)).
  Qed.

  (** and conversely: a satisfying assignment exists only for regular inputs *)
  Lemma sem_loop_regular (A P : E) bs2 : forall bs st st', step_inv A P (map (bit K) bs) st ->
    sem (cfold (mul_step K T32) (map (bit K) bs2) st) st' ->
    forall i, (length bs <= i < length (bs ++ bs2))%nat ->
       (A ⊕ zmul (bval (firstn i (bs ++ bs2))) P)%grp <> zmul (2 ^ Z.of_nat i) P /\
       (A ⊕ zmul (bval (firstn i (bs ++ bs2))) P)%grp <> (⊖ zmul (2 ^ Z.of_nat i) P)%grp.
  Proof.
    induction bs2 as [|c bs2 IH]; cbn [map cfold]; intros bs st st' Hi H i L.
    - rewrite app_nil_r in L. lia.
    - apply sem_bind in H as (st1 & H1 & H).
      assert (Hi1 : step_inv A P (map (bit K) (bs ++ [c])) st1) by (eapply sem_mul_step; eauto).
      destruct (Nat.eq_dec i (length bs)) as [->|N].
      + rewrite firstn_app, firstn_all, Nat.sub_diag. cbn [firstn]. rewrite app_nil_r.
        destruct (step_inv_bs _ _ _ _ Hi) as [Hr Hd]. destruct st as [res dbl]. unfold mul_step in H1. cbn [fst snd] in *.
        apply sem_bind in H1 as (t & Ht & _). eapply sem_g_add in Ht as [Nx _]; eauto. apply (x_neq _ _ _ _ Hr Hd). exact Nx.
      + specialize (IH (bs ++ [c]) st1 st' Hi1 H i). rewrite <- app_assoc in IH. cbn [app] in IH. apply IH.
        rewrite !app_length in *. cbn [length] in *. lia.
  Qed.
  Theorem sem_mul_bits_regular (A P : E) aux auxn point bs out : is_pt aux A -> is_pt auxn (⊖ A)%grp -> is_pt point P ->
    sem (g_mul_bits K T32 (Some (aux, auxn)) point (map (bit K) bs)) out -> regular A P bs.
  Proof.
    intros HA HN HP H. cbn [g_mul_bits] in H. apply sem_bind in H as (st & Hs & H).
    pose proof (sem_loop_regular A P bs [] (aux, point) st (step_inv0 A P aux point HA HP) Hs) as R. cbn [app length] in R.
    eapply (sem_mul_loop A P bs [] (aux, point)) in Hs; [|apply step_inv0; auto]. cbn [app] in Hs.
    apply step_inv_bs in Hs as [Hr _]. eapply sem_g_add in H as [Nx _]; eauto. apply (x_neq _ _ _ _ Hr HN) in Nx as [N1 N2].
    split; [intros i L; apply R; lia|]. split.
    - intros E0. apply N2. rewrite E0, g0_r, gopp_inv. reflexivity.
    - intros E0. apply N1. rewrite E0, gopp_add, <- gassoc, gopp_r, g0_l. reflexivity.
  Qed.
End Gadgets.
