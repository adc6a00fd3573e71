(** The chips of IntegerChip.v against the fields W and W[X]/(X^2+1) and the curve groups. *)
From Coq Require Import ZArith List Bool Lia Ring Field Setoid.
From Verif.Base Require Import Fld EC Group Order Fq2.
From Verif.Model Require Import Circ MainGate IntegerChip.
From Verif.Proofs Require Import CircProofs GrumpkinProofs.
Import ListNotations.
Open Scope fld_scope.

Section Integers.
  Variable W N : Fld.
  Add Field WfI : (flaw W).
  Add Field NfI : (flaw N).

  Lemma winv_neq0 (x : W) : x <> 0 -> winv W x = finv x.
  Proof. intros H. unfold winv. apply feqb_neq in H. rewrite H. reflexivity. Qed.
  Lemma sem_div (a b c : W) : b <> 0 -> (sem (i_div_incomplete W a b) c <-> c = a / b).
  Proof.
    intros H. unfold i_div_incomplete. cbn. split.
    - intros (x & Hx & ->). apply (fmul_cancel_l W b); auto. transitivity a; [rewrite <- Hx; ring|field; auto].
    - intros ->. exists (a / b). split; [field; auto|reflexivity].
  Qed.
  Lemma hon_div (a b : W) : b <> 0 -> honest (i_div_incomplete W a b) (a / b).
  Proof. intros H. unfold i_div_incomplete. cbn. rewrite winv_neq0 by auto. split; [field; auto|field; auto]. Qed.
  Lemma sem_inv (a c : W) : sem (i_invert_incomplete W a) c <-> a * c = 1.
  Proof. cbn. split; [intros (x & Hx & ->); auto|intros H; exists c; auto]. Qed.
  Lemma hon_inv (a : W) : a <> 0 -> honest (i_invert_incomplete W a) (finv a).
  Proof. intros H. unfold i_invert_incomplete. cbn. rewrite winv_neq0 by auto. split; [field; auto|reflexivity]. Qed.
  Lemma sem_isel (a b c : W) (t : bool) : sem (i_select W N a b (bit N t)) c <-> c = if t then a else b.
  Proof.
    unfold i_select, bit. cbn. pose proof (f1_neq_0 N) as D. destruct t.
    - split; [intros (x & (H1 & _) & ->); auto|intros ->; exists a; split; [split; intros; [auto|contradiction]|auto]].
    - split; [intros (x & (_ & H1) & ->); auto|intros ->; exists b; split; [split; intros H; [exfalso; apply D; auto|auto]|auto]].
  Qed.
  Lemma hon_isel (a b : W) (t : bool) : honest (i_select W N a b (bit N t)) (if t then a else b).
  Proof.
    unfold i_select, bit. cbn. pose proof (f1_neq_0 N) as D. destruct t.
    - rewrite feqb_refl. split; auto. split; intros; auto. contradiction.
    - assert (E : feqb (0 : N) 1 = false) by (apply feqb_neq; auto). rewrite E. split; auto. split; intros H; auto. exfalso; apply D; auto.
  Qed.

  (** *** points over W *)
  Variable b : W.
  Hypothesis two_neq0 : two W <> 0.
  Hypothesis three_neq0 : three W <> 0.
  Hypothesis b_neq0 : b <> 0.
  Notation E := (ECgrp W b two_neq0 three_neq0 b_neq0).
  Notation is_pt := (is_pt W b two_neq0 three_neq0 b_neq0).

  Lemma p1_chord p q (P Q : E) l : is_pt p P -> is_pt q Q -> fst p <> fst q -> l * (fst q - fst p) = snd q - snd p ->
    is_pt (l * l - fst p - fst q, (fst p - (l * l - fst p - fst q)) * l - snd p) (P ⊕ Q)%grp.
  Proof.
    intros HP HQ H Hl. pose proof (pt_chord W b two_neq0 three_neq0 b_neq0 p q P Q l HP HQ H) as X.
    assert (El : l * (fst p - fst q) = snd p - snd q).
    { transitivity (- (l * (fst q - fst p))); [ring|]. rewrite Hl. ring. }
    specialize (X El). replace ((fst p - (l * l - fst p - fst q)) * l - snd p) with (l * (fst p - (l * l - fst p - fst q)) - snd p) by ring. exact X.
  Qed.
  Lemma sem_p1_addi p q (P Q : E) c : is_pt p P -> is_pt q Q -> P <> Q -> P <> (⊖ Q)%grp ->
    sem (p1_add_incomplete W p q) c -> is_pt c (P ⊕ Q)%grp.
  Proof.
    intros HP HQ N1 N2 H. assert (D : fst p <> fst q) by (apply (x_neq W b two_neq0 three_neq0 b_neq0 p q P Q); auto).
    destruct p as [ax ay], q as [bx bY]. cbn [fst snd] in *. unfold p1_add_incomplete in H. cbn in H.
    destruct H as (l & Hl & ->). apply (p1_chord (ax, ay) (bx, bY)); auto.
  Qed.
  Lemma hon_p1_addi p q (P Q : E) : is_pt p P -> is_pt q Q -> P <> Q -> P <> (⊖ Q)%grp ->
    exists c, honest (p1_add_incomplete W p q) c.
  Proof.
    intros HP HQ N1 N2. assert (D : fst p <> fst q) by (apply (x_neq W b two_neq0 three_neq0 b_neq0 p q P Q); auto).
    destruct p as [ax ay], q as [bx bY]. cbn [fst snd] in *. unfold p1_add_incomplete. eexists. cbn. split; [|reflexivity].
    assert (D' : bx - ax <> 0) by (apply fsub_neq0; auto). rewrite winv_neq0 by auto. field. auto.
  Qed.
  Lemma sem_p1_add p q (P Q : E) c : is_pt p P -> is_pt q Q ->
    sem (p1_add W p q) c -> P <> Q /\ P <> (⊖ Q)%grp /\ is_pt c (P ⊕ Q)%grp.
  Proof.
    intros HP HQ H. unfold p1_add in H. apply sem_bind in H as (u & Hu & H). apply constrain_inv in Hu.
    apply (x_neq W b two_neq0 three_neq0 b_neq0 p q P Q HP HQ) in Hu as [N1 N2]. repeat split; auto. eapply sem_p1_addi; eauto.
  Qed.
  Lemma hon_p1_add p q (P Q : E) : is_pt p P -> is_pt q Q -> P <> Q -> P <> (⊖ Q)%grp -> exists c, honest (p1_add W p q) c.
  Proof.
    intros HP HQ N1 N2. destruct (hon_p1_addi p q P Q HP HQ N1 N2) as [c Hc]. exists c. unfold p1_add.
    apply (hbind _ _ tt); [|exact Hc]. apply honest_constrain. apply (x_neq W b two_neq0 three_neq0 b_neq0 p q P Q); auto.
  Qed.
  Lemma sem_p1_select (t : bool) p q x : sem (p1_select W N (bit N t) p q) x -> x = if t then p else q.
  Proof.
    unfold p1_select. intros H. apply sem_bind in H as (x0 & H0 & H). apply sem_bind in H as (y0 & H1 & H). cbn in H.
    apply -> sem_isel in H0. apply -> sem_isel in H1. subst. destruct t, p, q; reflexivity.
  Qed.
  Lemma hon_p1_select (t : bool) p q : honest (p1_select W N (bit N t) p q) (if t then p else q).
  Proof.
    unfold p1_select. eapply hbind; [apply hon_isel|]. eapply hbind; [apply hon_isel|]. destruct t, p, q; reflexivity.
  Qed.
End Integers.

Section Integers2.
  Variable W N : Fld.
  Hypothesis no_i : forall x : W, x * x <> - (1).
  Add Field WfI2 : (flaw W).
  Notation L := (Ext W no_i).
  Add Field LfI2 : (flaw L).

  Lemma pair_eq (a b c d : W) : a = c -> b = d -> (a, b) = (c, d).
  Proof. congruence. Qed.
  Lemma sem_i2_add (a b c : L) : sem (i2_add W a b) c <-> c = a + b. Proof. reflexivity. Qed.
  Lemma sem_i2_sub (a b c : L) : sem (i2_sub W a b) c <-> c = a - b. Proof. reflexivity. Qed.
  Lemma sem_i2_neg (a c : L) : sem (i2_neg W a) c <-> c = - a. Proof. reflexivity. Qed.
  Lemma sem_i2_sub_sub (a b d c : L) : sem (i2_sub_sub W a b d) c <-> c = a - b - d. Proof. reflexivity. Qed.
  Lemma sem_i2_mul2 (a c : L) : sem (i2_mul2 W a) c <-> c = (1 + 1) * a.
  Proof. cbn. assert (E : (fst a + fst a, snd a + snd a) = (1 + 1) * a :> L) by (destruct a; apply pair_eq; cbn; ring). rewrite E. reflexivity. Qed.
  Lemma sem_i2_mul3 (a c : L) : sem (i2_mul3 W a) c <-> c = (1 + (1 + 1)) * a.
  Proof. cbn. assert (E : (fst a + fst a + fst a, snd a + snd a + snd a) = (1 + (1 + 1)) * a :> L) by (destruct a; apply pair_eq; cbn; ring). rewrite E. reflexivity. Qed.
  Lemma mul_val (a b : L) : (fst a * fst b - snd a * snd b, (fst a + snd a) * (fst b + snd b) - (fst a * fst b + snd a * snd b)) = a * b :> L.
  Proof. destruct a, b. apply pair_eq; cbn; ring. Qed.
  Lemma sem_i2_mul (a b c : L) : sem (i2_mul W a b) c <-> c = a * b.
  Proof. rewrite <- mul_val. reflexivity. Qed.
  Lemma sem_i2_square (a c : L) : sem (i2_square W a) c <-> c = a * a.
  Proof.
    assert (E : (fst a * fst a - snd a * snd a, fst a * snd a + fst a * snd a) = a * a :> L) by (destruct a; apply pair_eq; cbn; ring).
    rewrite <- E. reflexivity.
  Qed.
  Lemma sem_i2_norm (a : L) (c : W) : sem (i2_norm W a) c <-> c = fst a * fst a + snd a * snd a.
  Proof. reflexivity. Qed.
  Lemma norm_neq0 (a : L) : fst a * fst a + snd a * snd a <> 0 <-> a <> 0.
  Proof.
    split.
    - intros H E. subst a. apply H. cbn. ring.
    - apply (enorm_neq0 W no_i a).
  Qed.
  Lemma sem_i2_anz (a : L) u : sem (i2_assert_not_zero W a) u <-> a <> 0.
  Proof. rewrite <- norm_neq0. unfold i2_assert_not_zero. cbn. destruct u. split; [intros (_ & H & _); auto|intros H; exists tt; auto]. Qed.
  Lemma hon_i2_anz (a : L) : a <> 0 -> honest (i2_assert_not_zero W a) tt.
  Proof. intros H. apply norm_neq0 in H. cbn. auto. Qed.
  Lemma sem_i2_ane (a b : L) u : sem (i2_assert_not_equal W a b) u <-> a <> b.
  Proof.
    unfold i2_assert_not_equal. rewrite sem_bind. split.
    - intros (c & Hc & H). apply -> sem_i2_sub in Hc. apply -> sem_i2_anz in H. subst c. intros ->. apply H. ring.
    - intros H. exists (a - b). split; [apply sem_i2_sub; auto|]. apply sem_i2_anz. apply fsub_neq0. auto.
  Qed.
  Lemma hon_i2_ane (a b : L) : a <> b -> honest (i2_assert_not_equal W a b) tt.
  Proof. intros H. unfold i2_assert_not_equal. apply (hbind _ _ (a - b)); [reflexivity|]. apply hon_i2_anz. apply fsub_neq0. auto. Qed.
  Lemma div_val (a b : L) (n : W) : b <> 0 -> (fst b * fst b + snd b * snd b) * n = 1 -> a * ((fst b * n, - (snd b * n)) : L) = a / b.
  Proof.
    intros Hb Hn. pose proof (proj2 (norm_neq0 b) Hb) as D.
    assert (E : n = 1 / (fst b * fst b + snd b * snd b)).
    { apply (fmul_cancel_l W (fst b * fst b + snd b * snd b)); auto. rewrite Hn. field; auto. }
    rewrite (fdiv_def L). f_equal. destruct b as [x y]. cbn [fst snd] in *. cbn. unfold einv, enorm. cbn [fst snd]. apply pair_eq; rewrite E; field; auto.
  Qed.
  Lemma sem_i2_div (a b c : L) : sem (i2_div_incomplete W a b) c <-> b <> 0 /\ c = a / b.
  Proof.
    unfold i2_div_incomplete. rewrite sem_bind. split.
    - intros (n & Hn & H). apply -> sem_i2_norm in Hn. subst n. apply sem_bind in H as (ni & Hni & H). apply -> sem_inv in Hni.
      assert (Hb : b <> 0). { apply norm_neq0. intros E. rewrite E in Hni. apply (f1_neq_0 W). rewrite <- Hni. ring. }
      split; auto. rewrite <- (div_val a b ni) by auto.
      apply sem_bind in H as (i0 & H0 & H). apply sem_bind in H as (i1 & H1 & H). apply sem_bind in H as (i2 & H2 & H). cbn in H0, H1, H2. subst.
      apply -> sem_i2_mul in H. exact H.
    - intros [Hb ->]. exists (fst b * fst b + snd b * snd b). split; [reflexivity|].
      pose proof (proj2 (norm_neq0 b) Hb) as D. apply sem_bind. exists (finv (fst b * fst b + snd b * snd b)).
      assert (E : (fst b * fst b + snd b * snd b) * finv (fst b * fst b + snd b * snd b) = 1) by (field; auto).
      split; [apply sem_inv; auto|]. cbn [cbind i_mul i_neg]. apply sem_i2_mul. rewrite div_val by auto. reflexivity.
  Qed.
  Lemma hon_i2_div (a b : L) : b <> 0 -> exists c : L, honest (i2_div_incomplete W a b) c /\ c = a / b.
  Proof.
    intros Hb. pose proof (proj2 (norm_neq0 b) Hb) as D.
    assert (Ex : exists c, honest (i2_div_incomplete W a b) c).
    { eexists. unfold i2_div_incomplete. apply (hbind _ _ (fst b * fst b + snd b * snd b)); [reflexivity|].
      eapply hbind; [apply hon_inv; auto|]. cbn. reflexivity. }
    destruct Ex as [c Hc]. exists c. split; auto. apply honest_sem in Hc. apply -> sem_i2_div in Hc. tauto.
  Qed.
  Lemma sem_i2_sel (t : bool) (a b c : L) : sem (i2_select W N a b (bit N t)) c <-> c = if t then a else b.
  Proof. destruct a, b. split; [intros H; apply (sem_p1_select W N t) in H; exact H|intros ->]. pose proof (honest_sem _ _ (hon_p1_select W N t (c0, c1) (c2, c3))) as H. exact H. Qed.
  Lemma hon_i2_sel (t : bool) (a b : L) : honest (i2_select W N a b (bit N t)) (if t then a else b).
  Proof. exact (hon_p1_select W N t a b). Qed.

  (** *** points over the extension *)
  Variable b : L.
  Hypothesis two_neq0 : two L <> 0.
  Hypothesis three_neq0 : three L <> 0.
  Hypothesis b_neq0 : b <> 0.
  Notation E := (ECgrp L b two_neq0 three_neq0 b_neq0).
  Notation is_pt := (is_pt L b two_neq0 three_neq0 b_neq0).
  Lemma sem_p2_addi_val (p q c : L * L) : sem (p2_add_incomplete W p q) c -> fst p <> fst q /\
    exists l : L, l * (fst q - fst p) = snd q - snd p /\ c = (l * l - fst p - fst q, (fst p - (l * l - fst p - fst q)) * l - snd p).
  Proof.
    destruct p as [ax ay], q as [bx bY]. cbn [fst snd]. unfold p2_add_incomplete. intros H.
    apply sem_bind in H as (n & Hn & H). apply -> sem_i2_sub in Hn. apply sem_bind in H as (d & Hd & H). apply -> sem_i2_sub in Hd.
    apply sem_bind in H as (l & Hl & H). apply -> sem_i2_div in Hl; destruct Hl as [D Hl]. apply sem_bind in H as (l2 & Hl2 & H). apply -> sem_i2_square in Hl2.
    apply sem_bind in H as (x & Hx & H). apply -> sem_i2_sub_sub in Hx. apply sem_bind in H as (t & Ht & H). apply -> sem_i2_sub in Ht.
    apply sem_bind in H as (t' & Ht' & H). apply -> sem_i2_mul in Ht'. apply sem_bind in H as (y & Hy & H). apply -> sem_i2_sub in Hy. cbn in H. subst c.
    subst n d. split; [intros E0; apply D; rewrite E0; ring|]. exists l. split; [subst l; field; exact D|].
    subst y t' t x l2. reflexivity.
  Qed.
  Lemma sem_p2_addi p q (P Q : E) c : is_pt p P -> is_pt q Q -> sem (p2_add_incomplete W p q) c ->
    P <> Q /\ P <> (⊖ Q)%grp /\ is_pt c (P ⊕ Q)%grp.
  Proof.
    intros HP HQ H. apply sem_p2_addi_val in H as [D (l & Hl & ->)].
    pose proof (proj1 (x_neq L b two_neq0 three_neq0 b_neq0 p q P Q HP HQ) D) as [N1 N2]. repeat split; auto.
    apply (p1_chord L b two_neq0 three_neq0 b_neq0 p q P Q l HP HQ D Hl).
  Qed.
  Lemma hon_p2_addi p q (P Q : E) : is_pt p P -> is_pt q Q -> P <> Q -> P <> (⊖ Q)%grp -> exists c, honest (p2_add_incomplete W p q) c.
  Proof.
    intros HP HQ N1 N2. assert (D : fst p <> fst q) by (apply (x_neq L b two_neq0 three_neq0 b_neq0 p q P Q); auto).
    destruct p as [ax ay], q as [bx bY]. cbn [fst snd] in *. unfold p2_add_incomplete.
    assert (D' : bx - ax <> 0) by (apply fsub_neq0; auto).
    destruct (hon_i2_div (bY - ay) (bx - ax) D') as (l & Hl & _). eexists.
    eapply hbind; [reflexivity|]. eapply hbind; [reflexivity|]. eapply hbind; [exact Hl|]. reflexivity.
  Qed.
  Lemma sem_p2_add p q (P Q : E) c : is_pt p P -> is_pt q Q -> sem (p2_add W p q) c -> P <> Q /\ P <> (⊖ Q)%grp /\ is_pt c (P ⊕ Q)%grp.
  Proof. intros HP HQ H. unfold p2_add in H. apply sem_bind in H as (u & _ & H). eapply sem_p2_addi; eauto. Qed.
  Lemma hon_p2_add p q (P Q : E) : is_pt p P -> is_pt q Q -> P <> Q -> P <> (⊖ Q)%grp -> exists c, honest (p2_add W p q) c.
  Proof.
    intros HP HQ N1 N2. destruct (hon_p2_addi p q P Q HP HQ N1 N2) as [c Hc]. exists c. unfold p2_add.
    apply (hbind _ _ tt); [|exact Hc]. apply hon_i2_ane. apply (x_neq L b two_neq0 three_neq0 b_neq0 p q P Q); auto.
  Qed.
  Lemma sem_p2_select (t : bool) (p q : L * L) x : sem (p2_select W N (bit N t) p q) x -> x = if t then p else q.
  Proof.
    unfold p2_select. intros H. apply sem_bind in H as (x0 & H0 & H). apply sem_bind in H as (y0 & H1 & H). cbn in H.
    apply -> sem_i2_sel in H0. apply -> sem_i2_sel in H1. subst. destruct t, p, q; reflexivity.
  Qed.
  Lemma hon_p2_select (t : bool) (p q : L * L) : honest (p2_select W N (bit N t) p q) (if t then p else q).
  Proof. unfold p2_select. eapply hbind; [apply hon_i2_sel|]. eapply hbind; [apply hon_i2_sel|]. destruct t, p, q; reflexivity. Qed.

  (** doubling; the check is on x although the formula divides by y *)
  Lemma sem_p2_dbl p (P : E) c : is_pt p P -> sem (p2_double_incomplete W p) c -> P <> (⊖ P)%grp /\ is_pt c (P ⊕ P)%grp.
  Proof.
    intros HP H. destruct p as [x0 y0]. unfold p2_double_incomplete in H.
    apply sem_bind in H as (s & Hs & H). apply -> sem_i2_square in Hs. apply sem_bind in H as (n & Hn & H). apply -> sem_i2_mul3 in Hn.
    apply sem_bind in H as (d & Hd & H). apply -> sem_i2_mul2 in Hd.
    apply sem_bind in H as (l & Hl & H). apply -> sem_i2_div in Hl; destruct Hl as [D Hl]. apply sem_bind in H as (l2 & Hl2 & H). apply -> sem_i2_square in Hl2.
    apply sem_bind in H as (x & Hx & H). apply -> sem_i2_sub_sub in Hx. apply sem_bind in H as (t & Ht & H). apply -> sem_i2_sub in Ht.
    apply sem_bind in H as (t' & Ht' & H). apply -> sem_i2_mul in Ht'. apply sem_bind in H as (y & Hy & H). apply -> sem_i2_sub in Hy. cbn in H. subst c.
    assert (Y : y0 <> 0). { intros ->. apply D. subst d. ring. }
    assert (E1 : EC.pt L b P = Aff L x0 y0) by exact HP.
    split.
    - intros E0. apply (f_equal (EC.pt L b)) in E0. change (EC.pt L b (⊖ P)%grp) with (ropp L (EC.pt L b P)) in E0. rewrite E1 in E0.
      assert (E2 : y0 = - y0) by (cbn [ropp] in E0; congruence). assert (E3 : (1 + 1) * y0 = 0) by (transitivity (y0 - - y0); [ring|]; rewrite <- E2; ring).
      apply fmul_eq0 in E3 as [E3|E3]; [apply two_neq0; exact E3|auto].
    - unfold GrumpkinProofs.is_pt. cbn [fst snd]. cbn. rewrite E1. rewrite (radd_tangent L two_neq0) by auto.
      assert (El : three L * (x0 * x0) / (two L * y0) = l) by (subst l d n s; reflexivity). rewrite El.
      unfold chord. cbn zeta. subst y t' t x l2. reflexivity.
  Qed.
  Lemma hon_p2_dbl p (P : E) : is_pt p P -> P <> (⊖ P)%grp -> exists c, honest (p2_double_incomplete W p) c.
  Proof.
    intros HP NP. destruct p as [x0 y0]. assert (E1 : EC.pt L b P = Aff L x0 y0) by exact HP.
    assert (Y : y0 <> 0).
    { intros ->. apply NP. apply EC_ext. cbn. rewrite E1. cbn. f_equal. apply pair_eq; cbn; ring. }
    assert (D : (1 + 1) * y0 <> 0) by (apply fmul_neq0; auto; exact two_neq0).
    unfold p2_double_incomplete.
    destruct (hon_i2_div ((1 + (1 + 1)) * (x0 * x0)) ((1 + 1) * y0) D) as (l & Hl & _). eexists.
    eapply hbind; [exact (proj2 (sem_i2_square x0 (x0 * x0)) eq_refl)|].
    eapply hbind; [exact (proj2 (sem_i2_mul3 (x0 * x0) _) eq_refl)|].
    eapply hbind; [exact (proj2 (sem_i2_mul2 y0 _) eq_refl)|].
    eapply hbind; [exact Hl|]. reflexivity.
  Qed.
End Integers2.
