(** Polynomial functions of bounded degree vanish at few points. *)
From Coq Require Import ZArith NArith List Lia Field Bool.
From Verif.Base Require Import Fld Fp Poly Group.
From Verif.Spec Require Import Few.
Import ListNotations.

(** *** except *)
Lemma except_le {A} n m (P : A -> Prop) : (n <= m)%nat -> except n P -> except m P.
Proof. intros L (bad & B & H). exists bad. split; [lia|exact H]. Qed.
Lemma except_impl {A} n (P Q : A -> Prop) : (forall x, P x -> Q x) -> except n P -> except n Q.
Proof. intros I (bad & B & H). exists bad. split; [exact B|]. intros x Hx. apply I, H, Hx. Qed.
Lemma except_and {A} n m (P Q : A -> Prop) : except n P -> except m Q -> except (n + m) (fun x => P x /\ Q x).
Proof.
  intros (b1 & B1 & H1) (b2 & B2 & H2). exists (b1 ++ b2). split; [rewrite app_length; lia|].
  intros x Hx. split; [apply H1|apply H2]; intros I; apply Hx; apply in_or_app; auto.
Qed.
Lemma except_all {A} (P : A -> Prop) : (forall x, P x) -> except 0 P.
Proof. intros H. exists []. split; [auto|]. intros x _. apply H. Qed.
Lemma except_list {A} (l : list A) n : (length l <= n)%nat -> except n (fun x => ~ In x l).
Proof. intros L. exists l. split; [exact L|auto]. Qed.

Section Few.
  Variable K : Fld.
  Open Scope fld_scope.
  Add Field kf : (flaw K).
  (** the field is finite *)
  Hypothesis finite : exists all : list K, NoDup all /\ forall x, In x all.

  Lemma except_roots (l : list K) d : (length l <= S d)%nat -> (exists c, In c l /\ c <> 0) -> except d (fun x => peval l x <> 0).
  Proof.
    intros L (c & Hc & N0). destruct finite as (all & ND & A).
    exists (filter (fun x => feqb (peval l x) 0) all). split.
    - destruct (Nat.le_gt_cases (length (filter (fun x => feqb (peval l x) 0) all)) d) as [|G]; [assumption|exfalso].
      apply N0. apply (roots_zero K l (filter (fun x => feqb (peval l x) 0) all)); [apply NoDup_filter; exact ND|lia| |exact Hc].
      intros x Hx. apply filter_In in Hx as [_ Hx]. apply feqb_eq in Hx. exact Hx.
    - intros x Hx E. apply Hx. apply filter_In. split; [apply A|]. apply feqb_eq. exact E.
  Qed.
  Lemma nonzero_coeff (l : list K) x : peval l x <> 0 -> exists c, In c l /\ c <> 0.
  Proof.
    intros H. destruct (existsb (fun c => negb (feqb c 0)) l) eqn:E.
    - apply existsb_exists in E as (c & Hc & E). exists c. split; [exact Hc|]. intros ->. rewrite feqb_refl in E. discriminate E.
    - exfalso. apply H. apply peval_zeros. intros c Hc. apply feqb_eq.
      destruct (feqb c 0) eqn:Ec; [reflexivity|]. assert (X : existsb (fun c => negb (feqb c 0)) l = true) by (apply existsb_exists; exists c; split; [exact Hc|rewrite Ec; reflexivity]).
      rewrite E in X. discriminate X.
  Qed.

  (** *** polynomial functions *)
  Definition polyfun (d : nat) (f : K -> K) : Prop := exists l, (length l <= S d)%nat /\ forall x, f x = peval l x.
  Lemma pf_le d e f : (d <= e)%nat -> polyfun d f -> polyfun e f.
  Proof. intros L (l & Hl & E). exists l. split; [lia|exact E]. Qed.
  Lemma pf_ext d f g : (forall x, f x = g x) -> polyfun d f -> polyfun d g.
  Proof. intros H (l & Hl & E). exists l. split; [exact Hl|]. intros x. rewrite <- H. apply E. Qed.
  Lemma pf_const c : polyfun 0 (fun _ => c).
  Proof. exists [c]. split; [auto|]. intros x. cbn [peval]. ring. Qed.
  Lemma pf_id : polyfun 1 (fun x => x).
  Proof. exists [0; 1]. split; [auto|]. intros x. cbn [peval]. ring. Qed.
  Lemma pf_poly l d : (length l <= S d)%nat -> polyfun d (peval l).
  Proof. intros H. exists l. auto. Qed.
  Lemma pf_add d f g : polyfun d f -> polyfun d g -> polyfun d (fun x => f x + g x).
  Proof.
    intros (l & Hl & E) (l' & Hl' & E'). exists (padd l l'). split; [rewrite padd_length; lia|].
    intros x. rewrite peval_padd, E, E'. reflexivity.
  Qed.
  Lemma pf_scale d c f : polyfun d f -> polyfun d (fun x => c * f x).
  Proof. intros (l & Hl & E). exists (pscale K c l). split; [unfold pscale; rewrite map_length; lia|]. intros x. rewrite peval_pscale, E. reflexivity. Qed.
  Lemma pf_opp d f : polyfun d f -> polyfun d (fun x => - f x).
  Proof. intros H. apply (pf_ext d (fun x => - (1) * f x)); [intros x; ring|]. apply pf_scale. exact H. Qed.
  Lemma pf_sub d f g : polyfun d f -> polyfun d g -> polyfun d (fun x => f x - g x).
  Proof. intros H H'. apply (pf_ext d (fun x => f x + - g x)); [intros x; ring|]. apply pf_add; [exact H|apply pf_opp; exact H']. Qed.
  Lemma pf_mul d e f g : polyfun d f -> polyfun e g -> polyfun (d + e) (fun x => f x * g x).
  Proof.
    intros (l & Hl & E). revert d f Hl E. induction l as [|c l IH]; intros d f Hl E Hg.
    - apply (pf_ext _ (fun _ => 0)); [intros x; rewrite E; cbn [peval]; ring|]. apply (pf_le 0); [lia|]. apply pf_const.
    - destruct d as [|d].
      + destruct l; [|cbn in Hl; lia]. apply (pf_ext _ (fun x => c * g x)); [intros x; rewrite E; cbn [peval]; ring|]. apply pf_scale. exact Hg.
      + assert (H : polyfun (d + e) (fun x => peval l x * g x)) by (apply IH; [cbn in Hl; lia|reflexivity|exact Hg]).
        apply (pf_ext _ (fun x => c * g x + x * (peval l x * g x))); [intros x; rewrite E; cbn [peval]; ring|].
        apply pf_add; [apply (pf_le e); [lia|]; apply pf_scale; exact Hg|].
        destruct H as (m & Hm & Em). exists (0 :: m). split; [cbn; lia|]. intros x. cbn [peval]. rewrite <- Em. ring.
  Qed.
  Lemma pf_dilate d a f : polyfun d f -> polyfun d (fun x => f (x * a)).
  Proof.
    intros (l & Hl & E). revert d f Hl E. induction l as [|c l IH]; intros d f Hl E.
    - apply (pf_ext _ (fun _ => 0)); [intros x; rewrite E; reflexivity|]. apply (pf_le 0); [lia|]. apply pf_const.
    - destruct d as [|d].
      + destruct l; [|cbn in Hl; lia]. apply (pf_ext _ (fun _ => c)); [intros x; rewrite E; cbn [peval]; ring|]. apply pf_const.
      + apply (pf_ext _ (fun x => c + a * (x * peval l (x * a)))); [intros x; rewrite E; cbn [peval]; ring|].
        apply pf_add; [apply (pf_le 0); [lia|apply pf_const]|]. apply pf_scale. replace (S d) with (1 + d)%nat by lia. apply pf_mul; [apply pf_id|].
        apply IH; [cbn in Hl; lia|reflexivity].
  Qed.
  Lemma pf_pow n : polyfun n (fun x => fpow x (N.of_nat n)).
  Proof.
    induction n as [|n IH]; [apply (pf_ext _ (fun _ => 1)); [intros x; reflexivity|apply pf_const]|].
    apply (pf_ext _ (fun x => x * fpow x (N.of_nat n))); [intros x; rewrite Nat2N.inj_succ, fpow_succ; reflexivity|].
    replace (S n) with (1 + n)%nat by lia. apply pf_mul; [apply pf_id|exact IH].
  Qed.
  Lemma pf_sum {A} d (l : list A) (f : A -> K -> K) : (forall a, In a l -> polyfun d (f a)) -> polyfun d (fun x => fold_right fadd 0 (map (fun a => f a x) l)).
  Proof.
    induction l as [|a l IH]; intros H; cbn [map fold_right]; [apply (pf_le 0); [lia|apply pf_const]|].
    apply pf_add; [apply H; left; reflexivity|]. apply IH. intros b Hb. apply H. right. exact Hb.
  Qed.
  Lemma pf_prod {A} d (l : list A) (f : A -> K -> K) : (forall a, In a l -> polyfun d (f a)) ->
    polyfun (length l * d) (fun x => fold_right fmul 1 (map (fun a => f a x) l)).
  Proof.
    induction l as [|a l IH]; intros H; cbn [map fold_right length Nat.mul]; [apply pf_const|].
    apply pf_mul; [apply H; left; reflexivity|]. apply IH. intros b Hb. apply H. right. exact Hb.
  Qed.
  Lemma pf_at d f : polyfun d f -> (exists x, f x <> 0) -> except d (fun x => f x <> 0).
  Proof.
    intros (l & Hl & E) (x & Hx). rewrite E in Hx.
    apply (except_impl d (fun x => peval l x <> 0)); [intros y Hy; rewrite E; exact Hy|].
    apply except_roots; [exact Hl|]. exact (nonzero_coeff l x Hx).
  Qed.
End Few.

(** the fields used here are finite *)
Lemma Fp_finite p (Hp : Znumtheory.prime p) : exists all : list (FpFld p Hp), NoDup all /\ forall x, In x all.
Proof.
  assert (P0 : (0 < p)%Z) by (destruct Hp; lia).
  exists (map (fun i => of_Z p (Z.of_nat i) : FpFld p Hp) (seq 0 (Z.to_nat p))). split.
  - assert (G : forall l, NoDup l -> (forall i, In i l -> (i < Z.to_nat p)%nat) -> NoDup (map (fun i => of_Z p (Z.of_nat i) : FpFld p Hp) l)).
    { induction l as [|i l IH]; intros N H; [constructor|]. inversion N as [|? ? Ni N']; subst. cbn [map]. constructor.
      - intros I. apply in_map_iff in I as (j & E & Hj). apply of_Z_inj_mod in E.
        pose proof (H i (or_introl eq_refl)). pose proof (H j (or_intror Hj)). rewrite !Z.mod_small in E by lia. apply Nat2Z.inj in E. subst. contradiction.
      - apply IH; [exact N'|]. intros j Hj. apply H. right. exact Hj. }
    apply G; [apply seq_NoDup|]. intros i Hi. apply in_seq in Hi. lia.
  - intros x. apply in_map_iff. exists (Z.to_nat (fval (x : Fp p))).
    assert (R : (0 <= fval (x : Fp p) < p)%Z) by (apply fval_range; exact P0).
    split; [rewrite Z2Nat.id by lia; exact (of_Z_fval p x)|]. apply in_seq. lia.
Qed.
