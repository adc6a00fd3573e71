(** Reasoning about circuits: composition of the two semantics. *)
From Coq Require Import ZArith List Setoid Field.
From Verif.Base Require Import Fld.
From Verif.Model Require Import Circ MainGate.
Import ListNotations.

Lemma sem_bind {A B} (c : circ A) : forall (f : A -> circ B) b, sem (cbind c f) b <-> exists a, sem c a /\ sem (f a) b.
Proof.
  induction c as [a|X h P k IH|]; intros f b; cbn.
  - split; [intros H; exists a; auto|intros (a' & -> & H); auto].
  - split.
    + intros (x & Hx & H). apply IH in H as (a & Ha & H). eauto.
    + intros (a & (x & Hx & Ha) & H). exists x. split; auto. apply IH. eauto.
  - split; [tauto|intros (? & [] & _)].
Qed.
Lemma honest_bind {A B} (c : circ A) : forall (f : A -> circ B) b, honest (cbind c f) b <-> exists a, honest c a /\ honest (f a) b.
Proof.
  induction c as [a|X h P k IH|]; intros f b; cbn.
  - split; [intros H; exists a; auto|intros (a' & -> & H); auto].
  - rewrite IH. split.
    + intros (Hx & a & Ha & H). eauto.
    + intros (a & (Hx & Ha) & H). eauto.
  - split; [tauto|intros (? & [] & _)].
Qed.
Lemma honest_sem {A} (c : circ A) : forall a, honest c a -> sem c a.
Proof. induction c as [a'|X h P k IH|]; cbn; intros a H; auto. destruct H as [H1 H2]. eauto. Qed.
Lemma honest_fun {A} (c : circ A) : forall a a', honest c a -> honest c a' -> a = a'.
Proof. induction c as [a'|X h P k IH|]; cbn; intros a1 a2; [congruence| |tauto]. intros [_ H1] [_ H2]. eauto. Qed.
Lemma hbind {A B} (c : circ A) (f : A -> circ B) a b : honest c a -> honest (f a) b -> honest (cbind c f) b.
Proof. intros. apply honest_bind. eauto. Qed.

Lemma sem_constrain P u : sem (constrain P) u <-> P.
Proof. cbn. destruct u. split; [intros (_ & H & _); auto|intros H; exists tt; auto]. Qed.
Lemma constrain_inv P u : sem (constrain P) u -> P.
Proof. intros H. apply (sem_constrain P u); auto. Qed.
Lemma honest_constrain P u : honest (constrain P) u <-> P.
Proof. cbn. destruct u. tauto. Qed.

(** an invariant along a fold *)
Lemma sem_cfold {A B} (f : B -> A -> circ B) (I : list A -> B -> Prop) (ok : A -> Prop) :
  (forall done a b b', I done b -> ok a -> sem (f b a) b' -> I (done ++ [a]) b') ->
  forall l done b b', Forall ok l -> I done b -> sem (cfold f l b) b' -> I (done ++ l) b'.
Proof.
  intros Hs. induction l as [|a l IH]; cbn [cfold]; intros done b b' Hl Hi H.
  - cbn in H. subst. rewrite app_nil_r. auto.
  - inversion Hl; subst. apply sem_bind in H as (b1 & H1 & H). replace (done ++ a :: l) with ((done ++ [a]) ++ l) by (rewrite <- app_assoc; reflexivity). eapply IH; eauto.
Qed.
Lemma sem_cmap {A B} (f : A -> circ B) : forall l r, sem (cmap f l) r <-> Forall2 (fun a b => sem (f a) b) l r.
Proof.
  induction l as [|a l IH]; intros r; cbn [cmap].
  - cbn. split; [intros ->; constructor|intros H; inversion H; auto].
  - rewrite sem_bind. split.
    + intros (b & Hb & H). apply sem_bind in H as (r' & Hr & ->). constructor; auto. apply IH; auto.
    + intros H. inversion H; subst. eexists; split; eauto. apply sem_bind. eexists; split; [apply IH; eauto|]. reflexivity.
Qed.
Lemma honest_cmap {A B} (f : A -> circ B) : forall l r, honest (cmap f l) r <-> Forall2 (fun a b => honest (f a) b) l r.
Proof.
  induction l as [|a l IH]; intros r; cbn [cmap].
  - cbn. split; [intros ->; constructor|intros H; inversion H; auto].
  - rewrite honest_bind. split.
    + intros (b & Hb & H). apply honest_bind in H as (r' & Hr & ->). constructor; auto. apply IH; auto.
    + intros H. inversion H; subst. eexists; split; eauto. apply honest_bind. eexists; split; [apply IH; eauto|]. reflexivity.
Qed.

Section Gates.
  Variable K : Fld.
  Open Scope fld_scope.
  Add Field KfC : (flaw K).

  Lemma sub0 (a c : K) : a - c = 0 <-> c = a.
  Proof. split; [intros H; symmetry; apply fsub_eq0; auto|intros ->; ring]. Qed.

  Lemma sem_cell1 (h : K) (P : K -> Prop) c : sem (Cell K h P (fun x => Ret x)) c <-> P c.
  Proof. cbn. split; [intros (x & H & ->); auto|eauto]. Qed.
  Lemma honest_cell1 (h : K) (P : K -> Prop) c : honest (Cell K h P (fun x => Ret x)) c <-> P h /\ c = h.
  Proof. cbn. tauto. Qed.

  Lemma sem_assign_constant (a c : K) : sem (assign_constant a) c <-> c = a.
  Proof. exact (sem_cell1 a (fun x => x = a) c). Qed.
  Lemma honest_assign_constant (a : K) : honest (assign_constant a) a.
  Proof. cbn; auto. Qed.
  Lemma sem_assign_value (h c : K) : sem (assign_value h) c.
  Proof. cbn; eauto. Qed.
  Lemma honest_assign_value (h : K) : honest (assign_value h) h.
  Proof. cbn; auto. Qed.

  Ltac gate := unfold MainGate.add, MainGate.sub, MainGate.mul, mul_add, add_constant, neg_with_constant; first [rewrite sem_cell1|rewrite honest_cell1]; rewrite ?sub0; split; intros; try split; try reflexivity; try tauto.
  Lemma sem_add (a b c : K) : sem (MainGate.add a b) c <-> c = a + b. Proof. gate. Qed.
  Lemma sem_sub (a b c : K) : sem (MainGate.sub a b) c <-> c = a - b. Proof. gate. Qed.
  Lemma sem_mul (a b c : K) : sem (MainGate.mul a b) c <-> c = a * b. Proof. gate. Qed.
  Lemma sem_mul_add (a b d c : K) : sem (mul_add a b d) c <-> c = a * b + d. Proof. gate. Qed.
  Lemma sem_add_constant (a b c : K) : sem (add_constant a b) c <-> c = a + b. Proof. gate. Qed.
  Lemma sem_neg_with_constant (a b c : K) : sem (neg_with_constant a b) c <-> c = b - a. Proof. gate. Qed.
  Lemma honest_add (a b c : K) : honest (MainGate.add a b) c <-> c = a + b. Proof. gate. Qed.
  Lemma honest_sub (a b c : K) : honest (MainGate.sub a b) c <-> c = a - b. Proof. gate. Qed.
  Lemma honest_mul (a b c : K) : honest (MainGate.mul a b) c <-> c = a * b. Proof. gate. Qed.
  Lemma honest_mul_add (a b d c : K) : honest (mul_add a b d) c <-> c = a * b + d. Proof. gate. Qed.
  Lemma honest_add_constant (a b c : K) : honest (add_constant a b) c <-> c = a + b. Proof. gate. Qed.
  Lemma honest_neg_with_constant (a b c : K) : honest (neg_with_constant a b) c <-> c = b - a. Proof. gate. Qed.

  Lemma bit_cases (x : K) : x * x = x -> x = 0 \/ x = 1.
  Proof.
    intros H. assert (E : x * (x - 1) = 0) by (transitivity (x * x - x); [ring|rewrite H; ring]).
    apply fmul_eq0 in E as [E|E]; auto. right. apply fsub_eq0; auto.
  Qed.
  Definition bit (b : bool) : K := if b then 1 else 0.
  Lemma bit_sq b : bit b * bit b = bit b. Proof. destruct b; cbn; ring. Qed.
  Lemma bits_of (l : list K) : Forall (fun x => x * x = x) l -> exists bs, l = map bit bs.
  Proof.
    induction 1 as [|x l Hx Hl (bs & ->)]; [exists []; auto|].
    destruct (bit_cases x Hx) as [-> | ->]; [exists (false :: bs)|exists (true :: bs)]; auto.
  Qed.
  Lemma sem_bits hb bits : sem (cmap assign_bit hb) bits -> length bits = length hb /\ exists bs, bits = map bit bs.
  Proof.
    intros H. apply sem_cmap in H. split.
    - clear -H. induction H; cbn; auto.
    - apply bits_of. induction H as [|a x l l' Hx Hl IH]; constructor; [|exact IH]. exact (proj1 (sem_cell1 _ _ _) Hx).
  Qed.
  Lemma honest_bits bs : honest (cmap assign_bit (map bit bs)) (map bit bs).
  Proof. apply honest_cmap. induction bs; cbn [map]; constructor; auto. apply honest_cell1. split; auto. apply bit_sq. Qed.

  Lemma sem_select (a b : K) (c : bool) x : sem (select a b (bit c)) x <-> x = if c then a else b.
  Proof.
    unfold select. rewrite sem_cell1, sub0. destruct c; cbn [bit].
    - replace (1 * (a - b) + b) with a by ring. tauto.
    - replace (0 * (a - b) + b) with b by ring. tauto.
  Qed.
  Lemma feqb_10 : feqb (0 : K) 1 = false.
  Proof. apply feqb_neq. intros E. apply (f1_neq_0 K). auto. Qed.
  Lemma honest_select (a b : K) (c : bool) x : honest (select a b (bit c)) x <-> x = if c then a else b.
  Proof.
    unfold select. rewrite honest_cell1, sub0. destruct c; cbn [bit].
    - replace (1 * (a - b) + b) with a by ring. rewrite feqb_refl. tauto.
    - replace (0 * (a - b) + b) with b by ring. rewrite feqb_10. tauto.
  Qed.
End Gates.
