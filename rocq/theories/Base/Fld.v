(** A field packaged as a record, and elementary facts (mathematics, no code modelled here). *)
From Coq Require Import ZArith List Lia Setoid Field.
Import ListNotations.

Record Fld := {
  car :> Type;
  f0 : car; f1 : car;
  fadd : car -> car -> car;
  fmul : car -> car -> car;
  fsub : car -> car -> car;
  fopp : car -> car;
  fdiv : car -> car -> car;
  finv : car -> car;
  feq_dec : forall x y : car, {x = y} + {x <> y};
  flaw : field_theory f0 f1 fadd fmul fsub fopp fdiv finv (@eq car)
}.

Arguments f0 {_}. Arguments f1 {_}.
Arguments fadd {_}. Arguments fmul {_}. Arguments fsub {_}. Arguments fopp {_}.
Arguments fdiv {_}. Arguments finv {_}. Arguments feq_dec {_}.

Declare Scope fld_scope.
Delimit Scope fld_scope with fld.
Notation "0" := f0 : fld_scope.
Notation "1" := f1 : fld_scope.
Infix "+" := fadd : fld_scope.
Infix "*" := fmul : fld_scope.
Infix "-" := fsub : fld_scope.
Infix "/" := fdiv : fld_scope.
Notation "- x" := (fopp x) : fld_scope.

Section FieldFacts.
  Variable K : Fld.
  Open Scope fld_scope.
  Add Field Kf : (flaw K).

  Definition feqb (x y : K) : bool := if feq_dec x y then true else false.
  Lemma feqb_eq x y : feqb x y = true <-> x = y.
  Proof. unfold feqb; destruct (feq_dec x y); split; congruence. Qed.
  Lemma feqb_neq x y : feqb x y = false <-> x <> y.
  Proof. unfold feqb; destruct (feq_dec x y); split; congruence. Qed.
  Lemma feqb_refl x : feqb x x = true.
  Proof. apply feqb_eq; auto. Qed.

  Lemma f1_neq_0 : (1 : K) <> 0.
  Proof. exact (F_1_neq_0 (flaw K)). Qed.

  Lemma finv_l (x : K) : x <> 0 -> finv x * x = 1.
  Proof. exact (Finv_l (flaw K) x). Qed.

  Lemma fmul_eq0 (x y : K) : x * y = 0 -> x = 0 \/ y = 0.
  Proof.
    intros H. destruct (feq_dec x 0) as [E|N]; auto. right.
    replace y with (finv x * (x * y)); [rewrite H; ring|].
    field; auto.
  Qed.
  Lemma fmul_neq0 (x y : K) : x <> 0 -> y <> 0 -> x * y <> 0.
  Proof. intros Hx Hy E. apply fmul_eq0 in E; tauto. Qed.
  Lemma fsub_eq0 (x y : K) : x - y = 0 -> x = y.
  Proof. intros H. replace x with (x - y + y) by ring. rewrite H. ring. Qed.
  Lemma fsub_neq0 (x y : K) : x <> y -> x - y <> 0.
  Proof. intros N E. apply N, fsub_eq0, E. Qed.
  Lemma fmul_cancel_l (a x y : K) : a <> 0 -> a * x = a * y -> x = y.
  Proof.
    intros Ha H. replace x with (finv a * (a * x)) by (field; auto).
    rewrite H. field; auto.
  Qed.
  Lemma fopp_inj (x y : K) : - x = - y -> x = y.
  Proof. intros H. replace x with (- - x) by ring. rewrite H. ring. Qed.
  Lemma fdiv_def (x y : K) : x / y = x * finv y.
  Proof. exact (Fdiv_def (flaw K) x y). Qed.
  Lemma finv_neq0 (x : K) : x <> 0 -> finv x <> 0.
  Proof.
    intros H E. apply f1_neq_0. rewrite <- (finv_l x H), E. ring.
  Qed.
  Lemma fsq_eq (x y : K) : x * x = y * y -> x = y \/ x = - y.
  Proof.
    intros H. assert (E : (x - y) * (x + y) = 0).
    { replace ((x - y) * (x + y)) with (x * x - y * y) by ring. rewrite H. ring. }
    apply fmul_eq0 in E as [E|E].
    - left. apply fsub_eq0; auto.
    - right. apply fsub_eq0. rewrite <- E. ring.
  Qed.

  (** powers with exponent in N *)
  Fixpoint fpow_pos (x : K) (n : positive) : K :=
    match n with
    | xH => x
    | xO n' => let t := fpow_pos x n' in t * t
    | xI n' => let t := fpow_pos x n' in x * (t * t)
    end.
  Definition fpow (x : K) (n : N) : K :=
    match n with N0 => 1 | Npos p => fpow_pos x p end.

  Lemma fpow_pos_succ x n : fpow_pos x (Pos.succ n) = x * fpow_pos x n.
  Proof.
    induction n as [n IH|n IH|]; cbn [Pos.succ fpow_pos]; cbv zeta; [rewrite IH|..]; ring.
  Qed.
  Lemma fpow_succ x n : fpow x (N.succ n) = x * fpow x n.
  Proof. destruct n; cbn [N.succ fpow fpow_pos]; [ring|apply fpow_pos_succ]. Qed.
  Lemma fpow_0 x : fpow x 0 = 1.
  Proof. reflexivity. Qed.
  Lemma fpow_add x m n : fpow x (m + n) = fpow x m * fpow x n.
  Proof.
    induction m as [|m IH] using N.peano_ind.
    - rewrite N.add_0_l, fpow_0. ring.
    - rewrite N.add_succ_l, !fpow_succ, IH. ring.
  Qed.
  Lemma fpow_mul_base x y n : fpow (x * y) n = fpow x n * fpow y n.
  Proof.
    induction n as [|n IH] using N.peano_ind; [rewrite !fpow_0; ring|].
    rewrite !fpow_succ, IH. ring.
  Qed.
  Lemma fpow_mul x m n : fpow x (m * n) = fpow (fpow x m) n.
  Proof.
    induction n as [|n IH] using N.peano_ind.
    - rewrite N.mul_0_r, !fpow_0. auto.
    - rewrite N.mul_succ_r, fpow_add, fpow_succ, IH. ring.
  Qed.
  Lemma fpow_neq0 x n : x <> 0 -> fpow x n <> 0.
  Proof.
    intros H. induction n as [|n IH] using N.peano_ind; [exact f1_neq_0|].
    rewrite fpow_succ. apply fmul_neq0; auto.
  Qed.
  Lemma fpow_1_l n : fpow 1 n = 1.
  Proof.
    induction n as [|n IH] using N.peano_ind; auto. rewrite fpow_succ, IH. ring.
  Qed.

  (** sums and products over lists *)
  Definition fsum (l : list K) : K := fold_right fadd 0 l.
  Definition fprod (l : list K) : K := fold_right fmul 1 l.

  Lemma fsum_nil : fsum [] = 0. Proof. reflexivity. Qed.
  Lemma fprod_nil : fprod [] = 1. Proof. reflexivity. Qed.
  Lemma fsum_cons a l : fsum (a :: l) = a + fsum l. Proof. reflexivity. Qed.
  Lemma fprod_cons a l : fprod (a :: l) = a * fprod l. Proof. reflexivity. Qed.
  Lemma fsum_app l l' : fsum (l ++ l') = fsum l + fsum l'.
  Proof.
    induction l as [|a l IH]; cbn [app]; rewrite ?fsum_nil, ?fsum_cons, ?IH; ring.
  Qed.
  Lemma fprod_app l l' : fprod (l ++ l') = fprod l * fprod l'.
  Proof.
    induction l as [|a l IH]; cbn [app]; rewrite ?fprod_nil, ?fprod_cons, ?IH; ring.
  Qed.
  Lemma fsum_map_mul {A} (c : K) (f : A -> K) l : fsum (map (fun x => c * f x) l) = c * fsum (map f l).
  Proof.
    induction l as [|a l IH]; cbn [map]; rewrite ?fsum_nil, ?fsum_cons, ?IH; ring.
  Qed.
  Lemma fsum_map_add {A} (f g : A -> K) l : fsum (map (fun x => f x + g x) l) = fsum (map f l) + fsum (map g l).
  Proof.
    induction l as [|a l IH]; cbn [map]; rewrite ?fsum_nil, ?fsum_cons, ?IH; ring.
  Qed.
  Lemma fprod_neq0 l : (forall x, In x l -> x <> 0) -> fprod l <> 0.
  Proof.
    induction l as [|a l IH]; intros H; [exact f1_neq_0|]. rewrite fprod_cons.
    apply fmul_neq0; [apply H; left; auto | apply IH; intros; apply H; right; auto].
  Qed.
  Lemma fprod_eq0 l : In 0 l -> fprod l = 0.
  Proof.
    induction l as [|a l IH]; cbn [In]; [tauto|]. intros [->|H]; rewrite fprod_cons; [ring|].
    rewrite IH; auto. ring.
  Qed.
  Lemma fold_left_fadd l a : fold_left fadd l a = a + fsum l.
  Proof. revert a; induction l as [|b l IH]; intros a; cbn [fold_left]; [rewrite fsum_nil; ring|]. rewrite IH, fsum_cons; ring. Qed.
End FieldFacts.

Arguments feqb {_}. Arguments fpow {_}. Arguments fpow_pos {_}. Arguments fsum {_}. Arguments fprod {_}.
