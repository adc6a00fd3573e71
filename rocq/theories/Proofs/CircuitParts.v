(** Parts of the DKG circuit over an arbitrary native field: shares by Horner's rule, exposure of public inputs. *)
From Coq Require Import ZArith List Bool Lia Ring Field Setoid.
From Verif.Base Require Import Fld Poly.
From Verif.Model Require Import Circ MainGate IntegerChip.
From Verif.Proofs Require Import CircProofs.
Import ListNotations.

Lemma honest_cfold_ex {A B} (f : B -> A -> circ B) : (forall b a, exists b', honest (f b a) b') ->
  forall l b, exists b', honest (cfold f l b) b'.
Proof.
  intros H. induction l as [|a l IH]; intros b; cbn [cfold]; [exists b; reflexivity|].
  destruct (H b a) as [b1 H1]. destruct (IH b1) as [b2 H2]. exists b2. eapply hbind; eauto.
Qed.
Lemma honest_cmap_ex {A B} (f : A -> circ B) : forall l, (forall a, In a l -> exists b, honest (f a) b) -> exists r, honest (cmap f l) r.
Proof.
  induction l as [|a l IH]; intros H; cbn [cmap]; [exists []; reflexivity|].
  destruct (H a (or_introl eq_refl)) as [b Hb]. destruct IH as [r Hr]; [intros; apply H; right; auto|].
  exists (b :: r). eapply hbind; [exact Hb|]. eapply hbind; [exact Hr|]. reflexivity.
Qed.

Section Parts.
  Variable K : Fld.
  Open Scope fld_scope.
  Add Field KfCP : (flaw K).

  Lemma sem_fold_add (l : list K) : forall c s, sem (cfold (fun s c => add s c) l c) s -> s = fold_left fadd l c.
  Proof.
    induction l as [|a l IH]; intros c s H; cbn [cfold fold_left] in *; [exact H|].
    apply sem_bind in H as (c' & H1 & H). apply -> sem_add in H1. subst c'. apply IH in H. exact H.
  Qed.
  Lemma sem_fold_horner (x : K) (l : list K) : forall a s, sem (cfold (fun s c => mul_add s x c) l a) s ->
    s = fold_left (fun s c => s * x + c) l a.
  Proof.
    induction l as [|c l IH]; intros a s H; cbn [cfold fold_left] in *; [exact H|].
    apply sem_bind in H as (c' & H1 & H). apply -> sem_mul_add in H1. subst c'. apply IH in H. exact H.
  Qed.
  Lemma horner (x a : K) (l : list K) : fold_left (fun s c => s * x + c) (rev l) a = peval (l ++ [a]) x.
  Proof.
    induction l as [|c l IH]; cbn [rev app peval fold_left]; [ring|].
    rewrite fold_left_app. cbn [fold_left]. rewrite IH. ring.
  Qed.
  Lemma horner_last (x : K) (cs : list K) : cs <> [] -> fold_left (fun s c => s * x + c) (rev (removelast cs)) (last cs 0) = peval cs x.
  Proof. intros H. rewrite horner, <- app_removelast_last by auto. reflexivity. Qed.
  Lemma sum_peval (l : list K) : forall c, fold_left fadd l c = c + peval l 1.
  Proof. induction l as [|a l IH]; intros c; cbn [fold_left peval]; [ring|]. rewrite IH. ring. Qed.
  Lemma peval_1 (c : K) (l : list K) : fold_left fadd l c = peval (c :: l) 1.
  Proof. rewrite sum_peval. cbn [peval]. ring. Qed.

  (** *** public inputs *)
  Definition exposed (inst : list K) (off : nat) (vs : list K) : Prop :=
    forall i, (i < length vs)%nat -> nth (off + i) inst 0 = nth i vs 0.
  Lemma exposed_nil inst off : exposed inst off [].
  Proof. intros i Hi. cbn in Hi. lia. Qed.
  Lemma exposed_app inst off a c : exposed inst off (a ++ c) <-> exposed inst off a /\ exposed inst (off + length a) c.
  Proof.
    unfold exposed. rewrite app_length. split.
    - intros H. split; intros i Hi.
      + rewrite H by lia. rewrite app_nth1 by auto. reflexivity.
      + specialize (H (length a + i)%nat ltac:(lia)). rewrite app_nth2_plus in H. rewrite <- H. f_equal. lia.
    - intros [H1 H2] i Hi. destruct (Nat.lt_ge_cases i (length a)) as [L|G].
      + rewrite app_nth1 by auto. auto.
      + rewrite app_nth2 by auto. rewrite <- (H2 (i - length a)%nat) by lia. f_equal. lia.
  Qed.
  Lemma exposed_cons inst off v vs : exposed inst off (v :: vs) <-> nth off inst 0 = v /\ exposed inst (off + 1) vs.
  Proof.
    change (v :: vs) with ([v] ++ vs). rewrite exposed_app. cbn [length]. split; intros [H1 H2]; split; auto.
    - specialize (H1 0%nat ltac:(cbn; lia)). rewrite Nat.add_0_r in H1. exact H1.
    - intros [|i] Hi; [rewrite Nat.add_0_r; exact H1|cbn in Hi; lia].
  Qed.
  Lemma exposed_all inst vs : exposed inst 0 vs -> length inst = length vs -> inst = vs.
  Proof.
    intros H L. apply (nth_ext _ _ 0 0); auto. intros i Hi. apply (H i). lia.
  Qed.
  Lemma exposed_refl vs pre post : exposed (pre ++ vs ++ post) (length pre) vs.
  Proof. intros i Hi. rewrite app_nth2_plus, app_nth1 by auto. reflexivity. Qed.
  Lemma sem_expose (inst : list K) v off u : sem (expose_public inst v off) u -> nth off inst 0 = v.
  Proof. apply constrain_inv. Qed.
  Lemma hon_expose (inst : list K) v off : nth off inst 0 = v -> honest (expose_public inst v off) tt.
  Proof. intros H. apply honest_constrain. exact H. Qed.

  Lemma sem_expose_all inst : forall vs off r, sem (expose_all K inst vs off) r -> r = (off + length vs)%nat /\ exposed inst off vs.
  Proof.
    induction vs as [|v vs IH]; intros off r H; cbn [expose_all] in H.
    - cbn in H. subst. split; [cbn; lia|apply exposed_nil].
    - apply sem_bind in H as (u & Hu & H). apply sem_expose in Hu. apply IH in H as [-> H]. split; [cbn; lia|]. apply exposed_cons. auto.
  Qed.
  Lemma hon_expose_all inst : forall vs off, exposed inst off vs -> honest (expose_all K inst vs off) (off + length vs)%nat.
  Proof.
    induction vs as [|v vs IH]; intros off H; cbn [expose_all length].
    - cbn. lia.
    - apply exposed_cons in H as [H1 H2]. apply (hbind _ _ tt); [apply hon_expose; auto|].
      replace (off + S (length vs))%nat with (off + 1 + length vs)%nat by lia. apply IH. auto.
  Qed.

  Fixpoint wrapv (base : K) (l : list K) : list K :=
    match l with lo :: hi :: tl => (hi * base + lo) :: wrapv base tl | _ => [] end.
  Lemma sem_wrap base : forall n l r, (length l <= n)%nat -> sem (wrap_limbs K base l) r -> r = wrapv base l.
  Proof.
    induction n as [|n IH]; intros [|lo [|hi tl]] r L H; cbn [wrap_limbs wrapv length] in *; try lia; try exact H.
    apply sem_bind in H as (s & Hs & H). apply -> sem_mul_add in Hs. apply sem_bind in H as (r' & Hr & H). apply IH in Hr; [|lia]. cbn in H. congruence.
  Qed.
  Lemma hon_wrap base : forall n l, (length l <= n)%nat -> honest (wrap_limbs K base l) (wrapv base l).
  Proof.
    induction n as [|n IH]; intros [|lo [|hi tl]] L; cbn [wrap_limbs wrapv length] in *; try lia; try reflexivity.
    eapply hbind; [apply honest_mul_add; reflexivity|]. eapply hbind; [apply IH; lia|]. reflexivity.
  Qed.
  Lemma sem_optimal inst lb cs ob off base off' : sem (expose_public_optimal K inst lb cs ob off) (base, off') ->
    base = match ob with Some b => b | None => lb end /\
    exposed inst off (flat_map (wrapv base) cs) /\ off' = (off + length (flat_map (wrapv base) cs))%nat.
  Proof.
    unfold expose_public_optimal. intros H. apply sem_bind in H as (b0 & Hb & H). apply sem_bind in H as (w & Hw & H).
    apply sem_bind in H as (o & Ho & H). cbn in H. assert (b0 = base) by congruence. assert (o = off') by congruence. subst b0 o.
    assert (Ew : concat w = flat_map (wrapv base) cs).
    { apply sem_cmap in Hw. clear Ho H. induction Hw as [|l r ls rs H1 _ IH]; cbn [concat flat_map]; auto.
      rewrite IH. apply (sem_wrap base (length l)) in H1; auto. subst r. reflexivity. }
    rewrite Ew in Ho. apply sem_expose_all in Ho as [-> Ho]. split; [|auto].
    destruct ob; [exact Hb|]. cbn in Hb. destruct Hb as (x & -> & Hx). exact Hx.
  Qed.
  Lemma hon_optimal inst lb cs ob off : let base := match ob with Some b => b | None => lb end in
    exposed inst off (flat_map (wrapv base) cs) ->
    honest (expose_public_optimal K inst lb cs ob off) (base, (off + length (flat_map (wrapv base) cs))%nat).
  Proof.
    intros base H. unfold expose_public_optimal. apply (hbind _ _ base); [destruct ob; cbn; auto|].
    apply (hbind _ _ (map (wrapv base) cs)).
    - apply honest_cmap. clear H. induction cs as [|l ls IH]; cbn [map]; constructor; auto. apply (hon_wrap base (length l)). auto.
    - rewrite <- flat_map_concat_map. eapply hbind; [apply hon_expose_all; exact H|]. reflexivity.
  Qed.
End Parts.
