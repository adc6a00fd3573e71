(** Polynomials over a field as coefficient lists (lowest degree first): root bound, interpolation (mathematics). *)
From Coq Require Import ZArith List Lia Ring Field Bool.
From Verif.Base Require Import Fld.
Import ListNotations.

Section Poly.
  Variable K : Fld.
  Open Scope fld_scope.
  Add Field Kp : (flaw K).
  Implicit Types (x a b c : K) (l xs : list K).

  Fixpoint peval l x : K := match l with [] => 0 | c :: r => c + x * peval r x end.
  Fixpoint padd l l' : list K := match l, l' with [], _ => l' | _, [] => l | a :: r, b :: r' => (a + b) :: padd r r' end.
  Definition pscale c l : list K := map (fmul c) l.
  (** (k - X) * l *)
  Definition plin k l : list K := padd (pscale k l) (0 :: pscale (- (1)) l).

  Lemma peval_padd l : forall l' x, peval (padd l l') x = peval l x + peval l' x.
  Proof. induction l as [|a l IH]; intros [|b l'] x; cbn [padd peval]; rewrite ?IH; ring. Qed.
  Lemma peval_pscale c l x : peval (pscale c l) x = c * peval l x.
  Proof. induction l as [|a l IH]; cbn [pscale map peval]; [ring|]. fold (pscale c l). rewrite IH. ring. Qed.
  Lemma peval_plin k l x : peval (plin k l) x = (k - x) * peval l x.
  Proof. unfold plin. rewrite peval_padd. cbn [peval]. rewrite !peval_pscale. ring. Qed.
  Lemma padd_length l : forall l', length (padd l l') = Nat.max (length l) (length l').
  Proof. induction l as [|a l IH]; intros [|b l']; cbn [padd length]; auto. rewrite IH. auto. Qed.
  Lemma plin_length k l : length (plin k l) = S (length l).
  Proof. unfold plin. rewrite padd_length. cbn [length]. unfold pscale. rewrite !map_length. lia. Qed.
  Lemma peval_0 l : peval l 0 = hd 0 l.
  Proof. destruct l; cbn [peval hd]; auto. ring. Qed.
  Lemma peval_zeros l x : (forall c, In c l -> c = 0) -> peval l x = 0.
  Proof.
    induction l as [|a l IH]; intros H; cbn [peval]; auto. rewrite IH by (intros; apply H; right; auto).
    rewrite (H a) by (left; auto). ring.
  Qed.

  (** synthetic division *)
  Fixpoint qt a l : list K := match l with [] => [] | d :: r => peval l a :: qt a r end.
  Lemma qt_length a l : length (qt a l) = length l.
  Proof. induction l; cbn; auto. Qed.
  Lemma qt_ok a l x : x * peval l x - a * peval l a = (x - a) * peval (qt a l) x.
  Proof.
    induction l as [|d l IH]; [cbn [qt peval]; ring|].
    change (peval (qt a (d :: l)) x) with (peval (d :: l) a + x * peval (qt a l) x).
    replace ((x - a) * (peval (d :: l) a + x * peval (qt a l) x)) with ((x - a) * peval (d :: l) a + x * ((x - a) * peval (qt a l) x)) by ring.
    rewrite <- IH. cbn [peval]. ring.
  Qed.
  Lemma qt_zero a l : (forall c, In c (qt a l) -> c = 0) -> forall c, In c l -> c = 0.
  Proof.
    induction l as [|d l IH]; intros H c Hc; [contradiction|]. cbn [qt] in H.
    assert (Hl : forall c, In c l -> c = 0) by (apply IH; intros; apply H; right; auto).
    destruct Hc as [<-|Hc]; auto. specialize (H _ (or_introl eq_refl)). cbn [peval] in H. rewrite (peval_zeros l a Hl) in H.
    rewrite <- H. ring.
  Qed.
  Lemma peval_div c l a x : peval (c :: l) x - peval (c :: l) a = (x - a) * peval (qt a l) x.
  Proof. rewrite <- qt_ok. cbn [peval]. ring. Qed.

  Theorem roots_zero l : forall xs, NoDup xs -> (length l <= length xs)%nat -> (forall x, In x xs -> peval l x = 0) -> forall c, In c l -> c = 0.
  Proof.
    remember (length l) as n eqn:Hn. revert l Hn. induction n as [|n IH]; intros l Hn xs N L R c Hc.
    - destruct l; [contradiction|discriminate].
    - destruct l as [|d l]; [discriminate|]. injection Hn as Hn. destruct xs as [|a xs]; [cbn in L; lia|].
      inversion N as [|? ? Ha N']; subst.
      assert (Hq : forall c, In c (qt a l) -> c = 0).
      { apply (IH (qt a l) ltac:(rewrite qt_length; auto) xs); auto; [cbn in L; lia|]. intros x Hx.
        assert (Hd : (x - a) * peval (qt a l) x = 0).
        { rewrite <- (peval_div d), !R by (cbn; auto). ring. }
        apply fmul_eq0 in Hd as [Hd|]; auto. apply fsub_eq0 in Hd. subst. contradiction. }
      pose proof (qt_zero a l Hq) as Hl. destruct Hc as [<-|Hc]; auto.
      pose proof (R a (or_introl eq_refl)) as Ra. cbn [peval] in Ra. rewrite (peval_zeros l a Hl) in Ra. rewrite <- Ra. ring.
  Qed.

  (** two polynomials of length <= n agreeing on n points agree everywhere *)
  Theorem agree_everywhere l l' xs : NoDup xs -> (length l <= length xs)%nat -> (length l' <= length xs)%nat ->
    (forall x, In x xs -> peval l x = peval l' x) -> forall x, peval l x = peval l' x.
  Proof.
    intros N L L' H x. pose (d := padd l (pscale (- (1)) l')).
    assert (D : peval d x = 0).
    { apply peval_zeros. apply (roots_zero d xs N).
      - unfold d. rewrite padd_length. unfold pscale. rewrite map_length. lia.
      - intros y Hy. unfold d. rewrite peval_padd, peval_pscale, H by auto. ring. }
    unfold d in D. rewrite peval_padd, peval_pscale in D. apply fsub_eq0. rewrite <- D. ring.
  Qed.
  (** ... and have the same coefficients if they have the same length *)
  Theorem agree_coeffs l l' xs : NoDup xs -> length l = length l' -> (length l <= length xs)%nat ->
    (forall x, In x xs -> peval l x = peval l' x) -> l = l'.
  Proof.
    intros N E L H.
    assert (Z0 : forall c, In c (padd l (pscale (- (1)) l')) -> c = 0).
    { apply (roots_zero _ xs N).
      - rewrite padd_length. unfold pscale. rewrite map_length. lia.
      - intros y Hy. rewrite peval_padd, peval_pscale, H by auto. ring. }
    clear -E Z0. revert l' E Z0. induction l as [|a l IH]; intros [|b l'] E Z0; try discriminate; auto.
    cbn [padd pscale map] in Z0. f_equal.
    - specialize (Z0 _ (or_introl eq_refl)). apply fsub_eq0. rewrite <- Z0. ring.
    - apply IH; [cbn in E; lia|]. intros c Hc. apply Z0. right. exact Hc.
  Qed.

  (** * Lagrange interpolation *)
  Definition others xs a : list K := filter (fun k => negb (feqb k a)) xs.
  Lemma others_in xs a k : In k (others xs a) <-> In k xs /\ k <> a.
  Proof. unfold others. rewrite filter_In, negb_true_iff, feqb_neq. tauto. Qed.
  Lemma others_length xs a : NoDup xs -> In a xs -> S (length (others xs a)) = length xs.
  Proof.
    induction 1 as [|b xs Hb N IH]; intros Hi; [contradiction|]. unfold others. cbn [filter].
    destruct (feqb b a) eqn:E; cbn [negb length].
    - apply feqb_eq in E. subst. f_equal. clear -Hb. induction xs as [|c xs IH]; auto. cbn [filter].
      assert (c <> a) by (intros ->; apply Hb; left; auto). rewrite (proj2 (feqb_neq K c a) H). cbn. f_equal. apply IH. intros Hx. apply Hb. right. auto.
    - apply feqb_neq in E. f_equal. apply IH. destruct Hi; congruence.
  Qed.
  Definition basis xs a : list K := fold_right plin [1] (others xs a).
  Lemma peval_basis xs a x : peval (basis xs a) x = fprod (map (fun k => k - x) (others xs a)).
  Proof.
    unfold basis. induction (others xs a) as [|k l IH]; cbn [fold_right map].
    - cbn [peval]. rewrite fprod_nil. ring.
    - rewrite peval_plin, fprod_cons, IH. auto.
  Qed.
  Lemma basis_length xs a : NoDup xs -> In a xs -> length (basis xs a) = length xs.
  Proof.
    intros N I. rewrite <- (others_length xs a N I). unfold basis. clear. induction (others xs a) as [|k l IH]; cbn [fold_right]; auto.
    rewrite plin_length, IH. auto.
  Qed.
  Definition den xs a : K := fprod (map (fun k => k - a) (others xs a)).
  Lemma den_neq0 xs a : den xs a <> 0.
  Proof.
    unfold den. apply fprod_neq0. intros y Hy. apply in_map_iff in Hy as (k & <- & Hk). apply others_in in Hk as [_ Hk].
    apply fsub_neq0. auto.
  Qed.
  Lemma basis_self xs a : peval (basis xs a) a = den xs a.
  Proof. apply peval_basis. Qed.
  Lemma basis_other xs a b : In b xs -> b <> a -> peval (basis xs a) b = 0.
  Proof.
    intros I N. rewrite peval_basis. apply fprod_eq0. apply in_map_iff. exists b. split; [ring|]. apply others_in. auto.
  Qed.
  (** the Lagrange coefficient of node a, at the point x *)
  Definition lag xs x a : K := fprod (map (fun k => k - x) (others xs a)) * finv (den xs a).
  (** the interpolant of (a, f a), a in xs *)
  Definition interp (f : K -> K) xs : list K := fold_right (fun a acc => padd (pscale (f a * finv (den xs a)) (basis xs a)) acc) [] xs.

  Lemma interp_eval_gen f xs ys x : peval (fold_right (fun a acc => padd (pscale (f a * finv (den xs a)) (basis xs a)) acc) [] ys) x
    = fsum (map (fun a => f a * lag xs x a) ys).
  Proof.
    induction ys as [|a ys IH]; cbn [fold_right map]; [rewrite fsum_nil; auto|].
    rewrite peval_padd, peval_pscale, IH, fsum_cons, peval_basis. unfold lag. ring.
  Qed.
  Lemma interp_eval f xs x : peval (interp f xs) x = fsum (map (fun a => f a * lag xs x a) xs).
  Proof. apply interp_eval_gen. Qed.
  Lemma interp_length f xs : NoDup xs -> (length (interp f xs) <= length xs)%nat.
  Proof.
    intros N. unfold interp.
    assert (G : forall ys, (forall a, In a ys -> In a xs) -> (length (fold_right (fun a acc => padd (pscale (f a * finv (den xs a))%fld (basis xs a)) acc) [] ys) <= length xs)%nat).
    { induction ys as [|a ys IH]; intros H; cbn [fold_right]; [cbn; lia|]. rewrite padd_length. unfold pscale at 1. rewrite map_length, basis_length; auto.
      - specialize (IH (fun b Hb => H b (or_intror Hb))). lia.
      - apply H. left. auto. }
    apply G. auto.
  Qed.
  Lemma lag_at xs a b : In b xs -> lag xs b a = if feqb a b then 1 else 0.
  Proof.
    intros I. unfold lag. rewrite <- peval_basis. destruct (feqb a b) eqn:E.
    - apply feqb_eq in E. subst. rewrite basis_self. field. apply den_neq0.
    - apply feqb_neq in E. rewrite basis_other by auto. ring.
  Qed.
  Lemma sum_delta (g : K -> K) xs b : NoDup xs -> In b xs -> fsum (map (fun a => g a * (if feqb a b then 1 else 0)) xs) = g b.
  Proof.
    induction 1 as [|a xs Ha N IH]; intros I; [contradiction|]. cbn [map]. rewrite fsum_cons. destruct (feqb a b) eqn:E.
    - apply feqb_eq in E. subst.
      assert (Z0 : fsum (map (fun a => g a * (if feqb a b then 1 else 0)) xs) = 0).
      { clear -Ha. induction xs as [|c xs IH]; auto. cbn [map]. rewrite fsum_cons, IH by (intros H; apply Ha; right; auto).
        assert (c <> b) by (intros ->; apply Ha; left; auto). rewrite (proj2 (feqb_neq K c b) H). ring. }
      rewrite Z0. ring.
    - apply feqb_neq in E. rewrite IH by (destruct I; congruence). ring.
  Qed.
  Lemma interp_node f xs b : NoDup xs -> In b xs -> peval (interp f xs) b = f b.
  Proof.
    intros N I. rewrite interp_eval. transitivity (fsum (map (fun a => f a * (if feqb a b then 1 else 0)) xs)).
    - f_equal. apply map_ext. intros a. rewrite lag_at; auto.
    - apply sum_delta; auto.
  Qed.
  (** Lagrange's formula *)
  Theorem lagrange l xs x : NoDup xs -> (length l <= length xs)%nat -> fsum (map (fun a => peval l a * lag xs x a) xs) = peval l x.
  Proof.
    intros N L. rewrite <- (interp_eval (peval l)). apply (agree_everywhere _ _ xs N (interp_length _ _ N) L).
    intros y Hy. apply interp_node; auto.
  Qed.

  Fixpoint pad (n : nat) l : list K := match n, l with O, _ => l | S n', [] => 0 :: pad n' [] | S n', a :: r => a :: pad n' r end.
  Lemma pad_length n : forall l, (length l <= n)%nat -> length (pad n l) = n.
  Proof. induction n as [|n IH]; intros [|a l] H; cbn in *; try lia; rewrite IH; cbn; lia. Qed.
  Lemma pad_eval n : forall l x, peval (pad n l) x = peval l x.
  Proof.
    induction n as [|n IH]; intros [|a l] x; cbn [pad peval]; auto; rewrite IH; auto. cbn [peval]. ring.
  Qed.
  (** exactly one polynomial with n coefficients passes through n given points with distinct abscissae *)
  Theorem interp_unique (f : K -> K) xs : NoDup xs ->
    exists! l, length l = length xs /\ forall a, In a xs -> peval l a = f a.
  Proof.
    intros N. exists (pad (length xs) (interp f xs)). split.
    - split; [apply pad_length, interp_length; auto|]. intros a Ha. rewrite pad_eval. apply interp_node; auto.
    - intros l [L H]. apply (agree_coeffs _ _ xs N).
      + rewrite pad_length by (apply interp_length; auto). auto.
      + rewrite pad_length by (apply interp_length; auto). auto.
      + intros a Ha. rewrite pad_eval, interp_node, H by auto. auto.
  Qed.
End Poly.
Arguments peval {_}. Arguments lag {_}. Arguments others {_}. Arguments padd {_}.
