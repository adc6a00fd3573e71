(** The EVM-friendly hash to curve never fails. *)
From Coq Require Import ZArith List Lia Bool Ring Field.
From Verif.Base Require Import Fermat Primes Fld Fp EC Curves Group Sqrt.
From Verif.Model Require Import Monad Evm Points HashEvm.
From Verif.Proofs Require Import FTMap.
Import ListNotations.
Open Scope Z_scope.
Open Scope fld_scope.

Lemma q4 : (q_mod mod 4 = 3)%Z. Proof. reflexivity. Qed.
Lemma fq3 : fq 3 = 1 + (1 + 1) :> Fq. Proof. apply Fp_ext. vm_compute. reflexivity. Qed.
Lemma fq4 : fq 4 = (1 + 1) * (1 + 1) :> Fq. Proof. apply Fp_ext. vm_compute. reflexivity. Qed.
Lemma C2_sq : fq C2 * fq C2 = - (1 + (1 + 1)) :> Fq. Proof. apply Fp_ext. vm_compute. reflexivity. Qed.
Lemma C1_C2 : fq C1 + fq C1 + 1 = fq C2 :> Fq. Proof. apply Fp_ext. vm_compute. reflexivity. Qed.
Lemma C3_inv : (1 + (1 + 1)) * fq C3 = 1 :> Fq. Proof. apply Fp_ext. vm_compute. reflexivity. Qed.
Lemma m1_eq : fq MINUS_ONE = - (1) :> Fq. Proof. apply Fp_ext. vm_compute. reflexivity. Qed.
Lemma b1_eq : b1 = fq 3. Proof. reflexivity. Qed.

Lemma sq_plus4 (t : Fq) : t * t + (1 + 1) * (1 + 1) <> 0.
Proof. intros E. exact (minus1_nonsquare q_mod q_prime q4 (t / (1 + 1)) (plus4 Fq t two_q E)). Qed.

Lemma sqrt_some (a y : Fq) : fq_sqrt a = Some y -> y * y = a.
Proof. unfold fq_sqrt. destruct (feq_dec _ a) as [E|]; [|discriminate]. intros H. injection H as <-. exact E. Qed.
Lemma sqrt_none (a : Fq) : fq_sqrt a = None -> forall y : Fq, y * y <> a.
Proof.
  unfold fq_sqrt. destruct (feq_dec _ a) as [|N]; [discriminate|]. intros _ y E. apply N.
  apply (root_spec q_mod q_prime q4). exists y. exact E.
Qed.
Lemma sqrt_of_square (a : Fq) : (exists y : Fq, y * y = a) -> exists y, fq_sqrt a = Some y.
Proof. intros [y E]. destruct (fq_sqrt a) eqn:S; eauto. exfalso. exact (sqrt_none a S y E). Qed.

Lemma sign_sq t : sign t * sign t = 1.
Proof. unfold sign. destruct (_ <=? _)%Z; [apply one_sq|]. rewrite m1_eq. apply m1_sq. Qed.

(** the three candidate abscissas *)
Definition alpha_ (t : Fq) : Fq := unwrap_or (fq_invert (t * t * (t * t + fq 4))) f0.
Definition x1_ (t : Fq) : Fq := fq C1 - fq C2 * (t * t * (t * t)) * alpha_ t.
Definition x2_ (t : Fq) : Fq := - (x1_ t + 1).
Definition x3_ (t : Fq) : Fq := 1 - (t * t + fq 4) * ((t * t + fq 4) * (t * t + fq 4)) * alpha_ t * fq C3.
Definition g_ (x : Fq) : Fq := x * x * x + fq 3.

Lemma alpha_0 : alpha_ 0 = 0.
Proof.
  unfold alpha_, fq_invert. assert (E : (0 : Fq) * 0 * (0 * 0 + fq 4) = 0) by (rewrite !mul_zero_l; reflexivity). rewrite E.
  destruct (feq_dec _ _) as [_|N]; [reflexivity|contradiction N; reflexivity].
Qed.
Lemma alpha_nz t : t <> 0 -> alpha_ t = finv (t * t * (t * t + fq 4)).
Proof.
  intros N. unfold alpha_, fq_invert. destruct (feq_dec _ _) as [E|_]; [|reflexivity]. exfalso.
  rewrite fq4 in E. apply fmul_eq0 in E as [E|E]; [apply fmul_eq0 in E as [E|E]; contradiction|exact (sq_plus4 t E)].
Qed.
Lemma c1_cube : fq C1 * fq C1 * fq C1 = 1 :> Fq.
Proof. exact (cube1 Fq (fq C1) (c1_root Fq (fq C2) (fq C1) two_q C2_sq C1_C2)). Qed.
Lemma x3_eq t : t <> 0 -> x3_ t = 1 - (t * t + (1 + 1) * (1 + 1)) * (t * t + (1 + 1) * (1 + 1)) / ((1 + (1 + 1)) * (t * t)).
Proof.
  intros N. unfold x3_. rewrite alpha_nz, fq4 by auto.
  exact (x3_id Fq t _ _ (fq C3) N (sq_plus4 t) three_q (inv_unique Fq _ _ C3_inv)).
Qed.
Lemma x1_eq t : t <> 0 -> x1_ t = fq C1 - fq C2 * (t * t / (t * t + (1 + 1) * (1 + 1))).
Proof. intros N. unfold x1_. rewrite alpha_nz, fq4 by auto. exact (x1_id Fq t _ _ _ N (sq_plus4 t)). Qed.

(** one of the three candidates is the abscissa of a point *)
Theorem some_square t : (exists y : Fq, y * y = g_ (x1_ t)) \/ (exists y : Fq, y * y = g_ (x2_ t)) \/ (exists y : Fq, y * y = g_ (x3_ t)).
Proof.
  destruct (feq_dec t 0) as [->|N].
  - left. exists (1 + 1). unfold g_, x1_. rewrite alpha_0, fq3.
    exact (x1_0 Fq _ _ _ c1_cube).
  - destruct (square_dec q_mod q_prime q4 (g_ (x1_ t))) as [S|N1]; [left; exact S|].
    destruct (square_dec q_mod q_prime q4 (g_ (x2_ t))) as [S|N2]; [right; left; exact S|]. right; right.
    destruct (nonsquares_mul q_mod q_prime q4 _ _ N1 N2) as [y Ey0].
    pose proof (product_square Fq (fq C2) (fq C1) t two_q three_q C2_sq C1_C2 N (sq_plus4 t)) as [h Eh].
    change (Fq : Type) in y. assert (Ey : (y : Fq) * y = g_ (x1_ t) * g_ (x2_ t)) by exact Ey0. clear Ey0.
    rewrite <- (x1_eq t N), <- (x3_eq t N) in Eh.
    assert (EG : forall x : Fq, FTMap.g Fq x = g_ x) by (intros x; unfold g_; rewrite fq3; reflexivity). change (- (x1_ t + 1)) with (x2_ t) in Eh. rewrite (EG (x1_ t)), (EG (x2_ t)), (EG (x3_ t)), <- Ey in Eh.
    assert (Ny : y <> 0).
    { intros ->. assert (Z : g_ (x1_ t) * g_ (x2_ t) = 0) by (rewrite <- Ey; apply mul_zero_l).
      apply fmul_eq0 in Z as [Z|Z]; [apply (N1 0)|apply (N2 0)]; rewrite Z; apply mul_zero_l. }
    exists (h / y). exact (quot_sq Fq h y _ Ny Eh).
Qed.

(** what the map returns: the first candidate that is an abscissa, with the root multiplied by the sign of t *)
Definition pick (t : Fq) : option (Fq * Fq) :=
  match fq_sqrt (g_ (x1_ t)) with
  | Some y => Some (x1_ t, y)
  | None => match fq_sqrt (g_ (x2_ t)) with
            | Some y => Some (x2_ t, y)
            | None => match fq_sqrt (g_ (x3_ t)) with Some y => Some (x3_ t, y) | None => None end
            end
  end.
Lemma pick_total t : exists x y, pick t = Some (x, y).
Proof.
  unfold pick. destruct (some_square t) as [S|[S|S]]; apply sqrt_of_square in S as [y S].
  - rewrite S. eauto.
  - destruct (fq_sqrt (g_ (x1_ t))); rewrite ?S; eauto.
  - destruct (fq_sqrt (g_ (x1_ t))); eauto. destruct (fq_sqrt (g_ (x2_ t))); rewrite ?S; eauto.
Qed.
Lemma pick_on t x y : pick t = Some (x, y) -> y * y = g_ x.
Proof.
  unfold pick. destruct (fq_sqrt (g_ (x1_ t))) eqn:S1; [|destruct (fq_sqrt (g_ (x2_ t))) eqn:S2; [|destruct (fq_sqrt (g_ (x3_ t))) eqn:S3; [|discriminate]]];
    intros H; injection H as <- <-; eauto using sqrt_some.
Qed.

Lemma map_pick t x y : pick t = Some (x, y) ->
  map_to_curve_evm t = unwrap (match bool_dec (on_curve Fq b1 (Aff Fq x (y * sign t))) true with
                               | left H => Some (mkEC Fq b1 (Aff Fq x (y * sign t)) H : G1) | right _ => None end).
Proof.
  unfold pick, map_to_curve_evm. cbv zeta. fold (alpha_ t). fold (x1_ t). fold (x2_ t). fold (x3_ t).
  fold (g_ (x1_ t)). fold (g_ (x2_ t)). fold (g_ (x3_ t)).
  destruct (fq_sqrt (g_ (x1_ t))) as [y1|] eqn:S1; [|destruct (fq_sqrt (g_ (x2_ t))) as [y2|] eqn:S2; [|destruct (fq_sqrt (g_ (x3_ t))) as [y3|] eqn:S3; [|discriminate]]];
    intros H; injection H as <- <-; reflexivity.
Qed.
Theorem map_to_curve_ok t : exists x y H, pick t = Some (x, y) /\ map_to_curve_evm t = Ok (mkEC Fq b1 (Aff Fq x (y * sign t)) H : G1).
Proof.
  destruct (pick_total t) as (x & y & P). pose proof (pick_on t x y P) as O. rewrite (map_pick t x y P).
  assert (C : on_curve Fq b1 (Aff Fq x (y * sign t)) = true).
  { apply on_aff. exact (scaled_root Fq y _ _ (sign_sq t) O). }
  exists x, y. destruct (bool_dec (on_curve Fq b1 (Aff Fq x (y * sign t))) true) as [H|N]; [|contradiction N].
  exists H. split; auto.
Qed.

Theorem hash_to_curve_ok keccak domain msg : exists P, hash_to_curve_evm keccak domain msg = Ok P.
Proof.
  unfold hash_to_curve_evm. cbv zeta.
  destruct (map_to_curve_ok (fst (hash_to_field_evm keccak domain msg))) as (x & y & H & _ & ->).
  destruct (map_to_curve_ok (snd (hash_to_field_evm keccak domain msg))) as (x' & y' & H' & _ & ->).
  cbn [bind]. eauto.
Qed.
