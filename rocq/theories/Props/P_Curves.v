(** C51: the groups. *)
From Coq Require Import ZArith List Znumtheory Lia.
From Verif.Base Require Import Fld Fp EC Primes Curves Group.
From Verif.Model Require Import Points.
Import ListNotations.
Open Scope Z_scope.

(** addition is commutative, associative, has a neutral element and inverses, in all three groups *)
Definition is_group {A} (add : A -> A -> A) (zero : A) (opp : A -> A) : Prop :=
  (forall x y z, add (add x y) z = add x (add y z)) /\ (forall x y, add x y = add y x) /\
  (forall x, add zero x = x) /\ (forall x, add (opp x) x = zero).
Lemma grp_is_group (G : Grp) : is_group (@gadd G) g0 gopp.
Proof. split; [intros; apply gassoc|]. split; [apply gcomm|]. split; [apply g0_l|apply gopp_l]. Qed.
Theorem C51_groups : is_group (@gadd G1) g0 gopp /\ is_group (@gadd Gk) g0 gopp /\ is_group (@gadd G2c) g0 gopp.
Proof. split; [|split]; apply grp_is_group. Qed.

(** the chord-tangent law on affine coordinates is what the group operation is: adding two affine points with different x *)
Theorem C51_chord (x1 y1 x2 y2 : Fq) H1 H2 : x1 <> x2 ->
  let l := ((y2 - y1) / (x2 - x1))%fld in let x3 := (l * l - x1 - x2)%fld in
  xy (gadd (mkEC Fq b1 (Aff Fq x1 y1) H1 : G1) (mkEC Fq b1 (Aff Fq x2 y2) H2 : G1)) = (x3, (l * (x1 - x3) - y1)%fld).
Proof.
  intros N l x3. unfold xy. change (EC.pt Fq b1 _) with (radd Fq (Aff Fq x1 y1) (Aff Fq x2 y2)).
  unfold radd. destruct (feq_dec x1 x2) as [E|E]; [contradiction|]. reflexivity.
Qed.

(** BN254 G1: prime order r, generated by (1,2) *)
Theorem C51_G1_prime_cyclic : prime r_mod /\ g1 <> g0 /\ (forall P : G1, zmul r_mod P = g0) /\ forall P : G1, exists k, 0 <= k < r_mod /\ P = zmul k g1.
Proof. split; [exact r_prime|]. split; [exact g1_neq0|]. split; [exact G1_exponent|exact G1_cyclic]. Qed.
(** Grumpkin: prime order q *)
Theorem C51_Grumpkin_prime_cyclic : prime q_mod /\ gk <> g0 /\ (forall P : Gk, zmul q_mod P = g0) /\ forall P : Gk, exists k, 0 <= k < q_mod /\ P = zmul k gk.
Proof. split; [exact q_prime|]. split; [exact gk_neq0|]. split; [exact Gk_exponent|exact Gk_cyclic]. Qed.
(** distinct scalars give distinct multiples of the generators *)
Lemma zmul_gcd (G : Grp) (p : Z) (P : G) a : prime p -> zmul p P = g0 -> P <> g0 -> zmul a P = g0 -> (p | a).
Proof.
  intros Hp Ho N E. destruct (Zdivide_dec p a) as [D|D]; auto. exfalso. apply N.
  assert (R : rel_prime p a) by (apply prime_rel_prime; auto).
  destruct (rel_prime_bezout _ _ R) as [u v B]. rewrite <- (zmul_1 G P), <- B, zmul_add.
  assert (U : zmul (u * p) P = g0) by (rewrite zmul_mul, Ho; apply zmul_g0).
  assert (V : zmul (v * a) P = g0) by (rewrite zmul_mul, E; apply zmul_g0).
  rewrite U, V. apply g0_l.
Qed.
Lemma multiples_inj (G : Grp) (p : Z) (P : G) a b : prime p -> zmul p P = g0 -> P <> g0 -> 0 <= a < p -> 0 <= b < p -> zmul a P = zmul b P -> a = b.
Proof.
  intros Hp Ho N Ha Hb E. assert (D : (p | a - b)).
  { apply (zmul_gcd G p P); auto. rewrite zmul_sub, E. apply gopp_r. }
  destruct D as [k D]. assert (k = 0) by nia. lia.
Qed.
Theorem C51_multiples_distinct a b :
  (0 <= a < r_mod -> 0 <= b < r_mod -> zmul a g1 = zmul b g1 -> a = b) /\
  (0 <= a < q_mod -> 0 <= b < q_mod -> zmul a gk = zmul b gk -> a = b) /\
  (0 <= a < r_mod -> 0 <= b < r_mod -> zmul a g2 = zmul b g2 -> a = b).
Proof.
  split; [|split].
  - exact (multiples_inj G1 r_mod g1 a b r_prime g1_order g1_neq0).
  - exact (multiples_inj Gk q_mod gk a b q_prime gk_order gk_neq0).
  - exact (multiples_inj G2c r_mod g2 a b r_prime g2_order g2_neq0).
Qed.
(** every accepted pair of coordinates is the identity or a multiple of the generator *)
Theorem C51_accepted_points (x y : Fq) : (exists P, g1_from_xy x y = Some P) <-> (x = f0 /\ y = f0) \/ (y * y = x * x * x + fq 3)%fld.
Proof.
  unfold g1_from_xy, from_xy. destruct (feqb x f0) eqn:Ex, (feqb y f0) eqn:Ey; cbn [andb].
  1: { apply feqb_eq in Ex, Ey. split; eauto. }
  all: destruct (Bool.bool_dec (on_curve Fq b1 (Aff Fq x y)) true) as [H|H].
  all: try (split; [intros _; right; exact (proj1 (on_aff Fq b1 x y) H)|eauto]).
  all: split; [intros [P X]; discriminate X|intros [[A B]|A]]; [|exfalso; apply H; exact (proj2 (on_aff Fq b1 x y) A)].
  all: exfalso; subst; rewrite feqb_refl in *; congruence.
Qed.
Example C51_meets : g1_from_xy (fq 1) (fq 2) = Some g1.
Proof. destruct (proj2 (C51_accepted_points (fq 1) (fq 2))) as [P E]; [right; apply Fp_ext; vm_compute; reflexivity|].
  rewrite E. f_equal. unfold g1_from_xy, from_xy in E.
  assert (N : feqb (fq 1 : Fq) f0 = false) by (apply feqb_neq; intros X; apply of_Z_inj_mod in X; discriminate X).
  rewrite N in E. cbn [andb] in E. destruct (Bool.bool_dec _ _) as [H|H]; [|discriminate E].
  assert (P = mkEC Fq b1 (Aff Fq (fq 1) (fq 2)) H) by congruence. subst P. apply EC_ext. reflexivity.
Qed.
Print Assumptions C51_groups.
Print Assumptions C51_G1_prime_cyclic.
Print Assumptions C51_Grumpkin_prime_cyclic.
Print Assumptions C51_multiples_distinct.
Print Assumptions C51_accepted_points.
