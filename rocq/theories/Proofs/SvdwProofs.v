(** The SvdW map for Grumpkin is total; the algebra of the three candidates. *)
From Coq Require Import ZArith Znumtheory String List Bool Lia Ring Field.
From Verif.Base Require Import Fermat Primes Fld Fp Fq2 EC Curves Group Euler.
From Verif.Model Require Import Monad Evm Strings Points HashEvm HashGrumpkin.
From Verif.Spec Require Import Svdw.
Import ListNotations.
Open Scope Z_scope.

Section Generic.
  Variable K : Fld.
  Add Field KfV : (flaw K).
  Open Scope fld_scope.
  Lemma prod12 (b h s : K) : ((h - s) * (h - s) * (h - s) + b) * ((h + s) * (h + s) * (h + s) + b) =
    (h * h - s * s) * (h * h - s * s) * (h * h - s * s) + b * ((1 + 1) * (h * h * h) + (1 + 1) * (1 + 1 + 1) * h * (s * s)) + b * b.
  Proof. ring. Qed.
  (** the identity behind the map, t = u^2 g(z) *)
  Lemma svdw_field (z t gz : K) : (1 + 1 : K) <> 0 -> (1 + 1 + 1 : K) <> 0 -> z <> 0 -> gz <> 0 -> 1 + t <> 0 -> 1 - t <> 0 ->
    let b := gz - z * z * z in let h := - z / (1 + 1) in
    let S := - (gz * ((1 + 1 + 1) * (z * z))) * (t / gz) * ((1 - t) * (1 - t) / ((1 - t) * (1 + t) * ((1 - t) * (1 + t)))) in
    let k := (1 - t) / (1 + t) in let m := (1 + 1 + 1) * (z * z) * (k * k) / ((1 + 1) * (1 + 1)) in
    let x3 := z + (- ((1 + 1) * (1 + 1)) * gz / ((1 + 1 + 1) * (z * z))) / (k * k) in
    let g3 := x3 * x3 * x3 + b in
    ((h * h - S) * (h * h - S) * (h * h - S) + b * ((1 + 1) * (h * h * h) + (1 + 1) * (1 + 1 + 1) * h * S) + b * b) * g3 =
    (k / ((1 + 1) * gz) * m * g3) * (k / ((1 + 1) * gz) * m * g3) * - (gz * ((1 + 1 + 1) * (z * z))).
  Proof. intros. unfold g3, x3, m, k, S, h, b. field. repeat split; try first [assumption | intro E; apply H; etransitivity; [|exact E]; ring | intro E; apply H0; etransitivity; [|exact E]; ring | intro E; apply H3; etransitivity; [|exact E]; ring| intro E; apply H4; etransitivity; [|exact E]; ring ].
    - change ((1 + (1 + 1) : K) <> 0). intro E; apply H0. etransitivity; [|exact E]. ring.
    - change ((1 + 1 : K) * (1 + 1) <> 0). apply fmul_neq0; assumption.
  Qed.
  Lemma svdw_identity (z gz c3 c4 h u v : K) : (1 + 1 : K) <> 0 -> (1 + 1 + 1 : K) <> 0 -> z <> 0 -> gz <> 0 ->
    let t := u * u * gz in let b := gz - z * z * z in
    (1 - t) * (1 + t) * v = 1 -> c3 * c3 = - (gz * ((1 + 1 + 1) * (z * z))) -> c4 * ((1 + 1 + 1) * (z * z)) = - ((1 + 1) * (1 + 1)) * gz -> (1 + 1) * h = - z ->
    let x1 := h - u * (1 - t) * v * c3 in let x2 := h + u * (1 - t) * v * c3 in
    let x3 := z + c4 * (((1 + t) * (1 + t) * v) * ((1 + t) * (1 + t) * v)) in
    exists w, (x1 * x1 * x1 + b) * (x2 * x2 * x2 + b) * (x3 * x3 * x3 + b) = w * w.
  Proof.
    intros H2 H3 Hz Hgz t b Hv Hc3 Hc4 Hh x1 x2 x3.
    assert (Tp : 1 + t <> 0) by (intros E; rewrite E in Hv; apply (f1_neq_0 K); etransitivity; [symmetry; exact Hv|ring]).
    assert (Tm : 1 - t <> 0) by (intros E; rewrite E in Hv; apply (f1_neq_0 K); etransitivity; [symmetry; exact Hv|ring]).
    assert (Hzz : (1 + 1 + 1) * (z * z) <> 0) by (repeat apply fmul_neq0; assumption).
    assert (Ev : v = 1 / ((1 - t) * (1 + t))) by (transitivity ((1 - t) * (1 + t) * v / ((1 - t) * (1 + t))); [field; split; assumption|rewrite Hv; reflexivity]).
    assert (Ec4 : c4 = - ((1 + 1) * (1 + 1)) * gz / ((1 + 1 + 1) * (z * z))).
    { rewrite <- Hc4. generalize dependent ((1 + 1 + 1) * (z * z)). intros d _ _ Hd. field. exact Hd. }
    assert (Eh : h = - z / (1 + 1)) by (rewrite <- Hh; field; exact H2).
    pose (k := (1 - t) / (1 + t)). pose (m := (1 + 1 + 1) * (z * z) * (k * k) / ((1 + 1) * (1 + 1))).
    exists (c3 * (k / ((1 + 1) * gz) * m * (x3 * x3 * x3 + b))).
    transitivity ((k / ((1 + 1) * gz) * m * (x3 * x3 * x3 + b)) * (k / ((1 + 1) * gz) * m * (x3 * x3 * x3 + b)) * (c3 * c3)); [|ring].
    unfold x1, x2. rewrite prod12.
    assert (Eu : u * u = t / gz) by (unfold t; field; exact Hgz).
    assert (Es : u * (1 - t) * v * c3 * (u * (1 - t) * v * c3) = - (gz * ((1 + 1 + 1) * (z * z))) * (t / gz) * ((1 - t) * (1 - t) / ((1 - t) * (1 + t) * ((1 - t) * (1 + t))))).
    { transitivity ((c3 * c3) * (u * u) * ((1 - t) * (1 - t) * (v * v))); [ring|]. rewrite Hc3, Eu, Ev. f_equal. field. split; assumption. }
    rewrite Es, Hc3. clear Es.
    assert (E3 : x3 = z + (- ((1 + 1) * (1 + 1)) * gz / ((1 + 1 + 1) * (z * z))) / (k * k)).
    { unfold x3. rewrite <- Ec4. f_equal. rewrite Ev. unfold k. field. split; assumption. }
    rewrite E3, Eh. exact (svdw_field z t gz H2 H3 Hz Hgz Tp Tm).
  Qed.
  Definition sq (a : K) : Prop := exists y : K, y * y = a.
  Hypothesis sq_dec : forall a, {sq a} + {~ sq a}.
  Hypothesis nonsq_mul : forall a b, ~ sq a -> ~ sq b -> sq (a * b).
  Lemma svdw_some (z gz c3 c4 h u v : K) : (1 + 1 : K) <> 0 -> (1 + 1 + 1 : K) <> 0 -> z <> 0 -> gz <> 0 -> sq gz ->
    let t := u * u * gz in let b := gz - z * z * z in
    (v = 0 \/ (1 - t) * (1 + t) * v = 1) -> c3 * c3 = - (gz * ((1 + 1 + 1) * (z * z))) -> c4 * ((1 + 1 + 1) * (z * z)) = - ((1 + 1) * (1 + 1)) * gz -> (1 + 1) * h = - z ->
    let x1 := h - u * (1 - t) * v * c3 in let x2 := h + u * (1 - t) * v * c3 in
    let x3 := z + c4 * (((1 + t) * (1 + t) * v) * ((1 + t) * (1 + t) * v)) in
    ~ sq (x1 * x1 * x1 + b) -> ~ sq (x2 * x2 * x2 + b) -> sq (x3 * x3 * x3 + b).
  Proof.
    intros H2 H3 Hz Hgz Sgz t b Hv Hc3 Hc4 Hh x1 x2 x3 N1 N2. destruct Hv as [Hv|Hv].
    - destruct Sgz as [y Ey]. exists y. rewrite Ey. unfold x3, b. rewrite Hv. ring.
    - destruct (svdw_identity z gz c3 c4 h u v H2 H3 Hz Hgz Hv Hc3 Hc4 Hh) as [w Ew]. fold t b in Ew. cbv zeta in Ew. fold x1 x2 x3 in Ew.
      destruct (nonsq_mul _ _ N1 N2) as [y Ey]. assert (Ny : y <> 0).
      { intros ->. assert (Z0 : (x1 * x1 * x1 + b) * (x2 * x2 * x2 + b) = 0) by (rewrite <- Ey; ring). apply fmul_eq0 in Z0 as [Z0|Z0]; [apply N1|apply N2]; exists 0; rewrite Z0; ring. }
      exists (w / y). rewrite <- Ey in Ew. transitivity (w * w / (y * y)); [field; exact Ny|]. rewrite <- Ew. field. exact Ny.
  Qed.
End Generic.

Open Scope fld_scope.
Lemma fr_add a b : fr (a + b) = fr a + fr b. Proof. exact (of_Z_add r_mod a b). Qed.
Lemma fr_mul a b : fr (a * b) = fr a * fr b. Proof. exact (of_Z_mul r_mod a b). Qed.
Lemma fr_opp a : fr (- a) = - fr a. Proof. exact (of_Z_opp r_mod a). Qed.
Lemma fr_1 : fr 1 = f1. Proof. reflexivity. Qed.
Lemma fr_0 : fr 0 = f0. Proof. reflexivity. Qed.
Lemma fr_2 : fr 2 = f1 + f1. Proof. rewrite <- fr_1. exact (fr_add 1 1). Qed.
Lemma fr_3 : fr 3 = f1 + f1 + f1. Proof. rewrite <- fr_2, <- fr_1. exact (fr_add 2 1). Qed.
Lemma fr_4 : fr 4 = f1 + f1 + f1 + f1. Proof. rewrite <- fr_3, <- fr_1. exact (fr_add 3 1). Qed.
Lemma r_odd : Z.odd r_mod = true. Proof. reflexivity. Qed.
Lemma r_pos : (0 < r_mod)%Z. Proof. reflexivity. Qed.

Lemma sgn0_opp (a : Fr) : a <> f0 -> sgn0 (- a) = negb (sgn0 a).
Proof.
  intros N. unfold sgn0. pose proof (fval_range r_mod a r_pos) as R.
  assert (R0 : (fval (a : Fp r_mod) <> 0)%Z).
  { intros E. apply N. apply Fp_ext. rewrite E. reflexivity. }
  assert (E : fval ((- a : Fr) : Fp r_mod) = (r_mod - fval (a : Fp r_mod))%Z).
  { transitivity ((- fval (a : Fp r_mod)) mod r_mod)%Z; [reflexivity|]. symmetry. apply Z.mod_unique with (-1)%Z; [left; lia|ring]. }
  rewrite E, Z.odd_sub, r_odd. reflexivity.
Qed.
Lemma sgn0_0 : sgn0 f0 = false. Proof. reflexivity. Qed.

Lemma fr_square_dec (a : Fr) : {is_square a} + {~ is_square a}.
Proof. destruct (odd_square_dec r_mod r_prime r_odd a) as [H|H]; [left; exact H|right; intros [y E]; exact (H y E)]. Qed.
Lemma fr_nonsquares (a b : Fr) : ~ is_square a -> ~ is_square b -> is_square (a * b).
Proof.
  intros Na Nb. apply (odd_nonsquares_mul r_mod r_prime r_odd a b); intros y E; [apply Na|apply Nb]; exists y; exact E.
Qed.
Definition s3w : Z := 21888242871839275217838484774961031245711156914764510301779439637018554284970.
Definition s1w : Z := 21888242871839275217838484774961031246007050428528088939761107053157389710902.
Lemma fr_sq_by (w a k : Z) : (w * w = a + k * r_mod)%Z -> fr w * fr w = fr a.
Proof. intros E. rewrite <- fr_mul, E. apply of_Z_eq. apply Z_mod_plus_full. Qed.
Lemma s3w_ok : fr s3w * fr s3w = fr 3.
Proof. apply (fr_sq_by s3w 3 (s3w * s3w / r_mod)). vm_compute. reflexivity. Qed.
Lemma s1w_ok : fr s1w * fr s1w = fr (-1).
Proof. apply (fr_sq_by s1w (-1) (s1w * s1w / r_mod + 1)). vm_compute. reflexivity. Qed.

Section Generic2.
  Variable K : Fld.
  Add Field KfV2 : (flaw K).
  Lemma gx_eq (x b : K) : (x * x + f0) * x + b = x * x * x + b. Proof. ring. Qed.
  Lemma c1_eq (b : K) : (f1 * f1 + f0) * f1 + b = f1 + b. Proof. ring. Qed.
  Lemma tmp_eq (a b : K) : a * (f1 * f1) + b * f0 = a. Proof. ring. Qed.
  Lemma x3_eq (c4 z v : K) (t : K) : t * t * v * (t * t * v) * c4 + z = z + c4 * (t * t * v * (t * t * v)). Proof. ring. Qed.
  Lemma opp_opp_sq (s : K) : - s * - s = s * s. Proof. ring. Qed.
  Lemma inv_unique (a i j : K) : a * i = f1 -> a * j = f1 -> i = j.
  Proof. intros E F. transitivity (j * (a * i)); [transitivity ((a * j) * i); [rewrite F; ring|ring]|rewrite E; ring]. Qed.
  Lemma inv0_zero (a j : K) : a = f0 -> a * j = f1 -> False.
  Proof. intros -> E. apply (f1_neq_0 K). rewrite <- E. ring. Qed.
  Lemma mul_finv (a : K) : a <> f0 -> a * finv a = f1. Proof. intros. field. assumption. Qed.
  Lemma half_neg (h c : K) : (f1 + f1) * h = f1 -> (f1 + f1) * c = - f1 -> c = - h.
  Proof.
    intros E F. assert (N : (f1 + f1 : K) <> f0) by (intros N; exact (inv0_zero _ _ N E)).
    apply (fmul_cancel_l K (f1 + f1)); [exact N|]. rewrite F. transitivity (- ((f1 + f1) * h)); [rewrite E; reflexivity|ring].
  Qed.
  Lemma c4_eq (th i sf c : K) : th * i = f1 -> th * c = sf -> c = sf * i.
  Proof. intros E F. rewrite <- F. transitivity ((th * i) * c); [rewrite E; ring|ring]. Qed.
  Lemma mul_assoc4 (a b c d : K) : a * b * c * d = a * b * c * d. Proof. reflexivity. Qed.
  Lemma sq_mul4 (a b : K) : a * b * (a * b) = a * a * (b * b). Proof. ring. Qed.
  Lemma neg_mul (a b : K) : a * (- f1 * b) = - (a * b). Proof. ring. Qed.
  Lemma mul_comm4 (a b c d : K) : a * (c * d * b) = c * d * (a * b). Proof. ring. Qed.
  Lemma mul_inv_c (a c : K) : a <> f0 -> a * (c * finv a) = c. Proof. intros. field. assumption. Qed.
  Lemma opp_zero (a : K) : - a = f0 -> a = f0. Proof. intros E. transitivity (- - a); [ring|]. rewrite E. ring. Qed.
  Lemma b_of_gz (gz b : K) : gz = f1 + b -> gz - f1 * f1 * f1 = b. Proof. intros ->. ring. Qed.
  Lemma m11 (a : K) : a * (f1 * f1) = a. Proof. ring. Qed.
  Lemma neg_mul_l (a b : K) : - - a * b = - (- a * b). Proof. ring. Qed.
  Lemma mulC (a b : K) : a * b = b * a. Proof. ring. Qed.
  Lemma four_sq : (f1 + f1 + f1 + f1 : K) = (f1 + f1) * (f1 + f1). Proof. ring. Qed.
  Lemma opp_0 : - (f0 : K) = f0. Proof. ring. Qed.
  Lemma mul00 : (f0 : K) * f0 = f0. Proof. ring. Qed.
End Generic2.

Lemma fr_small (a : Z) : (0 < a < 1000)%Z -> fr a <> f0.
Proof.
  intros H E. apply (f_equal (fun x : Fr => fval (x : Fp r_mod))) in E. unfold fr in E. pose proof (fval_of_Z r_mod a) as X. rewrite X in E.
  change (fval ((f0 : Fr) : Fp r_mod)) with (0 mod r_mod)%Z in E. assert (1000 < r_mod)%Z by reflexivity. rewrite Zmod_0_l, Z.mod_small in E; lia.
Qed.
Lemma gz_eq : f1 + bk = - fr 16.
Proof. unfold bk. rewrite <- fr_1, <- fr_add, <- fr_opp. reflexivity. Qed.
Lemma bk_opp : bk = - fr 17. Proof. unfold bk. rewrite <- fr_opp. reflexivity. Qed.
Lemma gsub_eq (K : Fld) (a b : K) : a + - b = a - b.
Proof. pose proof (flaw K) as L. destruct L as [[_ _ _ _ _ _ _ S _] _ _ _]. symmetry. apply S. Qed.
Lemma curve_g_eq (x : Fr) : x * x * x + bk = curve_g x.
Proof. unfold curve_g. rewrite bk_opp. apply gsub_eq. Qed.

Lemma e48 : - - fr 16 * fr 3 = fr 48.
Proof. rewrite <- (fr_opp 16), <- (fr_opp (Z.opp 16)), <- fr_mul. f_equal. Qed.
Lemma s48 : is_square (fr 48).
Proof.
  exists (fr 4 * fr s3w). rewrite (sq_mul4 Fr), s3w_ok, <- !fr_mul. f_equal.
Qed.
Lemma two_inv : fr 2 * TWO_INV = f1.
Proof. unfold TWO_INV. rewrite <- fr_mul, <- fr_1. apply of_Z_eq. vm_compute. reflexivity. Qed.
Lemma c2_ok : fr 2 * (- f1 * TWO_INV) = - f1.
Proof. rewrite (neg_mul Fr), two_inv. reflexivity. Qed.
Lemma e64 : - fr 4 * - fr 16 = fr 64.
Proof. rewrite <- (fr_opp 4), <- (fr_opp 16), <- fr_mul. f_equal. Qed.
Lemma c4_ok : fr 3 <> f0 -> fr 3 * (- fr 4 * - fr 16 * finv (fr 3)) = fr 64.
Proof. intros N. rewrite e64. generalize (fr 64). intros c. exact (mul_inv_c Fr (fr 3) c N). Qed.
Lemma c3_ok (s : Fr) : s * s = fr 48 -> select s (- s) (is_odd s) * select s (- s) (is_odd s) = fr 48 /\ sgn0 (select s (- s) (is_odd s)) = false.
Proof.
  intros E. unfold select. destruct (is_odd s) eqn:O; [|split; [exact E|exact O]]. split; [rewrite (opp_opp_sq Fr); exact E|].
  rewrite sgn0_opp; [unfold sgn0; unfold is_odd in O; rewrite O; reflexivity|]. intros Z0. rewrite Z0 in O. vm_compute in O. discriminate O.
Qed.
Lemma n3 : fr 3 <> f0. Proof. apply fr_small. lia. Qed.
Lemma four_eq : f1 + f1 + f1 + f1 = fr 4. Proof. symmetry. exact fr_4. Qed.

(** the square-root implementation is any function that finds a root exactly when there is one *)
Section Map.
  Variable fr_sqrt : Fr -> option Fr.
  Hypothesis sqrt_some : forall a y, fr_sqrt a = Some y -> y * y = a.
  Hypothesis sqrt_none : forall a, fr_sqrt a = None -> ~ is_square a.

  Lemma sqrt_is_some a : is_some (fr_sqrt a) = true <-> is_square a.
  Proof.
    destruct (fr_sqrt a) as [y|] eqn:E; cbn [is_some]; split; intros H.
    - exists y. apply sqrt_some. exact E.
    - reflexivity.
    - discriminate.
    - destruct (sqrt_none a E H).
  Qed.
  Lemma sqrt_square a : is_square a -> exists y, fr_sqrt a = Some y /\ y * y = a.
  Proof.
    intros S. destruct (fr_sqrt a) as [y|] eqn:E; [exists y; split; [reflexivity|apply sqrt_some; exact E]|destruct (sqrt_none a E S)].
  Qed.

  Definition const_ok (c : Fr * Fr * Fr * Fr) : Prop :=
    let '(c1, c2, c3, c4) := c in c1 = - fr 16 /\ fr 2 * c2 = - f1 /\ c3 * c3 = fr 48 /\ sgn0 c3 = false /\ fr 3 * c4 = fr 64.
  Lemma const_raw z : svdw_precomputed_constants fr_sqrt z =
     bind (unwrap (fr_sqrt (- ((z * z + f0) * z + bk) * ((f1 + f1 + f1) * (z * z) + (f1 + f1 + f1 + f1) * f0)))) (fun s => bind (unwrap (fr_invert ((f1 + f1 + f1) * (z * z) + (f1 + f1 + f1 + f1) * f0))) (fun i => 
      Ok (((z * z + f0) * z + bk), - z * TWO_INV, select s (- s) (is_odd s), - (f1 + f1 + f1 + f1) * ((z * z + f0) * z + bk) * i))).
  Proof. reflexivity. Qed.
  Lemma arg_eq : - ((f1 * f1 + f0) * f1 + bk) * ((f1 + f1 + f1) * (f1 * f1) + (f1 + f1 + f1 + f1) * f0) = fr 48.
  Proof. rewrite (tmp_eq Fr), (c1_eq Fr), gz_eq, <- fr_3. exact e48. Qed.
  Lemma tmp_3 : (f1 + f1 + f1) * (f1 * f1) + (f1 + f1 + f1 + f1) * f0 = fr 3.
  Proof. rewrite (tmp_eq Fr). symmetry. exact fr_3. Qed.
  Lemma gz1 : (f1 * f1 + f0) * f1 + bk = - fr 16.
  Proof. rewrite (c1_eq Fr). exact gz_eq. Qed.
  Lemma inv3 : fr_invert (fr 3) = Some (finv (fr 3)).
  Proof. unfold fr_invert. destruct (feq_dec (fr 3) f0) as [E|N]; [destruct (n3 E)|reflexivity]. Qed.
  Lemma constants_ok : exists c, svdw_precomputed_constants fr_sqrt f1 = Ok c /\ const_ok c.
  Proof.
    rewrite const_raw, arg_eq, tmp_3, gz1, four_eq, inv3.
    destruct (sqrt_square _ s48) as (s & Es & Hs). rewrite Es. cbn [unwrap bind].
    destruct (c3_ok s Hs) as [A B]. 
    exact (ex_intro _ (_, _, _, _) (conj eq_refl (conj eq_refl (conj c2_ok (conj A (conj B (c4_ok n3))))))).
  Qed.

  Definition gG (x : Fr) : Fr := (x * x + f0) * x + bk.
  Lemma gG_eq x : gG x = curve_g x.
  Proof. unfold gG. rewrite (gx_eq Fr). apply curve_g_eq. Qed.
  Definition mkpt (x y : Fr) : option Gk :=
    match bool_dec (on_curve Fr bk (Aff Fr x y)) true with left H => Some (mkEC Fr bk (Aff Fr x y) H : Gk) | right _ => None end.
  Definition vv (u c1 : Fr) : Fr := unwrap_or (fr_invert ((f1 - u * u * c1) * (f1 + u * u * c1))) f0.
  Definition X1 (u c1 c2 c3 : Fr) : Fr := c2 - u * (f1 - u * u * c1) * vv u c1 * c3.
  Definition X2 (u c1 c2 c3 : Fr) : Fr := c2 + u * (f1 - u * u * c1) * vv u c1 * c3.
  Definition X3 (u c1 c4 z : Fr) : Fr := (f1 + u * u * c1) * (f1 + u * u * c1) * vv u c1 * ((f1 + u * u * c1) * (f1 + u * u * c1) * vv u c1) * c4 + z.
  Definition XX (u c1 c2 c3 c4 z : Fr) : Fr :=
    let e1 := is_some (fr_sqrt (gG (X1 u c1 c2 c3))) in
    select (select (X3 u c1 c4 z) (X1 u c1 c2 c3) e1) (X2 u c1 c2 c3) (is_some (fr_sqrt (gG (X2 u c1 c2 c3))) && negb e1).
  Lemma map_raw u c1 c2 c3 c4 z : svdw_map_to_curve fr_sqrt u c1 c2 c3 c4 z =
    bind (unwrap (fr_sqrt (gG (XX u c1 c2 c3 c4 z)))) (fun y => unwrap (mkpt (XX u c1 c2 c3 c4 z) (select (- y) y (eqb (is_odd u) (is_odd y))))).
  Proof. unfold svdw_map_to_curve, XX, X1, X2, X3, vv, gG, mkpt. cbv zeta. reflexivity. Qed.

  Lemma vv_inv0 u c1 : inv0_of ((f1 - u * u * c1) * (f1 + u * u * c1)) (vv u c1).
  Proof.
    unfold vv, fr_invert, inv0_of. destruct (feq_dec _ f0) as [E|N]; cbn [unwrap_or]; [left; split; [exact E|reflexivity]|right; apply (mul_finv Fr); exact N].
  Qed.
  Lemma inv0_unique (a i j : Fr) : inv0_of a i -> inv0_of a j -> i = j.
  Proof.
    unfold inv0_of. intros [[A ->]|A] [[B ->]|B].
    - reflexivity.
    - destruct (inv0_zero Fr _ _ A B).
    - destruct (inv0_zero Fr _ _ B A).
    - exact (inv_unique Fr _ _ _ A B).
  Qed.
  Lemma X_cases u c1 c2 c3 c4 z :
    (is_square (curve_g (X1 u c1 c2 c3)) /\ XX u c1 c2 c3 c4 z = X1 u c1 c2 c3) \/
    (~ is_square (curve_g (X1 u c1 c2 c3)) /\ is_square (curve_g (X2 u c1 c2 c3)) /\ XX u c1 c2 c3 c4 z = X2 u c1 c2 c3) \/
    (~ is_square (curve_g (X1 u c1 c2 c3)) /\ ~ is_square (curve_g (X2 u c1 c2 c3)) /\ XX u c1 c2 c3 c4 z = X3 u c1 c4 z).
  Proof.
    unfold XX. cbv zeta. rewrite !gG_eq. pose proof (sqrt_is_some (curve_g (X1 u c1 c2 c3))) as A. pose proof (sqrt_is_some (curve_g (X2 u c1 c2 c3))) as B.
    destruct (is_some (fr_sqrt (curve_g (X1 u c1 c2 c3)))), (is_some (fr_sqrt (curve_g (X2 u c1 c2 c3)))); cbn [negb andb select].
    - left. split; [apply A; reflexivity|reflexivity].
    - left. split; [apply A; reflexivity|reflexivity].
    - right; left. split; [intros S; apply A in S; discriminate|]. split; [apply B; reflexivity|reflexivity].
    - right; right. split; [intros S; apply A in S; discriminate|]. split; [intros S; apply B in S; discriminate|reflexivity].
  Qed.
  Lemma sq_16 : is_square (- fr 16).
  Proof. exists (fr 4 * fr s1w). rewrite (sq_mul4 Fr), s1w_ok, <- !fr_mul, <- fr_opp. f_equal. Qed.
  Lemma n16 : - fr 16 <> f0.
  Proof. intros E. apply (fr_small 16); [lia|]. exact (opp_zero Fr _ E). Qed.
  Lemma X3_square u c2 c3 c4 : fr 2 * c2 = - f1 -> c3 * c3 = fr 48 -> fr 3 * c4 = fr 64 ->
    ~ is_square (curve_g (X1 u (- fr 16) c2 c3)) -> ~ is_square (curve_g (X2 u (- fr 16) c2 c3)) -> is_square (curve_g (X3 u (- fr 16) c4 f1)).
  Proof.
    intros H2 H3 H4. rewrite <- !curve_g_eq. rewrite <- !(b_of_gz Fr (- fr 16) bk (eq_sym gz_eq)).
    unfold X3. rewrite (x3_eq Fr).
    refine (svdw_some Fr fr_nonsquares f1 (- fr 16) c3 c4 c2 u (vv u (- fr 16)) _ _ (f1_neq_0 Fr) n16 sq_16 _ _ _ _).
    - rewrite <- fr_2. apply fr_small. lia.
    - rewrite <- fr_3. apply fr_small. lia.
    - destruct (vv_inv0 u (- fr 16)) as [[_ E]|E]; [left; exact E|right; exact E].
    - rewrite H3, <- fr_3, (m11 Fr), <- e48. exact (neg_mul_l Fr (fr 16) (fr 3)).
    - rewrite <- fr_3, (m11 Fr), (mulC Fr), H4. rewrite <- e64. rewrite fr_4, (four_sq Fr). reflexivity.
    - rewrite <- fr_2. exact H2.
  Qed.

  Lemma XX_square u c2 c3 c4 : fr 2 * c2 = - f1 -> c3 * c3 = fr 48 -> fr 3 * c4 = fr 64 -> is_square (curve_g (XX u (- fr 16) c2 c3 c4 f1)).
  Proof.
    intros H2 H3 H4. destruct (X_cases u (- fr 16) c2 c3 c4 f1) as [(S & ->)|[(_ & S & ->)|(N1 & N2 & ->)]]; [exact S|exact S|].
    exact (X3_square u c2 c3 c4 H2 H3 H4 N1 N2).
  Qed.
  Lemma sign_ok (u y : Fr) : let y' := select (- y) y (eqb (is_odd u) (is_odd y)) in y' * y' = y * y /\ (y' = f0 \/ sgn0 y' = sgn0 u).
  Proof.
    cbv zeta. destruct (eqb (is_odd u) (is_odd y)) eqn:E; cbn [select].
    - split; [reflexivity|]. right. apply eqb_prop in E. symmetry. exact E.
    - split; [apply (opp_opp_sq Fr)|]. destruct (feq_dec y f0) as [->|N]; [left; apply (opp_0 Fr)|right].
      rewrite sgn0_opp by exact N. apply eqb_false_iff in E. assert (E' : sgn0 u <> sgn0 y) by exact E. clear E. destruct (sgn0 u), (sgn0 y); cbn [negb]; congruence.
  Qed.
  Lemma s3_unique (a b : Fr) : a * a = fr 48 -> sgn0 a = false -> b * b = fr 48 -> sgn0 b = false -> a = b.
  Proof.
    intros A SA B SB. rewrite <- B in A. apply (fsq_eq Fr) in A as [A|A]; [exact A|].
    assert (N : b <> f0). { intros ->. apply (fr_small 48); [lia|]. rewrite <- B. exact (mul00 Fr). }
    rewrite A, sgn0_opp in SA by exact N. rewrite SB in SA. discriminate SA.
  Qed.
  Lemma mkpt_some (x y : Fr) : y * y = curve_g x -> exists P, mkpt x y = Some P /\ EC.pt Fr bk P = Aff Fr x y.
  Proof.
    intros H. unfold mkpt. destruct (bool_dec (on_curve Fr bk (Aff Fr x y)) true) as [H'|N]; [eexists; split; reflexivity|].
    destruct N. apply (on_aff Fr bk x y). rewrite curve_g_eq. exact H.
  Qed.
  Lemma map_point u c2 c3 c4 y : fr 2 * c2 = - f1 -> c3 * c3 = fr 48 -> sgn0 c3 = false -> fr 3 * c4 = fr 64 ->
    let x := XX u (- fr 16) c2 c3 c4 f1 in y * y = curve_g x -> (y = f0 \/ sgn0 y = sgn0 u) -> svdw_point u x y.
  Proof.
    intros H2 H3 S3 H4 x Hy Hs s3 i4 half E3 Es E4 Eh tv3 tv1 Hinv x1 x2 x3.
    assert (Q3 : s3 = c3) by exact (s3_unique s3 c3 E3 Es H3 S3).
    assert (Qv : tv3 = vv u (- fr 16)) by exact (inv0_unique _ _ _ Hinv (vv_inv0 u (- fr 16))).
    assert (Q2 : c2 = - half). { rewrite fr_2 in H2, Eh. exact (half_neg Fr half c2 Eh H2). }
    assert (Q4 : c4 = fr 64 * i4) by exact (c4_eq Fr _ _ _ _ E4 H4).
    assert (R1 : x1 = X1 u (- fr 16) c2 c3). { unfold x1, X1, tv1. rewrite Q3, Qv, Q2. reflexivity. }
    assert (R2 : x2 = X2 u (- fr 16) c2 c3). { unfold x2, X2, tv1. rewrite Q3, Qv, Q2. reflexivity. }
    assert (R3 : x3 = X3 u (- fr 16) c4 f1). { unfold x3, X3, tv1. rewrite (x3_eq Fr), Qv, Q4. reflexivity. }
    rewrite R1, R2, R3. pose proof (X_cases u (- fr 16) c2 c3 c4 f1) as C. fold x in C.
    destruct C as [(S & E)|[(N & S & E)|(N & N2 & E)]].
    - split; [intros _; exact E|]. split; [intros N; destruct (N S)|]. split; [intros N; destruct (N S)|]. split; [exact Hy|exact Hs].
    - split; [intros S'; destruct (N S')|]. split; [intros _ _; exact E|]. split; [intros _ N'; destruct (N' S)|]. split; [exact Hy|exact Hs].
    - split; [intros S'; destruct (N S')|]. split; [intros _ S'; destruct (N2 S')|]. split; [intros _ _; exact E|]. split; [exact Hy|exact Hs].
  Qed.
  Lemma map_ok u c : const_ok c -> exists P x y, (let '(c1, c2, c3, c4) := c in svdw_map_to_curve fr_sqrt u c1 c2 c3 c4 f1) = Ok P /\ EC.pt Fr bk P = Aff Fr x y /\ svdw_point u x y.
  Proof.
    destruct c as (((c1, c2), c3), c4). intros (-> & H2 & H3 & S3 & H4). rewrite map_raw, gG_eq.
    destruct (sqrt_square _ (XX_square u c2 c3 c4 H2 H3 H4)) as (y & Ey & Hy). rewrite Ey. cbn [unwrap bind].
    destruct (sign_ok u y) as [A B]. destruct (mkpt_some (XX u (- fr 16) c2 c3 c4 f1) (select (- y) y (eqb (is_odd u) (is_odd y)))) as (P & EP & HP); [rewrite A; exact Hy|].
    rewrite EP. cbn [unwrap]. exists P, (XX u (- fr 16) c2 c3 c4 f1), (select (- y) y (eqb (is_odd u) (is_odd y))). split; [reflexivity|]. split; [exact HP|].
    apply map_point; [exact H2|exact H3|exact S3|exact H4|rewrite A; exact Hy|exact B].
  Qed.
End Map.

Lemma root_unique (u y y' : Fr) : y * y = y' * y' -> (y = f0 \/ sgn0 y = sgn0 u) -> (y' = f0 \/ sgn0 y' = sgn0 u) -> y = y'.
Proof.
  intros E A B. apply (fsq_eq Fr) in E as [E|E]; [exact E|]. destruct (feq_dec y' f0) as [Z0|N].
  - rewrite E, Z0. exact (opp_0 Fr).
  - destruct B as [B|B]; [destruct (N B)|]. destruct A as [A|A]; [destruct N; apply (opp_zero Fr); rewrite <- E; exact A|].
    rewrite E, sgn0_opp, B in A by exact N. destruct (sgn0 u); discriminate A.
Qed.
Lemma inv0_exists (a : Fr) : exists i, inv0_of a i.
Proof.
  unfold inv0_of. destruct (feq_dec a f0) as [E|N]; [exists f0; left; split; [exact E|reflexivity]|]. exists (finv a). right. exact (mul_finv Fr a N).
Qed.
(** the constants of the map exist *)
Lemma svdw_constants_exist : exists s3 i4 half : Fr, s3 * s3 = fr 48 /\ sgn0 s3 = false /\ fr 3 * i4 = f1 /\ fr 2 * half = f1.
Proof.
  destruct s48 as [s Es]. destruct (c3_ok s Es) as [A B]. exists (select s (- s) (is_odd s)), (finv (fr 3)), TWO_INV.
  split; [exact A|]. split; [exact B|]. split; [exact (mul_finv Fr (fr 3) n3)|exact two_inv].
Qed.
Lemma svdw_point_unique u x y x' y' : svdw_point u x y -> svdw_point u x' y' -> x = x' /\ y = y'.
Proof.
  intros P Q. destruct svdw_constants_exist as (s3 & i4 & half & E3 & Es & E4 & Eh).
  destruct (inv0_exists ((f1 - u * u * - fr 16) * (f1 + u * u * - fr 16))) as [tv3 Hi].
  destruct (P s3 i4 half E3 Es E4 Eh tv3 Hi) as (P1 & P2 & P3 & Py & Ps). destruct (Q s3 i4 half E3 Es E4 Eh tv3 Hi) as (Q1 & Q2 & Q3 & Qy & Qs).
  clear P Q E3 Es E4 Eh Hi.
  match type of P1 with is_square (curve_g ?a) -> _ => destruct (fr_square_dec (curve_g a)) as [S1|N1] end.
  - assert (E : x = x') by (transitivity (- half - u * (f1 - u * u * - fr 16) * tv3 * s3); [exact (P1 S1)|symmetry; exact (Q1 S1)]).
    split; [exact E|]. clear - E Py Qy Ps Qs. rewrite <- E, <- Py in Qy. exact (root_unique u y y' (eq_sym Qy) Ps Qs).
  - match type of P2 with _ -> is_square (curve_g ?a) -> _ => destruct (fr_square_dec (curve_g a)) as [S2|N2] end.
    + assert (E : x = x') by (transitivity (- half + u * (f1 - u * u * - fr 16) * tv3 * s3); [exact (P2 N1 S2)|symmetry; exact (Q2 N1 S2)]).
      split; [exact E|]. clear - E Py Qy Ps Qs. rewrite <- E, <- Py in Qy. exact (root_unique u y y' (eq_sym Qy) Ps Qs).
    + pose proof (P3 N1 N2) as A. pose proof (Q3 N1 N2) as B. rewrite <- B in A. split; [exact A|]. clear - A Py Qy Ps Qs. rewrite <- A, <- Py in Qy. exact (root_unique u y y' (eq_sym Qy) Ps Qs).
Qed.
