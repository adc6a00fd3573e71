(** Hash.sol computes the same point as hash_to_curve_evm.rs. *)
From Coq Require Import ZArith NArith String List Lia Bool Ring Field.
From Verif.Base Require Import Fermat Primes Fld Fp EC Curves Group Sqrt.
From Verif.Model Require Import Monad Evm Points ModExp HashEvm PairingSol HashSol.
From Verif.Proofs Require Import FTMap HashProofs ModExpProofs.
Import ListNotations.
Open Scope string_scope.
Open Scope list_scope.
Open Scope Z_scope.

Definition v (a : Fq) : Z := fval (a : Fp q_mod).
Lemma HQ_eq : HQ = q_mod. Proof. reflexivity. Qed.
Lemma v_range a : 0 <= v a < q_mod. Proof. exact (fval_range q_mod a eq_refl). Qed.
Lemma v_fq z : v (fq z) = z mod q_mod. Proof. reflexivity. Qed.
Lemma fq_v a : fq (v a) = a. Proof. exact (of_Z_fval q_mod a). Qed.
Lemma v_inj a b : v a = v b -> a = b. Proof. intros H. exact (Fp_ext q_mod a b H). Qed.
Lemma vmul a b : mulmod (v a) (v b) HQ = v (a * b)%fld. Proof. rewrite HQ_eq. reflexivity. Qed.
Lemma vadd a b : addmod (v a) (v b) HQ = v (a + b)%fld. Proof. rewrite HQ_eq. reflexivity. Qed.
Lemma vsmall z : (0 <=? z) && (z <? q_mod) = true -> z = v (fq z).
Proof. intros H. apply andb_prop in H as [A B]. apply Z.leb_le in A. apply Z.ltb_lt in B. rewrite v_fq, Z.mod_small; auto. Qed.
Lemma vsub_ok a : sub256 HQ (v a) = Ok (q_mod - v a).
Proof.
  unfold sub256, chk. rewrite HQ_eq. pose proof (v_range a). assert (q_mod < M256) by reflexivity.
  destruct (Z.leb_spec 0 (q_mod - v a)), (Z.ltb_spec (q_mod - v a) M256); cbn [andb]; auto; lia.
Qed.
Lemma v_opp a : a <> f0 -> q_mod - v a = v (- a)%fld.
Proof.
  intros N. change (v (- a)%fld) with (Z.modulo (- v a) q_mod). pose proof (v_range a).
  assert (v a <> 0) by (intros E; apply N; apply v_inj; rewrite E; reflexivity).
  rewrite Z.mod_opp_l_nz; rewrite ?(Z.mod_small (v a)); auto; lia.
Qed.
Lemma v_subl c a : addmod (v c) (q_mod - v a) HQ = v (c - a)%fld.
Proof.
  unfold addmod. rewrite HQ_eq. change (v (c - a)%fld) with (Z.modulo (v c - v a) q_mod).
  replace (v c + (q_mod - v a)) with (v c - v a + 1 * q_mod) by lia. apply Z.mod_add. discriminate.
Qed.
Lemma v_subr c a : addmod (q_mod - v a) (v c) HQ = v (c - a)%fld.
Proof. rewrite <- v_subl. unfold addmod. f_equal. lia. Qed.

Lemma no_zero_y (x y : Fq) : (y * y = g_ x)%fld -> y <> f0.
Proof.
  intros E ->. assert (C : on_curve Fq b1 (Aff Fq x f0) = true) by (apply on_aff; exact E).
  pose (P := mkEC Fq b1 (Aff Fq x f0) C : G1). assert (X : P = g0).
  { apply G1_no_torsion. apply EC_ext. change (radd Fq (Aff Fq x f0) (Aff Fq x f0) = Inf Fq). unfold radd.
    destruct (feq_dec x x) as [_|N]; [|congruence]. destruct (feq_dec (f0 + f0)%fld (f0 : Fq)) as [_|N]; [reflexivity|]. exfalso. apply N. apply v_inj. reflexivity. }
  apply (f_equal (EC.pt Fq b1)) in X. discriminate X.
Qed.

Definition sgn (b : bool) : Fq := if b then f1 else fq MINUS_ONE.
Lemma Q2_eq : HQ2 = Q2. Proof. reflexivity. Qed.
Lemma sgn_sign t : sign t = sgn (sol_sign (v t)).
Proof. unfold sign, sgn, sol_sign. rewrite Q2_eq. unfold v. destruct (_ <=? _); [exact (@eq_refl Fq f1)|exact (@eq_refl Fq (fq MINUS_ONE))]. Qed.
Lemma y_signed ts (y : Fq) : y <> f0 -> (if negb ts then sub256 HQ (v y) else Ok (v y)) = Ok (v (y * sgn ts)%fld).
Proof.
  intros N. destruct ts; cbn [negb sgn].
  - do 2 f_equal. symmetry. exact (mul_one_r Fq y).
  - rewrite vsub_ok, v_opp by auto. do 2 f_equal. rewrite m1_eq. symmetry. exact (mul_m1 Fq y).
Qed.
Lemma sol_sqrt_ok (a y : Fq) : y = root q_mod q_prime a -> sol_sqrt (v a) = (v y, v (y * y)%fld =? v a).
Proof. intros ->. unfold sol_sqrt. cbv zeta. rewrite (sqrt_run a : ModexpSqrt_run (v a) = v (root q_mod q_prime a)). rewrite vmul. reflexivity. Qed.
Lemma fq_sqrt_eq (a y : Fq) : y = root q_mod q_prime a -> fq_sqrt a = if feq_dec (y * y)%fld a then Some y else None.
Proof. intros ->. unfold fq_sqrt. cbv zeta. reflexivity. Qed.
Lemma E3 : 3 = v (fq 3). Proof. reflexivity. Qed.
Lemma try_x_ok ts (x : Fq) : try_x ts (v x) = match fq_sqrt (g_ x) with Some y => Ok (Some (v x, v (y * sgn ts)%fld)) | None => Ok None end.
Proof.
  unfold try_x. cbv zeta. rewrite E3, !vmul, vadd. change (x * x * x + fq 3)%fld with (g_ x).
  pose (y := root q_mod q_prime (g_ x) : Fq). rewrite (sol_sqrt_ok (g_ x) y eq_refl), (fq_sqrt_eq (g_ x) y eq_refl). generalize y. clear y. intros y.
  destruct (feq_dec (y * y)%fld (g_ x)) as [E|N].
  - rewrite E, Z.eqb_refl. rewrite y_signed by (apply (no_zero_y x); exact E). reflexivity.
  - destruct (Z.eqb_spec (v (y * y)%fld) (v (g_ x))) as [E|_]; auto.
    exfalso. apply N. apply v_inj. exact E.
Qed.

(** the second candidate is never zero when it is reached: x1 = -1 is the abscissa of a point, as 2 is a square *)
Definition sqrt2 : Z := 17918450306617730576773466553562392805212959031101866706334976164702657599807.
Lemma sqrt2_ok : sqrt2 * sqrt2 mod q_mod = 2. Proof. vm_compute. reflexivity. Qed.
Section X2.
  Variable K : Fld.
  Open Scope fld_scope.
  Add Field KX2 : (flaw K).
  Lemma m1_cube (x : K) : x + 1 = 0 -> x * x * x + (1 + (1 + 1)) = 1 + 1.
  Proof. intros E. assert (x = - (1)) as -> by (apply fsub_eq0; rewrite <- E; ring). ring. Qed.
  Lemma reorder_x3 (s al c : K) : 1 - s * al * c = - (s * al * c) + 1. Proof. ring. Qed.
  Lemma sub_comm' (a b c : K) : c - a * b = c - a * b. Proof. ring. Qed.
  Lemma mul_3 (a b c : K) : a * (b * c) = a * b * c. Proof. ring. Qed.
End X2.
Lemma two_square : exists y : Fq, (y * y = 1 + 1)%fld.
Proof. exists (fq sqrt2). apply v_inj. change (v (fq sqrt2 * fq sqrt2)%fld) with (Z.modulo (Z.modulo sqrt2 q_mod * Z.modulo sqrt2 q_mod) q_mod). rewrite <- Zmult_mod, sqrt2_ok. reflexivity. Qed.
Lemma x1_not_m1 t : fq_sqrt (g_ (x1_ t)) = None -> (x1_ t + 1 <> 0)%fld.
Proof.
  intros S E. destruct two_square as [y Ey]. apply (sqrt_none _ S y). rewrite Ey. unfold g_. rewrite fq3. symmetry. exact (m1_cube Fq (x1_ t) E).
Qed.

Lemma E4 : 4 = v (fq 4). Proof. reflexivity. Qed.
Lemma E1 : 1 = v f1. Proof. reflexivity. Qed.
Lemma EC1 : HC1 = v (fq C1). Proof. reflexivity. Qed.
Lemma EC2 : HC2 = v (fq C2). Proof. reflexivity. Qed.
Lemma EC3 : HC3 = v (fq C3). Proof. reflexivity. Qed.
Lemma inv_ok (a : Fq) : ModexpInverse_run (v a) = v (unwrap_or (fq_invert a) f0).
Proof. exact (inverse_run a). Qed.

Lemma bind_Ok {A B} (a : A) (f : A -> res B) : bind (Ok a) f = f a. Proof. reflexivity. Qed.
Lemma some_pair {A B} (a a' : A) (b b' : B) : Some (a, b) = Some (a', b') -> a = a' /\ b = b'. Proof. intros H. inversion H. auto. Qed.
Lemma alpha_fold t : unwrap_or (fq_invert (t * t * (t * t + fq 4))%fld) f0 = alpha_ t. Proof. reflexivity. Qed.
Lemma x1_fold t : (fq C1 - fq C2 * (t * t * (t * t) * alpha_ t))%fld = x1_ t. Proof. rewrite (mul_3 Fq). reflexivity. Qed.
Lemma x2_fold t : (- (x1_ t + f1))%fld = x2_ t. Proof. reflexivity. Qed.
Lemma x3_fold t : (f1 - (t * t + fq 4) * ((t * t + fq 4) * (t * t + fq 4)) * alpha_ t * fq C3)%fld = x3_ t. Proof. reflexivity. Qed.
Lemma lt_q t : v t <? HQ = true.
Proof. rewrite HQ_eq. apply Z.ltb_lt. apply v_range. Qed.
Strategy opaque [ModexpInverse_run ModexpSqrt_run mulmod addmod sub256].
Definition stage3 (ts : bool) (s alpha : Z) : res (Z * Z) :=
      let x3 := mulmod s alpha HQ in
      let x3 := mulmod x3 HC3 HQ in
      let* x3 := sub256 HQ x3 in
      let x3 := addmod x3 1 HQ in
      let* o := try_x ts x3 in
      match o with Some p => Ok p | None => Err "map to point failed" end.
Definition stage2 (ts : bool) (x1 s alpha : Z) : res (Z * Z) :=
    let x2 := addmod x1 1 HQ in
    let* x2 := sub256 HQ x2 in
    let* o := try_x ts x2 in
    match o with
    | Some p => Ok p
    | None => stage3 ts s alpha
    end.
Definition stage1 (ts : bool) (x1 s alpha : Z) : res (Z * Z) :=
  let* o := try_x ts x1 in
  match o with
  | Some p => Ok p
  | None => stage2 ts x1 s alpha end.
Lemma split1 t t_square t4 r r_square s a alpha x1 x1' x1'' x : t <? HQ = true ->
  mulmod t t HQ = t_square -> mulmod t_square t_square HQ = t4 -> addmod t_square 4 HQ = r -> mulmod r r HQ = r_square ->
  mulmod r r_square HQ = s -> mulmod t_square r HQ = a -> ModexpInverse_run a = alpha -> mulmod t4 alpha HQ = x1 ->
  mulmod HC2 x1 HQ = x1' -> sub256 HQ x1' = Ok x1'' -> addmod HC1 x1'' HQ = x ->
  mapToG1 t = stage1 (sol_sign t) x s alpha.
Proof. intros E <- <- <- <- <- <- <- <- <- E' <-. unfold mapToG1. rewrite E. unfold require. rewrite bind_Ok. cbv zeta. rewrite E', bind_Ok. reflexivity. Qed.
Lemma stage3_ok t x y : match fq_sqrt (g_ (x3_ t)) with Some y => Some (x3_ t, y) | None => None end = Some (x, y) ->
  stage3 (sol_sign (v t)) (v ((t * t + fq 4) * ((t * t + fq 4) * (t * t + fq 4)))%fld) (v (alpha_ t)) = Ok (v x, v (y * sign t)%fld).
Proof.
  intros H. unfold stage3. cbv zeta. rewrite EC3, !vmul, vsub_ok, bind_Ok, E1, v_subr, x3_fold, try_x_ok, <- sgn_sign.
  destruct (fq_sqrt (g_ (x3_ t))) as [y3|] eqn:S3; [|discriminate H].
  rewrite bind_Ok. apply some_pair in H as [-> ->]. reflexivity.
Qed.
Lemma stage2_ok t x y : fq_sqrt (g_ (x1_ t)) = None ->
  match fq_sqrt (g_ (x2_ t)) with Some y => Some (x2_ t, y) | None => match fq_sqrt (g_ (x3_ t)) with Some y => Some (x3_ t, y) | None => None end end = Some (x, y) ->
  stage2 (sol_sign (v t)) (v (x1_ t)) (v ((t * t + fq 4) * ((t * t + fq 4) * (t * t + fq 4)))%fld) (v (alpha_ t)) = Ok (v x, v (y * sign t)%fld).
Proof.
  intros S1 H. unfold stage2. cbv zeta. rewrite E1, vadd, vsub_ok, bind_Ok. rewrite v_opp by (apply x1_not_m1; exact S1). rewrite x2_fold, try_x_ok, <- sgn_sign.
  destruct (fq_sqrt (g_ (x2_ t))) as [y2|] eqn:S2; rewrite bind_Ok.
  - apply some_pair in H as [-> ->]. reflexivity.
  - apply stage3_ok. exact H.
Qed.
Lemma vadd4 a : addmod (v a) 4 HQ = v (a + fq 4)%fld. Proof. rewrite E4. apply vadd. Qed.
Lemma vmulC2 a : mulmod HC2 (v a) HQ = v (fq C2 * a)%fld. Proof. rewrite EC2. apply vmul. Qed.
Lemma vsubC1 a : addmod HC1 (q_mod - v a) HQ = v (fq C1 - a)%fld. Proof. rewrite EC1. apply v_subl. Qed.
Lemma inv_alpha t : ModexpInverse_run (v (t * t * (t * t + fq 4))%fld) = v (alpha_ t). Proof. rewrite inv_ok. reflexivity. Qed.
Lemma stage1_ok t x y : pick t = Some (x, y) ->
  stage1 (sol_sign (v t)) (v (x1_ t)) (v ((t * t + fq 4) * ((t * t + fq 4) * (t * t + fq 4)))%fld) (v (alpha_ t)) = Ok (v x, v (y * sign t)%fld).
Proof.
  unfold stage1. rewrite try_x_ok, <- sgn_sign. unfold pick. intros H. destruct (fq_sqrt (g_ (x1_ t))) as [y1|] eqn:S1; rewrite bind_Ok.
  - apply some_pair in H as [-> ->]. reflexivity.
  - apply stage2_ok; auto.
Qed.
Lemma mapToG1_stage1 t : mapToG1 (v t) = stage1 (sol_sign (v t)) (v (x1_ t)) (v ((t * t + fq 4) * ((t * t + fq 4) * (t * t + fq 4)))%fld) (v (alpha_ t)).
Proof.
  eapply split1.
  - apply lt_q.
  - apply vmul.
  - apply vmul.
  - apply vadd4.
  - apply vmul.
  - apply vmul.
  - apply vmul.
  - apply inv_alpha.
  - apply vmul.
  - apply vmulC2.
  - apply vsub_ok.
  - rewrite vsubC1, x1_fold. reflexivity.
Qed.
Theorem mapToG1_pick t x y : pick t = Some (x, y) -> mapToG1 (v t) = Ok (v x, v (y * sign t)%fld).
Proof. rewrite mapToG1_stage1. apply stage1_ok. Qed.

(** ** points of the contract *)
Lemma enc_aff x y H : enc (mkEC Fq b1 (Aff Fq x y) H) = (v x, v y). Proof. reflexivity. Qed.
Theorem mapToG1_ok t P : map_to_curve_evm t = Ok P -> mapToG1 (v t) = Ok (enc P).
Proof.
  destruct (map_to_curve_ok t) as (x & y & H & Hp & ->). intros E. assert (E' : P = mkEC Fq b1 (Aff Fq x (y * sign t)%fld) H) by congruence. rewrite E'.
  rewrite enc_aff. apply mapToG1_pick. exact Hp.
Qed.
Strategy transparent [mulmod addmod sub256].
