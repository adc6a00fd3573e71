(** The concrete groups: BN254 G1 (y^2=x^3+3 over Fq), Grumpkin (y^2=x^3-17 over Fr), BN254 G2
    (y^2=x^3+3/(9+u) over Fq2), their generators and orders. *)
From Coq Require Import ZArith Znumtheory Zpow_facts List Lia Bool Ring Field.
From Verif.Base Require Import Fermat Pocklington Primes Fld Fp EC Group Order Fq2 ZChain CurveCerts.
Import ListNotations.
Open Scope Z_scope.

Definition fq (a : Z) : Fq := of_Z q_mod a.
Definition fr (a : Z) : Fr := of_Z r_mod a.

Lemma Fp_neq p (x y : Fp p) : (fval x =? fval y) = false -> x <> y.
Proof. intros H E. subst. rewrite Z.eqb_refl in H. discriminate. Qed.

(** --- BN254 G1 --- *)
Definition b1 : Fq := fq 3.
Lemma two_q : two Fq <> f0. Proof. apply Fp_neq; vm_compute; reflexivity. Qed.
Lemma three_q : three Fq <> f0. Proof. apply Fp_neq; vm_compute; reflexivity. Qed.
Lemma b1_neq0 : b1 <> f0. Proof. apply Fp_neq; vm_compute; reflexivity. Qed.
Definition G1 : Grp := ECgrp Fq b1 two_q three_q b1_neq0.
Lemma g1_ok : on_curve Fq b1 (Aff Fq (fq 1) (fq 2)) = true.
Proof. vm_compute. reflexivity. Qed.
Definition g1 : G1 := mkEC Fq b1 (Aff Fq (fq 1) (fq 2)) g1_ok.

Definition zend (o : option (Z * Z)) (x y p : Z) : bool :=
  match o with Some (a, c) => (a =? x) && (c =? p - y) | None => false end.
Lemma zend_ok o x y p : zend o x y p = true -> o = Some (x, p - y).
Proof. destruct o as [[a c]|]; cbn; [|discriminate]. intros H. apply andb_prop in H as [H1 H2]. apply Z.eqb_eq in H1, H2. congruence. Qed.
Lemma of_Z_neg p y : of_Z p (p - y) = Fp_opp (of_Z p y).
Proof. rewrite <- of_Z_opp. apply of_Z_eq. replace (p - y) with (- y + 1 * p) by ring. apply Z_mod_plus_full. Qed.

Lemma g1_chain : zend (zchain q_mod 1 2 1 2 g1_steps) 1 2 q_mod = true.
Proof. vm_compute. reflexivity. Qed.
Lemma g1_order : zmul r_mod g1 = g0.
Proof.
  apply (chain_order Fq b1 two_q three_q b1_neq0 (fq 1) (fq 2) g1 (zslopes q_mod q_prime g1_steps)).
  - reflexivity.
  - pose proof (zend_ok _ _ _ _ g1_chain) as H. apply (zchain_ok q_mod q_prime) in H; [|vm_compute; intuition discriminate].
    etransitivity; [exact H|]. rewrite of_Z_neg. reflexivity.
  - etransitivity; [apply zval_ok|]. vm_compute. reflexivity.
Qed.

Lemma g1_neq0 : g1 <> g0.
Proof. intros E. apply (f_equal (pt Fq b1)) in E. discriminate E. Qed.

(** a cube root of -b does not exist, so there is no 2-torsion *)
Section NoTorsion.
  Variable p : Z.
  Variable Hp : prime p.
  Let K := FpFld p Hp.
  Variable b : K.
  Hypothesis two_neq0 : two K <> f0.
  Hypothesis three_neq0 : three K <> f0.
  Hypothesis b_neq0 : b <> f0.
  Add Field KfT : (flaw K).
  Open Scope fld_scope.
  Hypothesis H3 : (p mod 3 = 1)%Z.
  Hypothesis Hcube : fpow (- b) (Z.to_N (p / 3)) <> 1.

  Lemma no_torsion (P : ECgrp K b two_neq0 three_neq0 b_neq0) : (P ⊕ P)%grp = g0 -> P = g0.
  Proof.
    intros H. apply (f_equal (pt K b)) in H.
    destruct P as [[|x y] HP]; [apply EC_ext; reflexivity|]. exfalso.
    change (radd K (Aff K x y) (Aff K x y) = Inf K) in H. unfold radd in H.
    destruct (feq_dec x x) as [_|Hx]; [|exact (Hx eq_refl)].
    destruct (feq_dec (y + y) 0) as [E|_]; [|unfold chord in H; discriminate H].
    assert (y = 0).
    { assert (Z : two K * y = 0) by (rewrite <- E; unfold two; ring). apply fmul_eq0 in Z as [Z|Z]; [contradiction|auto]. }
    subst y. apply on_aff in HP.
    assert (Ex : x * (x * x) = - b) by (apply fsub_eq0; transitivity (0 * 0 : K); [rewrite HP|]; ring).
    assert (Nx : x <> 0).
    { intros ->. apply b_neq0. transitivity (- - b); [ring|]. rewrite <- Ex. ring. }
    pose proof Hp as [Hp1 _]. pose proof (fpow_fermat p Hp x Nx) as F. fold K in F.
    pose proof (Z.div_mod p 3 ltac:(lia)).
    replace (Z.to_N (p - 1)) with (3 * Z.to_N (p / 3))%N in F by lia.
    rewrite fpow_mul in F. change (fpow x 3) with (x * (x * x)) in F. rewrite Ex in F. auto.
  Qed.
End NoTorsion.

Definition pwend (o : option (positive * Z)) (n : N) (p : Z) : bool :=
  match o with Some (e, t) => N.eqb (Npos e) n && (0 <=? t) && (t <? p) && negb (t =? 1) | None => false end.
Lemma fpow_neq_1 p (Hp : prime p) a n l : pwend (pw a p 1 a l) n p = true -> fpow (of_Z p a : FpFld p Hp) n <> f1.
Proof.
  intros H E. unfold pwend in H. destruct (pw a p 1 a l) as [[e t]|] eqn:Q; [|discriminate].
  apply andb_prop in H as [H H4]. apply andb_prop in H as [H H3]. apply andb_prop in H as [H1 H2].
  apply N.eqb_eq in H1. apply Z.leb_le in H2. apply Z.ltb_lt in H3. apply negb_true_iff, Z.eqb_neq in H4. subst n.
  apply pw_ok in Q; [|rewrite Z.pow_1_r; auto]. pose proof Hp as [Hp1 _].
  rewrite fpow_of_Z, fval_of_Z in E. apply of_Z_inj_mod in E. cbn [Z.of_N] in E.
  rewrite <- Zpower_mod, <- Q, Z.mod_1_l, Z.mod_small in E by lia. auto.
Qed.
Lemma cube_q_ok : pwend (pw (q_mod - 3) q_mod 1 (q_mod - 3) cube_q) (Z.to_N (q_mod / 3)) q_mod = true.
Proof. vm_compute. reflexivity. Qed.
Lemma cube_r_ok : pwend (pw 17 r_mod 1 17 cube_r) (Z.to_N (r_mod / 3)) r_mod = true.
Proof. vm_compute. reflexivity. Qed.

Lemma cube_q_neq : fpow (- b1)%fld (Z.to_N (q_mod / 3)) <> f1.
Proof.
  assert (E : (- b1)%fld = of_Z q_mod (q_mod - 3)) by (symmetry; apply of_Z_neg).
  rewrite E. exact (fpow_neq_1 q_mod q_prime (q_mod - 3) (Z.to_N (q_mod / 3)) cube_q cube_q_ok).
Qed.
Lemma G1_no_torsion (P : G1) : (P ⊕ P)%grp = g0 -> P = g0.
Proof.
  apply (no_torsion q_mod q_prime b1 two_q three_q b1_neq0).
  - vm_compute. reflexivity.
  - exact cube_q_neq.
Qed.

(** every point of BN254 G1 is a multiple of the generator; the order is r *)
Theorem G1_cyclic (P : G1) : exists k, 0 <= k < r_mod /\ P = zmul k g1.
Proof.
  apply (cyclic q_mod q_prime eq_refl b1 two_q three_q b1_neq0 r_mod r_prime eq_refl).
  - vm_compute. reflexivity.
  - exact g1_neq0.
  - exact g1_order.
  - exact G1_no_torsion.
Qed.
Theorem G1_exponent (P : G1) : zmul r_mod P = g0.
Proof. destruct (G1_cyclic P) as [k [_ ->]]. rewrite zmul_comm, g1_order, zmul_g0. auto. Qed.

(** --- Grumpkin --- *)
Definition bk : Fr := fr (-17).
Lemma two_r : two Fr <> f0. Proof. apply Fp_neq; vm_compute; reflexivity. Qed.
Lemma three_r : three Fr <> f0. Proof. apply Fp_neq; vm_compute; reflexivity. Qed.
Lemma bk_neq0 : bk <> f0. Proof. apply Fp_neq; vm_compute; reflexivity. Qed.
Definition Gk : Grp := ECgrp Fr bk two_r three_r bk_neq0.
(** halo2curves grumpkin generator (1, sqrt(-16)) *)
Definition gk_y : Z := 17631683881184975370165255887551781615748388533673675138860.
Lemma gk_ok : on_curve Fr bk (Aff Fr (fr 1) (fr gk_y)) = true.
Proof. vm_compute. reflexivity. Qed.
Definition gk : Gk := mkEC Fr bk (Aff Fr (fr 1) (fr gk_y)) gk_ok.

Lemma gk_chain : zend (zchain r_mod 1 gk_y 1 gk_y gk_steps) 1 gk_y r_mod = true.
Proof. vm_compute. reflexivity. Qed.
Lemma gk_order : zmul q_mod gk = g0.
Proof.
  apply (chain_order Fr bk two_r three_r bk_neq0 (fr 1) (fr gk_y) gk (zslopes r_mod r_prime gk_steps)).
  - reflexivity.
  - pose proof (zend_ok _ _ _ _ gk_chain) as H. apply (zchain_ok r_mod r_prime) in H; [|vm_compute; intuition discriminate].
    etransitivity; [exact H|]. rewrite of_Z_neg. reflexivity.
  - etransitivity; [apply zval_ok|]. vm_compute. reflexivity.
Qed.
Lemma gk_neq0 : gk <> g0.
Proof. intros E. apply (f_equal (pt Fr bk)) in E. discriminate E. Qed.
Lemma cube_r_neq : fpow (- bk)%fld (Z.to_N (r_mod / 3)) <> f1.
Proof.
  assert (E : (- bk)%fld = of_Z r_mod 17) by (apply Fp_ext; vm_compute; reflexivity).
  rewrite E. exact (fpow_neq_1 r_mod r_prime 17 (Z.to_N (r_mod / 3)) cube_r cube_r_ok).
Qed.
Lemma Gk_no_torsion (P : Gk) : (P ⊕ P)%grp = g0 -> P = g0.
Proof.
  apply (no_torsion r_mod r_prime bk two_r three_r bk_neq0).
  - vm_compute. reflexivity.
  - exact cube_r_neq.
Qed.
Theorem Gk_cyclic (P : Gk) : exists k, 0 <= k < q_mod /\ P = zmul k gk.
Proof.
  apply (cyclic r_mod r_prime eq_refl bk two_r three_r bk_neq0 q_mod q_prime eq_refl).
  - vm_compute. reflexivity.
  - exact gk_neq0.
  - exact gk_order.
  - exact Gk_no_torsion.
Qed.
Theorem Gk_exponent (P : Gk) : zmul q_mod P = g0.
Proof. destruct (Gk_cyclic P) as [k [_ ->]]. rewrite zmul_comm, gk_order, zmul_g0. auto. Qed.

(** --- BN254 G2 --- *)
Definition Fq2 : Fld := Ext Fq (no_sqrt_m1 q_mod q_prime eq_refl).
Definition fq2 (a c : Z) : Fq2 := (fq a, fq c).
Definition b2 : Fq2 := fq2 0x2b149d40ceb8aaae81be18991be06ac3b5b4c5e559dbefa33267e6dc24a138e5
                        0x9713b03af0fed4cd2cafadeed8fdf4a74fa084e52d1852e4a2bd0685c315d2.
Lemma b2_eq : (b2 * fq2 9 1 = fq2 3 0)%fld.
Proof. apply injective_projections; apply Fp_ext; vm_compute; reflexivity. Qed.
Definition e2_eqb (x y : Fq2) : bool := feqb (fst x) (fst y) && feqb (snd x) (snd y).
Lemma e2_neq (x y : Fq2) : e2_eqb x y = false -> x <> y.
Proof. intros H E. subst. unfold e2_eqb in H. rewrite !feqb_refl in H. discriminate. Qed.
Lemma two_q2 : two Fq2 <> f0. Proof. apply e2_neq; vm_compute; reflexivity. Qed.
Lemma three_q2 : three Fq2 <> f0. Proof. apply e2_neq; vm_compute; reflexivity. Qed.
Lemma b2_neq0 : b2 <> f0. Proof. apply e2_neq; vm_compute; reflexivity. Qed.
Definition G2c : Grp := ECgrp Fq2 b2 two_q2 three_q2 b2_neq0.

(** generator of G2: contracts/libs/Pairing.sol:23-30 *)
Definition g2_x : Fq2 := fq2 10857046999023057135944570762232829481370756359578518086990519993285655852781
                             11559732032986387107991004021392285783925812861821192530917403151452391805634.
Definition g2_y : Fq2 := fq2 8495653923123431417604973247489272438418190587263600148770280649306958101930
                             4082367875863433681332203403145435568316851327593401208105741076214120093531.
Lemma g2_ok : on_curve Fq2 b2 (Aff Fq2 g2_x g2_y) = true.
Proof. vm_compute. reflexivity. Qed.
Definition g2 : G2c := mkEC Fq2 b2 (Aff Fq2 g2_x g2_y) g2_ok.
Definition g2_zx : Z * Z := (10857046999023057135944570762232829481370756359578518086990519993285655852781,
                             11559732032986387107991004021392285783925812861821192530917403151452391805634).
Definition g2_zy : Z * Z := (8495653923123431417604973247489272438418190587263600148770280649306958101930,
                             4082367875863433681332203403145435568316851327593401208105741076214120093531).
Definition zend2 (o : option (z2 * z2)) (x y : z2) (p : Z) : bool :=
  match o with Some (a, c) => z2eqb a x && z2eqb c (p - fst y, p - snd y) | None => false end.
Lemma zend2_ok o x y p : zend2 o x y p = true -> o = Some (x, (p - fst y, p - snd y)).
Proof.
  destruct o as [[[a0 a1] [c0 c1]]|]; cbn [zend2]; [|discriminate]. destruct x as [x0 x1]. unfold z2eqb. cbn [fst snd]. intros H.
  apply andb_prop in H as [H1 H2]. apply andb_prop in H1 as [H1 H1']. apply andb_prop in H2 as [H2 H2'].
  apply Z.eqb_eq in H1, H2, H1', H2'. subst. reflexivity.
Qed.
Lemma g2_chain : zend2 (z2chain q_mod g2_zx g2_zy g2_zx g2_zy g2_steps) g2_zx g2_zy q_mod = true.
Proof. vm_compute. reflexivity. Qed.
Lemma g2_order : zmul r_mod g2 = g0.
Proof.
  apply (chain_order Fq2 b2 two_q2 three_q2 b2_neq0 g2_x g2_y g2 (z2slopes q_mod q_prime (no_sqrt_m1 q_mod q_prime eq_refl) g2_steps)).
  - reflexivity.
  - pose proof (zend2_ok _ _ _ _ g2_chain) as H.
    apply (z2chain_ok q_mod q_prime (no_sqrt_m1 q_mod q_prime eq_refl)) in H; [|vm_compute; reflexivity|vm_compute; reflexivity].
    etransitivity; [exact H|]. unfold emb; cbn [fst snd]. rewrite !of_Z_neg. reflexivity.
  - etransitivity; [apply z2val_ok|]. vm_compute. reflexivity.
Qed.
Lemma g2_neq0 : g2 <> g0.
Proof. intros E. apply (f_equal (pt Fq2 b2)) in E. discriminate E. Qed.
