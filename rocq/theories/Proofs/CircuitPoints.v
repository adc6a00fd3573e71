(** The fixed-base multiplications and exposures of the DKG circuit. *)
From Coq Require Import NArith Nnat ZArith List Bool Lia Setoid.
From Verif.Base Require Import Fermat Fld Fp EC Primes Curves Group Order Fq2 Poly.
From Verif.Model Require Import Points Lib Circ MainGate GrumpkinChip IntegerChip FixedBase DkgCircuit.
From Verif.Spec Require Import Dvrf CircuitSpec.
From Verif.Proofs Require Import DkgProofs SvdwProofs CircProofs GrumpkinProofs FixedBaseProofs IntegerProofs CircuitParts.
Import ListNotations.
Open Scope Z_scope.

Lemma sem_binv {A B} (c : circ A) (f : A -> circ B) b : sem (let! x := c in f x) b -> exists a, sem c a /\ sem (f a) b.
Proof. apply sem_bind. Qed.

(** ** bits *)
Lemma zbits_length n : forall z, length (zbits n z) = n.
Proof. induction n as [|n IH]; intros z; cbn [zbits length]; auto. Qed.
Lemma bval_zbits n : forall z, 0 <= z < 2 ^ Z.of_nat n -> bval (zbits n z) = z.
Proof.
  induction n as [|n IH]; intros z H; cbn [zbits bval].
  - cbn in H. lia.
  - rewrite Nat2Z.inj_succ, Z.pow_succ_r in H by lia. rewrite IH.
    + pose proof (Z.div_mod z 2 ltac:(lia)) as D. rewrite Zmod_odd in D. destruct (Z.odd z); cbn [Z.b2z]; lia.
    + split; [apply Z.div_pos; lia|apply Z.div_lt_upper_bound; lia].
Qed.
Lemma decompose_bits v : decompose v = map (bit Fr) (zbits 254 (fval (v : Fp r_mod))).
Proof. unfold decompose. apply map_ext. intros []; reflexivity. Qed.
Lemma decompose_length v : length (decompose v) = 254%nat.
Proof. unfold decompose. rewrite map_length. apply zbits_length. Qed.
Lemma pow2_fr i : pow2 Fr i = fr (2 ^ Z.of_nat i).
Proof.
  unfold pow2. induction i as [|i IH]; [reflexivity|].
  rewrite Nat2N.inj_succ, fpow_succ, IH, Nat2Z.inj_succ, Z.pow_succ_r by lia. rewrite fr_mul. f_equal.
Qed.
Lemma compose_from_bits bs : forall i, compose_from i (map (bit Fr) bs) = fr (2 ^ Z.of_nat i * bval bs).
Proof.
  induction bs as [|c bs IH]; intros i; cbn [map compose_from bval].
  - rewrite Z.mul_0_r. reflexivity.
  - rewrite IH, pow2_fr. replace (bit Fr c) with (fr (Z.b2z c)) by (destruct c; reflexivity).
    rewrite <- fr_mul, <- fr_add. f_equal. rewrite Nat2Z.inj_succ, Z.pow_succ_r by lia. ring.
Qed.
Lemma compose_bits bs : compose (map (bit Fr) bs) = fr (bval bs).
Proof. unfold compose. rewrite compose_from_bits. f_equal. cbn -[Z.mul bval]. lia. Qed.
Lemma compose_decompose (s : Fr) : compose (map (bit Fr) (zbits 254 (fval (s : Fp r_mod)))) = s.
Proof.
  rewrite compose_bits, bval_zbits; [exact (of_Z_fval r_mod s)|].
  pose proof (fval_range r_mod s eq_refl). assert (r_mod < 2 ^ Z.of_nat 254) by reflexivity. lia.
Qed.

(** ** reduced integers *)
Lemma reduced_encodes l (a : Fq) : is_reduced l a -> coord_encodes a (wrapv Fr limb_base l) /\ length l = 4%nat.
Proof.
  intros [R E]. revert E. inversion R as [|x1 n1 l1 m1 R1 T1]; subst. inversion T1 as [|x2 n2 l2 m2 R2 T2]; subst.
  inversion T2 as [|x3 n3 l3 m3 R3 T3]; subst. inversion T3 as [|x4 n4 l4 m4 R4 T4]; subst. inversion T4; subst. intros E. split; [|reflexivity].
  clear R T1 T2 T3 T4. unfold limb_base. cbn [wrapv].
  pose proof (fval_range r_mod x1 eq_refl) as P1. pose proof (fval_range r_mod x2 eq_refl) as P2.
  pose proof (fval_range r_mod x3 eq_refl) as P3. pose proof (fval_range r_mod x4 eq_refl) as P4.
  rewrite <- (of_Z_fval r_mod x1 : fr _ = x1), <- (of_Z_fval r_mod x2 : fr _ = x2),
          <- (of_Z_fval r_mod x3 : fr _ = x3), <- (of_Z_fval r_mod x4 : fr _ = x4).
  set (a1 := fval (x1 : Fp r_mod)) in *. set (a2 := fval (x2 : Fp r_mod)) in *. set (a3 := fval (x3 : Fp r_mod)) in *. set (a4 := fval (x4 : Fp r_mod)) in *.
  rewrite <- !fr_mul, <- !fr_add. exists (lval [x1; x2; x3; x4]).
  assert (EL : lval [x1; x2; x3; x4] = (a1 + 2 ^ 68 * a2) + 2 ^ 136 * (a3 + 2 ^ 68 * a4)).
  { cbn [lval]. change BIT_LEN_LIMB with 68. fold a1 a2 a3 a4. change (2 ^ 136) with (2 ^ 68 * 2 ^ 68). ring. }
  rewrite EL. change BIT_LEN_LIMB with 68 in *. change (254 - 3 * 68) with 50 in R4.
  assert (B1 : 0 <= a1 + 2 ^ 68 * a2 < 2 ^ 136) by (change (2 ^ 136) with (2 ^ 68 * 2 ^ 68); lia).
  assert (B2 : 0 <= a3 + 2 ^ 68 * a4 < 2 ^ 118) by (change (2 ^ 118) with (2 ^ 68 * 2 ^ 50); lia).
  split; [|split].
  - change (2 ^ 254) with (2 ^ 136 * 2 ^ 118). lia.
  - rewrite <- EL. exact E.
  - replace (a1 + 2 ^ 68 * a2 + 2 ^ 136 * (a3 + 2 ^ 68 * a4)) with ((a1 + 2 ^ 68 * a2) + (a3 + 2 ^ 68 * a4) * 2 ^ 136) by ring.
    rewrite Z.mod_add, Z.div_add, (Z.mod_small _ _ B1), (Z.div_small _ _ B1) by lia.
    f_equal; [f_equal; ring|]. f_equal. f_equal. ring.
Qed.
Lemma fval_fr z : 0 <= z < r_mod -> fval (fr z : Fp r_mod) = z.
Proof. intros H. unfold fr. rewrite fval_of_Z. apply Z.mod_small. exact H. Qed.
Lemma limb_val z : fval (fr (z mod 2 ^ 68) : Fp r_mod) = z mod 2 ^ 68.
Proof. apply fval_fr. pose proof (Z.mod_pos_bound z (2 ^ 68) ltac:(lia)). assert (2 ^ 68 < r_mod) by reflexivity. lia. Qed.
Lemma reduced_ok (a : Fq) : is_reduced (reduced a) a.
Proof.
  unfold reduced. set (z := fval (a : Fp q_mod)). pose proof (fval_range q_mod a eq_refl : 0 <= z < q_mod) as B.
  change (limbs NUMBER_OF_LIMBS z) with [fr (z mod 2 ^ 68); fr (z / 2 ^ 68 mod 2 ^ 68); fr (z / 2 ^ 68 / 2 ^ 68 mod 2 ^ 68); fr (z / 2 ^ 68 / 2 ^ 68 / 2 ^ 68 mod 2 ^ 68)].
  assert (Q : q_mod < 2 ^ 254) by reflexivity.
  assert (D4 : z / 2 ^ 68 / 2 ^ 68 / 2 ^ 68 < 2 ^ 50).
  { rewrite !Z.div_div by lia. apply Z.div_lt_upper_bound; [lia|]. change (2 ^ 68 * 2 ^ 68 * 2 ^ 68 * 2 ^ 50) with (2 ^ 254). lia. }
  assert (D40 : 0 <= z / 2 ^ 68 / 2 ^ 68 / 2 ^ 68) by (repeat (apply Z.div_pos; [|lia]); lia).
  assert (M4 : z / 2 ^ 68 / 2 ^ 68 / 2 ^ 68 mod 2 ^ 68 = z / 2 ^ 68 / 2 ^ 68 / 2 ^ 68).
  { apply Z.mod_small. split; auto. apply (Z.lt_trans _ _ _ D4). reflexivity. }
  split.
  - repeat constructor; rewrite limb_val; change BIT_LEN_LIMB with 68; try (apply Z.mod_pos_bound; lia). rewrite M4. exact D4.
  - cbn [lval]. rewrite !limb_val. change BIT_LEN_LIMB with 68. rewrite M4.
    assert (E : z mod 2 ^ 68 + 2 ^ 68 * (z / 2 ^ 68 mod 2 ^ 68 + 2 ^ 68 * (z / 2 ^ 68 / 2 ^ 68 mod 2 ^ 68 + 2 ^ 68 * (z / 2 ^ 68 / 2 ^ 68 / 2 ^ 68 + 2 ^ 68 * 0))) = z).
    { rewrite Z.mul_0_r, Z.add_0_r.
      rewrite (Z.add_comm (z / 2 ^ 68 / 2 ^ 68 mod 2 ^ 68)), <- (Z.div_mod (z / 2 ^ 68 / 2 ^ 68) (2 ^ 68)) by lia.
      rewrite (Z.add_comm (z / 2 ^ 68 mod 2 ^ 68)), <- (Z.div_mod (z / 2 ^ 68) (2 ^ 68)) by lia.
      rewrite (Z.add_comm (z mod 2 ^ 68)), <- (Z.div_mod z (2 ^ 68)) by lia. reflexivity. }
    rewrite E. exact (of_Z_fval q_mod a).
Qed.
Lemma wrapv_reduced (a : Fq) : wrapv Fr limb_base (reduced a) = coord_to_public a.
Proof. reflexivity. Qed.

(** ** coordinates *)
Section Coords.
  Variable K : Fld.
  Variable b : K.
  Variables (h2 : two K <> f0) (h3 : three K <> f0) (hb : b <> f0).
  Lemma is_pt_xy p (P : ECgrp K b h2 h3 hb) : is_pt K b h2 h3 hb p P -> xy (P : EC K b) = p.
  Proof. unfold is_pt, xy. intros ->. destruct p; reflexivity. Qed.
  Lemma xy_is_pt (P : ECgrp K b h2 h3 hb) : P <> g0 -> is_pt K b h2 h3 hb (xy (P : EC K b)) P.
  Proof. intros N. destruct (is_pt_ex K b h2 h3 hb P N) as [p Hp]. rewrite (is_pt_xy p P Hp). exact Hp. Qed.
  Lemma coordinates_is_pt p (P : ECgrp K b h2 h3 hb) : coordinates (P : EC K b) = Some p -> is_pt K b h2 h3 hb p P.
  Proof. unfold coordinates, is_pt. destruct (EC.pt K b P); [discriminate|]. intros E. injection E as <-. reflexivity. Qed.
  Lemma coordinates_ex (P : ECgrp K b h2 h3 hb) : P <> g0 -> exists p, coordinates (P : EC K b) = Some p.
  Proof. intros N. destruct (is_pt_ex K b h2 h3 hb P N) as [p Hp]. unfold is_pt in Hp. unfold coordinates. rewrite Hp. eauto. Qed.
End Coords.
Notation pt1 := (is_pt Fq b1 two_q three_q b1_neq0).
Notation pt2 := (is_pt Fq2 b2 two_q2 three_q2 b2_neq0).
Notation ptk := (is_pt Fr bk two_r three_r bk_neq0).

Lemma sem_p1_cst (W : Fld) o p : sem (p1_assign_constant W o) p -> o = Some p.
Proof. destruct o as [[x y]|]; cbn; [intros ->; reflexivity|tauto]. Qed.
Lemma hon_p1_cst (W : Fld) p : honest (p1_assign_constant W (Some p)) p.
Proof. destruct p; reflexivity. Qed.
Lemma sem_p2_cst (W : Fld) o p : sem (p2_assign_constant W o) p -> o = Some p.
Proof. destruct o as [[[x0 x1] [y0 y1]]|]; cbn; [intros ->; reflexivity|tauto]. Qed.
Lemma hon_p2_cst (W : Fld) p : honest (p2_assign_constant W (Some p)) p.
Proof. destruct p as [[x0 x1] [y0 y1]]; reflexivity. Qed.

Lemma sem_cst1 (Q : G1) p : sem (g1_assign_constant Q) p -> pt1 p Q.
Proof. unfold g1_assign_constant. intros H. apply sem_p1_cst in H. exact (coordinates_is_pt Fq b1 two_q three_q b1_neq0 p Q H). Qed.
Lemma hon_cst1 (Q : G1) : Q <> g0 -> exists p, honest (g1_assign_constant Q) p.
Proof.
  intros N. destruct (coordinates_ex Fq b1 two_q three_q b1_neq0 Q N) as [p Hp]. exists p. unfold g1_assign_constant. rewrite Hp. apply hon_p1_cst.
Qed.
Lemma sem_cst2 (Q : G2c) p : sem (g2_assign_constant Q) p -> pt2 p Q.
Proof.
  unfold g2_assign_constant. intros H. apply sem_p2_cst in H. destruct (geqb _ _); [|discriminate].
  exact (coordinates_is_pt Fq2 b2 two_q2 three_q2 b2_neq0 p Q H).
Qed.
Lemma hon_cst2 (Q : G2c) : Q <> g0 -> zmul r_mod Q = g0 -> exists p, honest (g2_assign_constant Q) p.
Proof.
  intros N T. destruct (coordinates_ex Fq2 b2 two_q2 three_q2 b2_neq0 Q N) as [p Hp]. exists p. unfold g2_assign_constant.
  assert (E : geqb (zmul r_mod Q) g0 = true) by (apply geqb_eq; exact T). rewrite E, Hp. apply hon_p2_cst.
Qed.

Notation noi := (no_sqrt_m1 q_mod q_prime eq_refl).
Lemma sem_sel2 (c : bool) (p q x : point2 Fq) : sem (p2_select Fq Fr (bit Fr c) p q) x -> x = if c then p else q.
Proof. exact (sem_p2_select Fq Fr noi c p q x). Qed.
Lemma hon_sel2 (c : bool) (p q : point2 Fq) : honest (p2_select Fq Fr (bit Fr c) p q) (if c then p else q).
Proof. exact (hon_p2_select Fq Fr noi c p q). Qed.
Lemma sem_addi2 (p q : point2 Fq) (P0 Q0 : G2c) c : pt2 p P0 -> pt2 q Q0 -> P0 <> Q0 -> P0 <> (⊖ Q0)%grp ->
  sem (p2_add_incomplete Fq p q) c -> pt2 c (P0 ⊕ Q0)%grp.
Proof. intros HP HQ _ _ Hc. exact (proj2 (proj2 (sem_p2_addi Fq noi b2 two_q2 three_q2 b2_neq0 p q P0 Q0 c HP HQ Hc))). Qed.
Lemma sem_add2 (p q : point2 Fq) (P0 Q0 : G2c) c : pt2 p P0 -> pt2 q Q0 -> sem (p2_add Fq p q) c ->
  P0 <> Q0 /\ P0 <> (⊖ Q0)%grp /\ pt2 c (P0 ⊕ Q0)%grp.
Proof. exact (sem_p2_add Fq noi b2 two_q2 three_q2 b2_neq0 p q P0 Q0 c). Qed.
Lemma hon_addi2 (p q : point2 Fq) (P0 Q0 : G2c) : pt2 p P0 -> pt2 q Q0 -> P0 <> Q0 -> P0 <> (⊖ Q0)%grp ->
  exists c, honest (p2_add_incomplete Fq p q) c.
Proof. exact (hon_p2_addi Fq noi b2 two_q2 three_q2 b2_neq0 p q P0 Q0). Qed.
Lemma hon_add2 (p q : point2 Fq) (P0 Q0 : G2c) : pt2 p P0 -> pt2 q Q0 -> P0 <> Q0 -> P0 <> (⊖ Q0)%grp ->
  exists c, honest (p2_add Fq p q) c.
Proof. exact (hon_p2_add Fq noi b2 two_q2 three_q2 b2_neq0 p q P0 Q0). Qed.

Lemma nw85 : number_of_windows NUM_BITS WINDOW_SIZE = 85%nat. Proof. reflexivity. Qed.
Lemma nw_ge3 : (3 <= number_of_windows NUM_BITS WINDOW_SIZE)%nat. Proof. rewrite nw85. lia. Qed.
Lemma w_ge2 : (2 <= WINDOW_SIZE)%nat. Proof. unfold WINDOW_SIZE. lia. Qed.
Lemma ord_big : 2 ^ Z.of_nat (NUM_BITS - 2) <= r_mod. Proof. vm_compute. discriminate. Qed.

(** the scalars whose multiplication meets no exceptional case *)
Definition regular1 (aux1 : G1) (s : Fr) : Prop := regular_fixed G1 NUM_BITS WINDOW_SIZE g1 aux1 (zbits 254 (fval (s : Fp r_mod))).
Definition regular2 (aux2 : G2c) (s : Fr) : Prop := regular_fixed G2c NUM_BITS WINDOW_SIZE g2 aux2 (zbits 254 (fval (s : Fp r_mod))).

(** conversion unfolds the thin wrappers first *)
Strategy expand [g1_assign_fixed_point g2_assign_fixed_point g1_mul g2_mul].
Strategy 1000 [assign_fixed_point fixed_mul sem honest cbind zmul].

Section Tables.
  Variable aux1 : G1.
  Variable aux2 : G2c.
  Lemma sem_table1 t : sem (g1_assign_fixed_point aux1) t ->
    sem (assign_fixed_point G1 (point1 Fq) g1_assign_constant NUM_BITS WINDOW_SIZE g1 aux1) t.
  Proof. unfold g1_assign_fixed_point. intros H. destruct (sem_binv _ _ _ H) as (t' & H1 & H'); clear H; rename H' into H. destruct (sem_binv _ _ _ H) as (p & _ & H'); clear H; rename H' into H. cbn in H. subst. exact H1. Qed.

  Lemma sem_g1_mul t s out : sem (g1_assign_fixed_point aux1) t -> sem (g1_mul t s) out -> pt1 out (g1mul g1 s).
  Proof.
    intros Ht H. apply sem_table1 in Ht.
    destruct (sem_fixed_mul G1 Fr (point1 Fq) g1_assign_constant (p1_select Fq Fr) (p1_add_incomplete Fq) (p1_add Fq) NUM_BITS
      pt1 WINDOW_SIZE w_ge2 nw_ge3 (sem_p1_select Fq Fr) r_mod g1 aux1 r_prime g1_order g1_neq0 ord_big sem_cst1
      (sem_p1_addi Fq b1 two_q three_q b1_neq0) (sem_p1_add Fq b1 two_q three_q b1_neq0) t s (decompose s) out Ht (decompose_length s) H)
      as (bs & _ & E & R & _).
    rewrite compose_bits in E. subst s. unfold g1mul, smul. unfold fr. rewrite fval_of_Z, zmul_mod; [exact R|discriminate|exact g1_order].
  Qed.
  Lemma hon_g1_mul t s : sem (g1_assign_fixed_point aux1) t -> regular1 aux1 s -> exists out, honest (g1_mul t s) out.
  Proof.
    intros Ht R. apply sem_table1 in Ht. unfold g1_mul. rewrite decompose_bits.
    destruct (hon_fixed_mul G1 Fr (point1 Fq) g1_assign_constant (p1_select Fq Fr) (p1_add_incomplete Fq) (p1_add Fq) NUM_BITS
      pt1 WINDOW_SIZE w_ge2 nw_ge3 (sem_p1_select Fq Fr) (hon_p1_select Fq Fr) r_mod g1 aux1 r_prime g1_order g1_neq0 ord_big sem_cst1
      (sem_p1_addi Fq b1 two_q three_q b1_neq0) (sem_p1_add Fq b1 two_q three_q b1_neq0)
      (hon_p1_addi Fq b1 two_q three_q b1_neq0) (hon_p1_add Fq b1 two_q three_q b1_neq0) t s (zbits 254 (fval (s : Fp r_mod))) Ht
      (zbits_length _ _) (compose_decompose s) R) as (out & Ho & _). exists out. exact Ho.
  Qed.
  Lemma sem_g2_mul t s out : sem (g2_assign_fixed_point aux2) t -> sem (g2_mul t s) out -> pt2 out (g2mul g2 s).
  Proof.
    intros Ht H. unfold g2_assign_fixed_point in Ht. unfold g2_mul in H.
    pose proof (sem_fixed_mul G2c Fr (point2 Fq) g2_assign_constant (p2_select Fq Fr) (p2_add_incomplete Fq) (p2_add Fq) NUM_BITS
      pt2 WINDOW_SIZE w_ge2 nw_ge3 sem_sel2 r_mod g2 aux2) as X.
    specialize (X r_prime g2_order g2_neq0 ord_big). specialize (X sem_cst2). specialize (X sem_addi2). specialize (X sem_add2). specialize (X t s (decompose s) out Ht).
    specialize (X (decompose_length s) H). destruct X as (bs & _ & E & R & _).
    rewrite compose_bits in E. subst s. unfold g2mul, smul. unfold fr. rewrite fval_of_Z, zmul_mod; [exact R|discriminate|exact g2_order].
  Qed.
  Lemma hon_g2_mul t s : sem (g2_assign_fixed_point aux2) t -> regular2 aux2 s -> exists out, honest (g2_mul t s) out.
  Proof.
    intros Ht R. unfold g2_assign_fixed_point in Ht. unfold g2_mul. rewrite decompose_bits.
    pose proof (hon_fixed_mul G2c Fr (point2 Fq) g2_assign_constant (p2_select Fq Fr) (p2_add_incomplete Fq) (p2_add Fq) NUM_BITS
      pt2 WINDOW_SIZE w_ge2 nw_ge3 sem_sel2 hon_sel2 r_mod g2 aux2) as X.
    specialize (X r_prime g2_order g2_neq0 ord_big). specialize (X sem_cst2). specialize (X sem_addi2). specialize (X sem_add2).
    specialize (X hon_addi2 hon_add2).
    specialize (X t s (zbits 254 (fval (s : Fp r_mod))) Ht (zbits_length _ _) (compose_decompose s) R). destruct X as (out & Ho & _). exists out. exact Ho.
  Qed.

  (** *** normalise and expose *)
  Lemma sem_norm1 p l : sem (g1_normalize p) l -> is_reduced (fst l) (fst p) /\ is_reduced (snd l) (snd p).
  Proof.
    unfold g1_normalize, p1_normalize. intros H. destruct (sem_binv _ _ _ H) as (lx & (x & Hx & Ex) & H'); clear H; rename H' into H. destruct (sem_binv _ _ _ H) as (ly & (y & Hy & Ey) & H'); clear H; rename H' into H.
    cbn in Ex, Ey, H. subst. cbn [fst snd]. auto.
  Qed.
  Lemma hon_norm1 p : honest (g1_normalize p) (reduced (fst p), reduced (snd p)).
  Proof.
    unfold g1_normalize, p1_normalize. apply (hbind _ _ (reduced (fst p))); [split; [apply reduced_ok|reflexivity]|].
    apply (hbind _ _ (reduced (snd p))); [split; [apply reduced_ok|reflexivity]|]. reflexivity.
  Qed.
  Lemma sem_norm2 p l : sem (g2_normalize p) l ->
    is_reduced (fst (fst l)) (fst (fst p)) /\ is_reduced (snd (fst l)) (snd (fst p)) /\
    is_reduced (fst (snd l)) (fst (snd p)) /\ is_reduced (snd (snd l)) (snd (snd p)).
  Proof.
    unfold g2_normalize, p2_normalize. intros H. destruct (sem_binv _ _ _ H) as (lx & Hx & H'); clear H; rename H' into H. destruct (sem_binv _ _ _ H) as (ly & Hy & H'); clear H; rename H' into H.
    apply (sem_norm1 (fst p) lx) in Hx. apply (sem_norm1 (snd p) ly) in Hy. cbn in H. subst. cbn [fst snd]. tauto.
  Qed.
  Lemma hon_norm2 p : honest (g2_normalize p) ((reduced (fst (fst p)), reduced (snd (fst p))), (reduced (fst (snd p)), reduced (snd (snd p)))).
  Proof.
    unfold g2_normalize, p2_normalize. eapply hbind; [exact (hon_norm1 (fst p))|]. eapply hbind; [exact (hon_norm1 (snd p))|]. reflexivity.
  Qed.
  Lemma wrapv_len4 (l : list Fr) b : length l = 4%nat -> length (wrapv Fr b l) = 2%nat.
  Proof. destruct l as [|x1 [|x2 [|x3 [|x4 [|]]]]]; cbn [length]; intros H; try discriminate. reflexivity. Qed.

  Lemma coord_to_public_len (x : Fq) : length (coord_to_public x) = 2%nat.
  Proof. reflexivity. Qed.
  Lemma point_to_public_len (P : G1) : length (point_to_public P) = 4%nat.
  Proof. unfold point_to_public. rewrite app_length, !coord_to_public_len. reflexivity. Qed.
  Lemma point2_to_public_len (P : G2c) : length (point2_to_public P) = 8%nat.
  Proof. unfold point2_to_public. destruct (xy P) as [x y]. rewrite !app_length, !coord_to_public_len. reflexivity. Qed.

  Definition base_ok (ob : option Fr) : Prop := match ob with Some b => b = limb_base | None => True end.
  Lemma sem_expose_g1 inst t s ob off base off' : base_ok ob -> sem (g1_assign_fixed_point aux1) t ->
    sem (expose_g1 inst t s ob off) (base, off') ->
    base = limb_base /\ off' = (off + 4)%nat /\ exists l, g1_encodes (g1mul g1 s) l /\ length l = 4%nat /\ exposed Fr inst off l.
  Proof.
    intros Hb Ht H. unfold expose_g1 in H. destruct (sem_binv _ _ _ H) as (p & Hp & H'); clear H; rename H' into H. destruct (sem_binv _ _ _ H) as (l & Hl & H'); clear H; rename H' into H.
    apply (sem_g1_mul t s p Ht) in Hp. apply sem_norm1 in Hl as [Rx Ry]. unfold g1_expose in H. apply sem_optimal in H as (Eb & He & Eo).
    assert (B : base = limb_base) by (destruct ob as [b0|]; [rewrite Eb; exact Hb|exact Eb]). rewrite B in He, Eo.
    apply reduced_encodes in Rx as [Cx Lx]. apply reduced_encodes in Ry as [Cy Ly]. cbn [flat_map] in He, Eo. rewrite app_nil_r in He, Eo.
    assert (LL : length (wrapv Fr limb_base (fst l) ++ wrapv Fr limb_base (snd l)) = 4%nat) by (rewrite app_length, (wrapv_len4 _ _ Lx), (wrapv_len4 _ _ Ly); reflexivity).
    split; [exact B|]. rewrite LL in Eo. split; [exact Eo|]. exists (wrapv Fr limb_base (fst l) ++ wrapv Fr limb_base (snd l)).
    split; [|split; [exact LL|exact He]]. split; [exact (is_pt_neq0 _ _ _ _ _ _ _ Hp)|]. exists (wrapv Fr limb_base (fst l)), (wrapv Fr limb_base (snd l)).
    rewrite (is_pt_xy _ _ _ _ _ _ _ Hp). split; [reflexivity|]. split; [exact Cx|exact Cy].
  Qed.
  Lemma hon_expose_g1 inst t s ob off : base_ok ob -> sem (g1_assign_fixed_point aux1) t -> regular1 aux1 s ->
    exposed Fr inst off (point_to_public (g1mul g1 s)) -> honest (expose_g1 inst t s ob off) (limb_base, (off + 4)%nat).
  Proof.
    intros Hb Ht R He. destruct (hon_g1_mul t s Ht R) as [p Hp]. pose proof (sem_g1_mul t s p Ht (honest_sem _ _ Hp)) as HP.
    unfold expose_g1. eapply hbind; [exact Hp|]. eapply hbind; [apply hon_norm1|]. unfold g1_expose. cbn [fst snd].
    assert (B : match ob with Some b => b | None => limb_base end = limb_base) by (destruct ob as [b0|]; [exact Hb|reflexivity]).
    assert (E : flat_map (wrapv Fr limb_base) [reduced (fst p); reduced (snd p)] = point_to_public (g1mul g1 s)).
    { cbn [flat_map]. rewrite app_nil_r, !wrapv_reduced. unfold point_to_public.
      rewrite (is_pt_xy Fq b1 two_q three_q b1_neq0 p (g1mul g1 s) HP). reflexivity. }
    pose proof (hon_optimal Fr inst limb_base [reduced (fst p); reduced (snd p)] ob off) as X. cbv zeta in X. rewrite B, E in X.
    specialize (X He). rewrite point_to_public_len in X. exact X.
  Qed.
  Lemma sem_expose_g2 inst t s off base off' p l : sem (g2_assign_fixed_point aux2) t ->
    sem (g2_mul t s) p -> sem (g2_normalize p) l -> sem (g2_expose inst l (Some limb_base) off) (base, off') ->
    off' = (off + 8)%nat /\ exists l, g2_encodes (g2mul g2 s) l /\ length l = 8%nat /\ exposed Fr inst off l.
  Proof.
    intros Ht Hp Hl H. apply (sem_g2_mul t s p Ht) in Hp. apply sem_norm2 in Hl as (R0 & R1 & R2 & R3). unfold g2_expose in H. apply sem_optimal in H as (Eb & He & Eo).
    subst base. apply reduced_encodes in R0 as [C0 L0]. apply reduced_encodes in R1 as [C1 L1]. apply reduced_encodes in R2 as [C2 L2]. apply reduced_encodes in R3 as [C3 L3].
    cbn [flat_map] in He, Eo. rewrite app_nil_r in He, Eo.
    set (w := wrapv Fr limb_base) in *.
    assert (LL : length (w (fst (fst l)) ++ w (snd (fst l)) ++ w (fst (snd l)) ++ w (snd (snd l))) = 8%nat)
      by (rewrite !app_length; unfold w; rewrite (wrapv_len4 _ _ L0), (wrapv_len4 _ _ L1), (wrapv_len4 _ _ L2), (wrapv_len4 _ _ L3); reflexivity).
    rewrite LL in Eo. split; [exact Eo|]. exists (w (fst (fst l)) ++ w (snd (fst l)) ++ w (fst (snd l)) ++ w (snd (snd l))).
    split; [|split; [exact LL|exact He]]. split; [exact (is_pt_neq0 _ _ _ _ _ _ _ Hp)|].
    exists (w (fst (fst l))), (w (snd (fst l))), (w (fst (snd l))), (w (snd (snd l))).
    rewrite (is_pt_xy _ _ _ _ _ _ _ Hp). split; [reflexivity|]. split; [exact C0|]. split; [exact C1|]. split; [exact C2|exact C3].
  Qed.
  Lemma hon_expose_g2 inst t s off p : sem (g2_assign_fixed_point aux2) t -> sem (g2_mul t s) p ->
    exposed Fr inst off (point2_to_public (g2mul g2 s)) ->
    exists l, honest (g2_normalize p) l /\ honest (g2_expose inst l (Some limb_base) off) (limb_base, (off + 8)%nat).
  Proof.
    intros Ht Hp He. pose proof (sem_g2_mul t s p Ht Hp) as HP.
    eexists. split; [apply hon_norm2|]. unfold g2_expose. cbn [fst snd].
    assert (E : flat_map (wrapv Fr limb_base) [reduced (fst (fst p)); reduced (snd (fst p)); reduced (fst (snd p)); reduced (snd (snd p))]
                = point2_to_public (g2mul g2 s)).
    { cbn [flat_map]. rewrite app_nil_r, !wrapv_reduced. unfold point2_to_public.
      rewrite (is_pt_xy Fq2 b2 two_q2 three_q2 b2_neq0 p (g2mul g2 s) HP). destruct p as [x y]. reflexivity. }
    pose proof (hon_optimal Fr inst limb_base [reduced (fst (fst p)); reduced (snd (fst p)); reduced (fst (snd p)); reduced (snd (snd p))] (Some limb_base) off) as X.
    cbv beta iota zeta in X. rewrite E in X.
    specialize (X He). rewrite point2_to_public_len in X. exact X.
  Qed.
End Tables.
