(** C43, C45: the Grumpkin chip and the quadratic extension. *)
From Coq Require Import ZArith List Bool Lia Setoid Field.
From Verif.Base Require Import Fermat Fld Fp EC Primes Curves Group Order Fq2 Poly.
From Verif.Model Require Import Points Circ MainGate GrumpkinChip IntegerChip FixedBase DkgCircuit.
From Verif.Spec Require Import Dvrf CircuitSpec.
From Verif.Proofs Require Import DkgProofs SvdwProofs CircProofs GrumpkinProofs FixedBaseProofs IntegerProofs CircuitParts CircuitPoints DkgCircuitProofs Exceptional Rare.
Import ListNotations.
Open Scope Z_scope.

Lemma bits_value_bval bs : bits_value bs = bval bs.
Proof. induction bs as [|c bs IH]; cbn [bits_value bval]; [reflexivity|]. rewrite IH. destruct c; reflexivity. Qed.
Lemma bit_cells_eq bs : bit_cells bs = map (bit Fr) bs.
Proof. reflexivity. Qed.
Lemma bval_firstn bs i : (i <= length bs)%nat -> bval (firstn i bs) = bval bs mod 2 ^ Z.of_nat i.
Proof.
  intros L. rewrite <- (firstn_skipn i bs) at 2. rewrite bval_cat. pose proof (bval_range (firstn i bs)) as B.
  rewrite firstn_length, Nat.min_l in * by lia. rewrite Z.mul_comm, Z.mod_add by lia. rewrite Z.mod_small by lia. reflexivity.
Qed.
Lemma regular_mul_exceptional (A P : Gk) bs :
  regular Fr bk two_r three_r bk_neq0 A P bs <-> ~ mul_exceptional (Z.of_nat (length bs)) A P (bits_value bs).
Proof.
  rewrite bits_value_bval. unfold regular, mul_exceptional. split.
  - intros (H1 & H2 & H3) [(i & Hi & H)|[H|H]]; [|exact (H2 H)|exact (H3 H)].
    destruct (H1 (Z.to_nat i) ltac:(lia)) as [X Y]. rewrite bval_firstn, Z2Nat.id in X, Y by lia. destruct H as [H|H]; [exact (X H)|exact (Y H)].
  - intros H. split; [|split].
    + intros i Hi. rewrite bval_firstn by lia. split; intros X; apply H; left; exists (Z.of_nat i); (split; [lia|]); [left|right]; exact X.
    + intros X. apply H. right. left. exact X.
    + intros X. apply H. right. right. exact X.
Qed.
Notation xyk P := (xy (P : EC Fr bk)).
Lemma ptk_xy (P : Gk) : P <> g0 -> ptk (xyk P) P. Proof. exact (xy_is_pt Fr bk two_r three_r bk_neq0 P). Qed.
Lemma xy_ptk p (P : Gk) : ptk p P -> p = xyk P. Proof. intros H. symmetry. exact (is_pt_xy Fr bk two_r three_r bk_neq0 p P H). Qed.
Lemma opp_neq0 (G : Grp) (A : G) : A <> g0 -> (⊖ A)%grp <> g0.
Proof. intros N E. apply N. rewrite <- (gopp_inv G A), E. apply gopp_0. Qed.

(** The double-and-add of the chip, for every auxiliary point A, point P and bit string: outside the exceptional cases
    the constraints have the one result bits * P and the prover finds it, in an exceptional case they have no solution. *)
Theorem C43_mul_bits (A P : Gk) (bs : list bool) : A <> g0 -> P <> g0 ->
  computes_when (~ mul_exceptional (Z.of_nat (length bs)) A P (bits_value bs))
    (g_mul_bits Fr THREE_OVER_TWO (Some (xyk A, xyk (⊖ A)%grp)) (xyk P) (bit_cells bs)) (xyk (zmul (bits_value bs) P)).
Proof.
  intros NA NP. rewrite bit_cells_eq, bits_value_bval. rewrite <- bits_value_bval.
  pose proof (ptk_xy A NA) as HA. pose proof (ptk_xy _ (opp_neq0 Gk A NA)) as HN. pose proof (ptk_xy P NP) as HP.
  assert (S : forall x, sem (g_mul_bits Fr THREE_OVER_TWO (Some (xyk A, xyk (⊖ A)%grp)) (xyk P) (map (bit Fr) bs)) x ->
     ~ mul_exceptional (Z.of_nat (length bs)) A P (bits_value bs) /\ x = xyk (zmul (bits_value bs) P)).
  { intros x H. split.
    - apply regular_mul_exceptional. exact (sem_mul_bits_regular Fr bk THREE_OVER_TWO T32_ok two_r three_r bk_neq0 Gk_no_torsion A P _ _ _ bs x HA HN HP H).
    - apply xy_ptk. rewrite bits_value_bval. exact (sem_mul_bits Fr bk THREE_OVER_TWO T32_ok two_r three_r bk_neq0 Gk_no_torsion A P _ _ _ bs x HA HN HP H). }
  assert (C : ~ mul_exceptional (Z.of_nat (length bs)) A P (bits_value bs) ->
     honest (g_mul_bits Fr THREE_OVER_TWO (Some (xyk A, xyk (⊖ A)%grp)) (xyk P) (map (bit Fr) bs)) (xyk (zmul (bits_value bs) P))).
  { intros R. apply regular_mul_exceptional in R.
    destruct (honest_mul_bits Fr bk THREE_OVER_TWO T32_ok two_r three_r bk_neq0 Gk_no_torsion A P _ _ _ bs HA HN HP R) as (out & Ho & Hp).
    rewrite bits_value_bval. pose proof (xy_ptk out (zmul (bval bs) P) Hp) as E. rewrite E in Ho. exact Ho. }
  split; intros x; split.
  - apply S.
  - intros [R ->]. apply honest_sem, C, R.
  - intros H. apply S. apply honest_sem, H.
  - intros [R ->]. apply C, R.
Qed.

(** the point operations of the chip *)
Theorem C43_add (P Q : Gk) : P <> g0 -> Q <> g0 ->
  computes_when (P <> Q /\ P <> (⊖ Q)%grp) (g_add Fr (xyk P) (xyk Q)) (xyk (P ⊕ Q)%grp).
Proof.
  intros NP NQ. pose proof (ptk_xy P NP) as HP. pose proof (ptk_xy Q NQ) as HQ.
  assert (S : forall x, sem (g_add Fr (xyk P) (xyk Q)) x -> (P <> Q /\ P <> (⊖ Q)%grp) /\ x = xyk (P ⊕ Q)%grp).
  { intros x H. destruct (sem_g_add Fr bk two_r three_r bk_neq0 _ _ P Q x HP HQ H) as [D X]. split; [|exact (xy_ptk x (P ⊕ Q)%grp X)].
    exact (proj1 (x_neq Fr bk two_r three_r bk_neq0 _ _ P Q HP HQ) D). }
  assert (C : P <> Q /\ P <> (⊖ Q)%grp -> honest (g_add Fr (xyk P) (xyk Q)) (xyk (P ⊕ Q)%grp)).
  { intros [N1 N2]. destruct (honest_g_add Fr bk two_r three_r bk_neq0 _ _ P Q HP HQ N1 N2) as (c & Hc & X).
    pose proof (xy_ptk c (P ⊕ Q)%grp X) as E. rewrite E in Hc. exact Hc. }
  split; intros x; split.
  - apply S.
  - intros [R ->]. apply honest_sem, C, R.
  - intros H. apply S. apply honest_sem, H.
  - intros [R ->]. apply C, R.
Qed.
Theorem C43_double (P : Gk) : P <> g0 ->
  computes (g_double Fr THREE_OVER_TWO (xyk P)) (xyk (P ⊕ P)%grp) /\ computes (g_double_incomplete Fr THREE_OVER_TWO (xyk P)) (xyk (P ⊕ P)%grp).
Proof.
  intros NP. pose proof (ptk_xy P NP) as HP. split.
  - destruct (honest_g_double Fr bk THREE_OVER_TWO T32_ok two_r three_r bk_neq0 Gk_no_torsion _ P HP) as (c & Hc & X).
    pose proof (xy_ptk c (P ⊕ P)%grp X) as E. rewrite E in Hc. split; [|exact Hc]. intros x. split; [|intros ->; apply honest_sem, Hc].
    intros H. exact (xy_ptk x (P ⊕ P)%grp (sem_g_double Fr bk THREE_OVER_TWO T32_ok two_r three_r bk_neq0 Gk_no_torsion _ P x HP H)).
  - destruct (honest_g_double_incomplete Fr bk THREE_OVER_TWO T32_ok two_r three_r bk_neq0 Gk_no_torsion _ P HP) as (c & Hc & X).
    pose proof (xy_ptk c (P ⊕ P)%grp X) as E. rewrite E in Hc. split; [|exact Hc]. intros x. split; [|intros ->; apply honest_sem, Hc].
    intros H. exact (xy_ptk x (P ⊕ P)%grp (sem_g_double_incomplete Fr bk THREE_OVER_TWO T32_ok two_r three_r bk_neq0 Gk_no_torsion _ P x HP H)).
Qed.
(** The addition without the check: the sum when the x coordinates differ. *)
Theorem C43_add_incomplete (P Q : Gk) c : P <> g0 -> Q <> g0 -> P <> Q -> P <> (⊖ Q)%grp ->
  sem (g_add_incomplete Fr (xyk P) (xyk Q)) c -> c = xyk (P ⊕ Q)%grp.
Proof.
  intros NP NQ N1 N2 H. pose proof (ptk_xy P NP) as HP. pose proof (ptk_xy Q NQ) as HQ.
  pose proof (proj2 (x_neq Fr bk two_r three_r bk_neq0 _ _ P Q HP HQ) (conj N1 N2)) as D.
  exact (xy_ptk c (P ⊕ Q)%grp (sem_g_add_incomplete Fr bk two_r three_r bk_neq0 _ _ P Q c HP HQ H D)).
Qed.
(** ... and for P + P any value of the slope is accepted, so that the constraints do not determine the result. *)
Section Loose.
  Variable K : Fld.
  Add Field KfL : (flaw K).
  Open Scope fld_scope.
  Lemma incomplete_loose (x y l : K) : sem (g_add_incomplete K (x, y) (x, y)) (l * l - x - x, l * (x - (l * l - x - x)) - y).
  Proof.
    unfold g_add_incomplete. apply sem_bind. exists [l; l; x; x; l * l - x - x]. split.
    { unfold apply. apply sem_bind. exists [l; l; x; x; l * l - x - x]. split.
      - cbn. exists l. split; [exact I|]. exists l. split; [exact I|]. exists (l * l - x - x). split; [exact I|reflexivity].
      - apply sem_bind. exists tt. split; [|reflexivity]. cbn. exists tt. split; [|reflexivity]. unfold row. cbn. ring. }
    cbn [nth]. apply sem_bind. exists tt. split; [exists tt; split; reflexivity|].
    apply sem_bind. exists (l * x - y). split; [apply sem_mul_sub; reflexivity|].
    apply sem_bind. exists [l; x; y; l * x - y]. split.
    { unfold apply. apply sem_bind. exists [l; x; y; l * x - y]. split; [reflexivity|].
      apply sem_bind. exists tt. split; [|reflexivity]. cbn. exists tt. split; [|reflexivity]. unfold row. cbn. ring. }
    apply sem_bind. exists [l; l * l - x - x; (l * x - y) - l * (l * l - x - x); l * x - y]. split.
    { unfold apply. apply sem_bind. exists [l; l * l - x - x; (l * x - y) - l * (l * l - x - x); l * x - y]. split.
      - cbn. exists ((l * x - y) - l * (l * l - x - x)). split; [exact I|reflexivity].
      - apply sem_bind. exists tt. split; [|reflexivity]. cbn. exists tt. split; [|reflexivity]. unfold row. cbn. ring. }
    cbn [nth sem]. f_equal. ring.
  Qed.
End Loose.
Theorem C43_add_incomplete_underconstrained (x y l : Fr) :
  sem (g_add_incomplete Fr (x, y) (x, y)) (l * l - x - x, l * (x - (l * l - x - x)) - y)%fld.
Proof. apply incomplete_loose. Qed.

(** Assigned points are points of the curve, whatever the prover writes; the auxiliary pair is a point and its opposite. *)
Theorem C43_assign_point w p : sem (assign_point Fr bk w) p <-> exists P : Gk, P <> g0 /\ p = xyk P.
Proof.
  split.
  - intros H. destruct (sem_assign_point Fr bk two_r three_r bk_neq0 w p H) as (P & HP). exists P.
    split; [exact (is_pt_neq0 Fr bk two_r three_r bk_neq0 p P HP)|exact (xy_ptk p P HP)].
  - intros (P & NP & ->). pose proof (ptk_xy P NP) as HP. unfold assign_point. apply sem_bind. exists (fst (xyk P)). split; [apply sem_assign_value; exact I|].
    apply sem_bind. exists (snd (xyk P)). split; [apply sem_assign_value; exact I|]. apply sem_bind. exists tt. split.
    + apply (sem_on_curve Fr bk two_r three_r bk_neq0). exists P. rewrite <- surjective_pairing. exact HP.
    + cbn [sem]. apply surjective_pairing.
Qed.
Theorem C43_assign_aux w a an : sem (assign_aux Fr bk w) (a, an) <-> exists A : Gk, A <> g0 /\ a = xyk A /\ an = xyk (⊖ A)%grp.
Proof.
  unfold assign_aux. rewrite sem_bind. split.
  - intros (a' & Ha & H). apply C43_assign_point in Ha as (A & NA & ->). destruct (sem_binv _ _ _ H) as (c & Hc & H1). cbn [sem] in H1.
    apply pair_inj in H1 as [-> ->]. exists A. split; [exact NA|]. split; [reflexivity|].
    exact (xy_ptk c (⊖ A)%grp (sem_g_neg Fr bk two_r three_r bk_neq0 _ A c (ptk_xy A NA) Hc)).
  - intros (A & NA & -> & ->). exists (xyk A). split; [apply C43_assign_point; exists A; split; [exact NA|reflexivity]|].
    destruct (honest_g_neg Fr bk two_r three_r bk_neq0 _ A (ptk_xy A NA)) as (c & Hc & X). pose proof (xy_ptk c (⊖ A)%grp X) as E. rewrite E in Hc.
    apply sem_bind. exists (xyk (⊖ A)%grp). split; [apply honest_sem, Hc|reflexivity].
Qed.
(** The bits handed to the multiplication are bits; nothing else is required of them. *)
Lemma sem_bits_rev (bs : list bool) hb : length hb = length bs -> sem (cmap (@assign_bit Fr) hb) (map (bit Fr) bs).
Proof.
  intros L. apply sem_cmap. revert hb L. induction bs as [|c bs IH]; intros [|h hb] L; try discriminate L; cbn [map]; constructor.
  - exact (proj2 (sem_cell1 Fr _ _ _) (bit_sq Fr c)).
  - apply IH. injection L. auto.
Qed.
Theorem C43_to_bits_unsafe hb bits : sem (to_bits_unsafe Fr hb) bits <-> exists bs, length bs = length hb /\ bits = bit_cells bs.
Proof.
  unfold to_bits_unsafe. split.
  - intros H. apply sem_bits in H as [L (bs & ->)]. exists bs. split; [rewrite <- L, map_length; reflexivity|reflexivity].
  - intros (bs & L & ->). rewrite bit_cells_eq. apply sem_bits_rev. auto.
Qed.
(** Multiplication by a scalar cell (254 bits recomposing to the cell modulo r): since the group has order q > r, the
    constraints accept z P for z = s and, when it fits in 254 bits, for z = s + r as well. *)
Lemma fr_eq_iff z (s : Fr) : 0 <= z < 2 ^ 254 -> (fr z = s <-> z = fval (s : Fp r_mod) \/ z = fval (s : Fp r_mod) + r_mod).
Proof.
  intros B. pose proof (fval_range r_mod s eq_refl) as R. assert (X : 2 ^ 254 < 2 * r_mod) by reflexivity.
  split.
  - intros E. assert (E' : z mod r_mod = fval (s : Fp r_mod)) by (rewrite <- E; unfold fr; rewrite fval_of_Z; reflexivity).
    pose proof (Z.div_mod z r_mod ltac:(discriminate)) as D. rewrite E' in D.
    assert (0 <= z / r_mod < 2) by (split; [apply Z.div_pos; lia|apply Z.div_lt_upper_bound; lia]).
    assert (C : z / r_mod = 0 \/ z / r_mod = 1) by lia. destruct C as [C|C]; rewrite C in D; lia.
  - intros [->| ->].
    + apply (of_Z_fval r_mod s).
    + apply Fp_ext. unfold fr. rewrite fval_of_Z. transitivity ((fval (s : Fp r_mod) + 1 * r_mod) mod r_mod); [f_equal; lia|]. rewrite Z.mod_add by discriminate. apply Z.mod_small. exact R.
Qed.
Theorem C43_mul_scalar (A P : Gk) (s : Fr) out : A <> g0 -> P <> g0 ->
  (sem (g_mul Fr THREE_OVER_TWO (Some (xyk A, xyk (⊖ A)%grp)) (xyk P) s (decompose s)) out <->
   exists z, (z = fval (s : Fp r_mod) \/ z = fval (s : Fp r_mod) + r_mod) /\ z < 2 ^ 254 /\ ~ gk_exceptional A P z /\ out = xyk (zmul z P)).
Proof.
  intros NA NP. unfold g_mul. rewrite sem_bind. split.
  - intros (bits & Hb & H). unfold to_bits in Hb. destruct (sem_binv _ _ _ Hb) as (bits' & Hb1 & Hb2). clear Hb.
    destruct (sem_binv _ _ _ Hb2) as (u & Hc & Hr). clear Hb2. cbn [sem] in Hr. subst bits'. apply constrain_inv in Hc.
    apply sem_bits in Hb1 as [L (bs & ->)]. rewrite map_length, decompose_length in L. rewrite compose_bits in Hc.
    destruct (C43_mul_bits A P bs NA NP) as [X _]. rewrite bit_cells_eq in X. apply X in H as [R E]. clear X.
    rewrite bits_value_bval in *. rewrite L in R. pose proof (bval_range bs) as B. rewrite L in B. change (Z.of_nat 254) with 254 in B.
    exists (bval bs). split; [apply fr_eq_iff; assumption|]. split; [apply B|]. split; [exact R|exact E].
  - intros (z & Hz & Bz & R & ->). assert (Bz' : 0 <= z < 2 ^ 254).
    { pose proof (fval_range r_mod s eq_refl). assert (0 < r_mod) by reflexivity. lia. }
    exists (map (bit Fr) (zbits 254 z)). split.
    + unfold to_bits. apply sem_bind. exists (map (bit Fr) (zbits 254 z)). split.
      * apply sem_bits_rev. rewrite decompose_length, zbits_length. reflexivity.
      * apply sem_bind. exists tt. split; [|reflexivity]. exists tt. split; [|reflexivity]. rewrite compose_bits, (bval_zbits 254) by exact Bz'. apply fr_eq_iff; assumption.
    + destruct (C43_mul_bits A P (zbits 254 z) NA NP) as [X _]. rewrite bit_cells_eq in X. apply X.
      rewrite bits_value_bval, zbits_length, (bval_zbits 254) by exact Bz'. split; [exact R|reflexivity].
Qed.

(** for the concrete generator and every non-zero scalar below q an auxiliary point exists, e.g. among gk, 2 gk, ..., 510 gk *)
Example C43_nonvacuous s : 0 < s < q_mod ->
  exists A : Gk, A <> g0 /\ ~ mul_exceptional 254 A gk s.
Proof.
  intros B. destruct (avoid (g0 :: gk_bad gk s) (map (fun i => zmul i (gk : Gk)) (zseq 511))) as (A & _ & N).
  - apply (multiples_NoDup (gk : Gk) q_mod); [exact q_prime|exact gk_neq0|exact (Gk_exponent gk)|reflexivity].
  - cbn [length]. rewrite gk_bad_length, map_length, length_zseq. lia.
  - exists A. split; [intros E; apply N; left; symmetry; exact E|]. intros X. apply N. right.
    apply -> (gk_exceptional_iff A gk s gk_neq0 B). exact X.
Qed.

(** ** C45: integer2.rs computes in Fq[u]/(u^2+1) *)
Section Ext.
  Variable W N : Fld.
  Variable no_i : forall x : W, (x * x <> - (1))%fld.
  Notation L := (Ext W no_i).
  Open Scope fld_scope.
  Add Field LfE : (flaw L).
  Lemma both {A} (c : circ A) v : (forall x, sem c x <-> x = v) -> (forall x, honest c x <-> sem c x) -> computes c v.
  Proof. intros S H. split; [exact S|]. apply H, S. reflexivity. Qed.
  Lemma ext_ops (a b d : L) :
    computes (i2_add W a b) (a + b) /\ computes (i2_sub W a b) (a - b) /\ computes (i2_sub_sub W a b d) (a - b - d) /\
    computes (i2_neg W a) (- a) /\ computes (i2_mul2 W a) (a + a) /\ computes (i2_mul3 W a) (a + a + a) /\
    computes (i2_mul W a b) (a * b) /\ computes (i2_square W a) (a * a).
  Proof.
    split; [|split; [|split; [|split; [|split; [|split; [|split]]]]]].
    - apply both; [apply (sem_i2_add W no_i)|reflexivity].
    - apply both; [apply (sem_i2_sub W no_i)|reflexivity].
    - apply both; [apply (sem_i2_sub_sub W no_i)|reflexivity].
    - apply both; [apply (sem_i2_neg W no_i)|reflexivity].
    - apply both; [|reflexivity]. intros x. rewrite (sem_i2_mul2 W no_i). replace ((1 + 1) * a) with (a + a) by ring. reflexivity.
    - apply both; [|reflexivity]. intros x. rewrite (sem_i2_mul3 W no_i). replace ((1 + (1 + 1)) * a) with (a + a + a) by ring. reflexivity.
    - apply both; [apply (sem_i2_mul W no_i)|reflexivity].
    - apply both; [apply (sem_i2_square W no_i)|reflexivity].
  Qed.
  Lemma ext_div (a b : L) : computes_when (b <> 0) (i2_div_incomplete W a b) (a / b).
  Proof.
    split; intros x.
    - apply (sem_i2_div W no_i).
    - split; [intros H; apply honest_sem in H; apply -> (sem_i2_div W no_i) in H; exact H|].
      intros [Nb ->]. destruct (hon_i2_div W no_i a b Nb) as (c & Hc & E). rewrite E in Hc. exact Hc.
  Qed.
  Lemma ext_checks (a b : L) :
    computes_when (a <> 0) (i2_assert_not_zero W a) tt /\ computes_when (a <> b) (i2_assert_not_equal W a b) tt /\
    computes_when (a = b) (i2_assert_equal W a b) tt.
  Proof.
    assert (U : forall u : unit, u = tt) by (intros []; reflexivity). split; [|split]; split; intros x.
    - rewrite (sem_i2_anz W no_i). pose proof (U x). tauto.
    - rewrite (U x). split; [intros H; apply honest_sem in H; apply -> (sem_i2_anz W no_i) in H; auto|]. intros [H _]. apply (hon_i2_anz W no_i); auto.
    - rewrite (sem_i2_ane W no_i). pose proof (U x). tauto.
    - rewrite (U x). split; [intros H; apply honest_sem in H; apply -> (sem_i2_ane W no_i) in H; auto|]. intros [H _]. apply (hon_i2_ane W no_i); auto.
    - destruct a as [a0 a1], b as [b0 b1]. cbn. pose proof (U x). split.
      + intros (_ & E1 & _ & E2 & _). subst. auto.
      + intros [E _]. exists tt. split; [exact (f_equal fst E)|]. exists tt. split; [exact (f_equal snd E)|auto].
    - destruct a as [a0 a1], b as [b0 b1]. cbn. pose proof (U x). split.
      + intros (E1 & E2 & _). subst. auto.
      + intros [E _]. split; [exact (f_equal fst E)|]. split; [exact (f_equal snd E)|auto].
  Qed.
  Lemma ext_select (t : bool) (a b : L) : computes (i2_select W N a b (bit N t)) (if t then a else b).
  Proof. split; [intros x; apply (sem_i2_sel W N no_i)|apply (hon_i2_sel W N no_i)]. Qed.
End Ext.

(** Every instruction of the extension field chip has exactly the result of the field operation. *)
Theorem C45_operations (a b d : Fq2) :
  (computes (i2_add Fq a b) (a + b) /\ computes (i2_sub Fq a b) (a - b) /\ computes (i2_sub_sub Fq a b d) (a - b - d) /\
   computes (i2_neg Fq a) (- a) /\ computes (i2_mul2 Fq a) (a + a) /\ computes (i2_mul3 Fq a) (a + a + a) /\
   computes (i2_mul Fq a b) (a * b) /\ computes (i2_square Fq a) (a * a))%fld.
Proof. exact (ext_ops Fq (no_sqrt_m1 q_mod q_prime eq_refl) a b d). Qed.
(** Division has the quotient as its only result when the divisor is non-zero, and no solution otherwise. *)
Theorem C45_division (a b : Fq2) : computes_when (b <> f0) (i2_div_incomplete Fq a b) (a / b)%fld.
Proof. exact (ext_div Fq (no_sqrt_m1 q_mod q_prime eq_refl) a b). Qed.
Theorem C45_checks (a b : Fq2) :
  computes_when (a <> f0) (i2_assert_not_zero Fq a) tt /\ computes_when (a <> b) (i2_assert_not_equal Fq a b) tt /\
  computes_when (a = b) (i2_assert_equal Fq a b) tt.
Proof. exact (ext_checks Fq (no_sqrt_m1 q_mod q_prime eq_refl) a b). Qed.
Theorem C45_select (t : bool) (a b : Fq2) : computes (i2_select Fq Fr a b (if t then f1 else f0)) (if t then a else b).
Proof. exact (ext_select Fq Fr (no_sqrt_m1 q_mod q_prime eq_refl) t a b). Qed.
(** The field is Fq[u]/(u^2+1): addition is by coordinates, Fq is embedded, u = (0,1) has square -1. *)
Section ExtSpec.
  Variable W : Fld.
  Variable no_i : forall x : W, (x * x <> - (1))%fld.
  Notation L := (Ext W no_i).
  Add Field WfE : (flaw W).
  Open Scope fld_scope.
  Lemma pair_eq2 (a b c d : W) : a = c -> b = d -> (a, b) = (c, d). Proof. congruence. Qed.
  Lemma ext_is (a0 a1 b0 b1 : W) :
    ((a0, a1) : L) + ((b0, b1) : L) = (a0 + b0, a1 + b1) /\ ((a0, 0) : L) * ((b0, b1) : L) = (a0 * b0, a0 * b1) /\ ((0, 1) : L) * ((0, 1) : L) = - (1).
  Proof. split; [|split]; apply pair_eq2; cbn; ring. Qed.
End ExtSpec.
Theorem C45_field (a0 a1 b0 b1 : Fq) : let u : Fq2 := (f0, f1) in
  (((a0, a1) : Fq2) + ((b0, b1) : Fq2) = (a0 + b0, a1 + b1) /\ ((a0, f0) : Fq2) * ((b0, b1) : Fq2) = (a0 * b0, a0 * b1) /\ u * u = - (1))%fld.
Proof. exact (ext_is Fq (no_sqrt_m1 q_mod q_prime eq_refl) a0 a1 b0 b1). Qed.

(** ** the points of the two base chips *)
Notation xy1 P := (xy (P : EC Fq b1)).
Notation xy2 P := (xy (P : EC Fq2 b2)).
Section Points.
  Variable K : Fld.
  Variable b : K.
  Hypotheses (h2 : two K <> f0) (h3 : three K <> f0) (hb : b <> f0).
  Notation E := (ECgrp K b h2 h3 hb).
  Notation is_pt := (is_pt K b h2 h3 hb).
  Variable add : K * K -> K * K -> circ (K * K).
  Hypothesis sem_add : forall p q (P Q : E) c, is_pt p P -> is_pt q Q -> sem (add p q) c -> P <> Q /\ P <> (⊖ Q)%grp /\ is_pt c (P ⊕ Q)%grp.
  Hypothesis hon_add : forall p q (P Q : E), is_pt p P -> is_pt q Q -> P <> Q -> P <> (⊖ Q)%grp -> exists c, honest (add p q) c.
  Lemma add_computes (P Q : E) : P <> g0 -> Q <> g0 -> computes_when (P <> Q /\ P <> (⊖ Q)%grp) (add (xy (P : EC K b)) (xy (Q : EC K b))) (xy ((P ⊕ Q)%grp : EC K b)).
  Proof.
    intros NP NQ. pose proof (xy_is_pt K b h2 h3 hb P NP) as HP. pose proof (xy_is_pt K b h2 h3 hb Q NQ) as HQ.
    assert (S : forall x, sem (add (xy (P : EC K b)) (xy (Q : EC K b))) x -> (P <> Q /\ P <> (⊖ Q)%grp) /\ x = xy ((P ⊕ Q)%grp : EC K b)).
    { intros x H. destruct (sem_add _ _ P Q x HP HQ H) as (N1 & N2 & X). split; [split; assumption|]. symmetry. exact (is_pt_xy K b h2 h3 hb x (P ⊕ Q)%grp X). }
    assert (C : P <> Q /\ P <> (⊖ Q)%grp -> honest (add (xy (P : EC K b)) (xy (Q : EC K b))) (xy ((P ⊕ Q)%grp : EC K b))).
    { intros [N1 N2]. destruct (hon_add _ _ P Q HP HQ N1 N2) as (c & Hc). destruct (S c (honest_sem _ _ Hc)) as [_ Ec]. rewrite Ec in Hc. exact Hc. }
    split; intros x; split.
    - apply S.
    - intros [R ->]. apply honest_sem, C, R.
    - intros H. apply S. apply honest_sem, H.
    - intros [R ->]. apply C, R.
  Qed.
End Points.
(** addition on bn256 G1 and on its twist *)
Theorem C44_add1 (P Q : G1) : P <> g0 -> Q <> g0 ->
  computes_when (P <> Q /\ P <> (⊖ Q)%grp) (p1_add Fq (xy1 P) (xy1 Q)) (xy1 (P ⊕ Q)%grp).
Proof. exact (add_computes Fq b1 two_q three_q b1_neq0 (p1_add Fq) (sem_p1_add Fq b1 two_q three_q b1_neq0) (hon_p1_add Fq b1 two_q three_q b1_neq0) P Q). Qed.
Theorem C44_add2 (P Q : G2c) : P <> g0 -> Q <> g0 ->
  computes_when (P <> Q /\ P <> (⊖ Q)%grp) (p2_add Fq (xy2 P) (xy2 Q)) (xy2 (P ⊕ Q)%grp) /\
  computes_when (P <> Q /\ P <> (⊖ Q)%grp) (p2_add_incomplete Fq (xy2 P) (xy2 Q)) (xy2 (P ⊕ Q)%grp).
Proof.
  intros NP NQ. pose proof (no_sqrt_m1 q_mod q_prime eq_refl) as NI. split.
  - exact (add_computes Fq2 b2 two_q2 three_q2 b2_neq0 (p2_add Fq) (sem_p2_add Fq (no_sqrt_m1 q_mod q_prime eq_refl) b2 two_q2 three_q2 b2_neq0) (hon_p2_add Fq (no_sqrt_m1 q_mod q_prime eq_refl) b2 two_q2 three_q2 b2_neq0) P Q NP NQ).
  - exact (add_computes Fq2 b2 two_q2 three_q2 b2_neq0 (p2_add_incomplete Fq) (sem_p2_addi Fq (no_sqrt_m1 q_mod q_prime eq_refl) b2 two_q2 three_q2 b2_neq0) (hon_p2_addi Fq (no_sqrt_m1 q_mod q_prime eq_refl) b2 two_q2 three_q2 b2_neq0) P Q NP NQ).
Qed.
(** doubling on the twist: 2 P unless y = 0; [double] refuses in addition every point with x = 0, which is not an
    exceptional case of doubling *)
Lemma pt2_xy (P : G2c) : P <> g0 -> pt2 (xy2 P) P. Proof. exact (xy_is_pt Fq2 b2 two_q2 three_q2 b2_neq0 P). Qed.
Theorem C44_double2 (P : G2c) c : P <> g0 ->
  (sem (p2_double_incomplete Fq (xy2 P)) c <-> P <> (⊖ P)%grp /\ c = xy2 (P ⊕ P)%grp) /\
  (sem (p2_double Fq (xy2 P)) c <-> fst (xy2 P) <> f0 /\ P <> (⊖ P)%grp /\ c = xy2 (P ⊕ P)%grp).
Proof.
  intros NP. pose proof (pt2_xy P NP) as HP.
  assert (D : sem (p2_double_incomplete Fq (xy2 P)) c <-> P <> (⊖ P)%grp /\ c = xy2 (P ⊕ P)%grp).
  { assert (S : forall x, sem (p2_double_incomplete Fq (xy2 P)) x -> P <> (⊖ P)%grp /\ x = xy2 (P ⊕ P)%grp).
    { intros x H. destruct (sem_p2_dbl Fq (no_sqrt_m1 q_mod q_prime eq_refl) b2 two_q2 three_q2 b2_neq0 _ P x HP H) as [N X]. split; [exact N|].
      symmetry. exact (is_pt_xy Fq2 b2 two_q2 three_q2 b2_neq0 x (P ⊕ P)%grp X). }
    split; [apply S|]. intros [N ->]. destruct (hon_p2_dbl Fq (no_sqrt_m1 q_mod q_prime eq_refl) b2 two_q2 three_q2 b2_neq0 _ P HP N) as (x & Hx).
    apply honest_sem in Hx. destruct (S x Hx) as [_ E]. rewrite E in Hx. exact Hx. }
  split; [exact D|]. unfold p2_double. rewrite sem_bind. rewrite <- D. split.
  - intros (u & Hu & H). apply -> (sem_i2_anz Fq (no_sqrt_m1 q_mod q_prime eq_refl)) in Hu. split; [exact Hu|exact H].
  - intros [Nx H]. exists tt. split; [|exact H]. apply (sem_i2_anz Fq (no_sqrt_m1 q_mod q_prime eq_refl)). exact Nx.
Qed.
