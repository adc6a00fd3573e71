(** When the additions of the circuit's scalar multiplications are exceptional. *)
From Coq Require Import NArith Nnat ZArith Znumtheory List Bool Lia Setoid.
From Verif.Base Require Import Fermat Fld Fp EC Primes Curves Group Order Fq2 Poly.
From Verif.Model Require Import Points Lib Circ MainGate GrumpkinChip IntegerChip FixedBase DkgCircuit.
From Verif.Spec Require Import Dvrf CircuitSpec.
From Verif.Proofs Require Import DkgProofs SvdwProofs CircProofs GrumpkinProofs FixedBaseProofs IntegerProofs CircuitParts CircuitPoints.
Import ListNotations.
Open Scope Z_scope.

Lemma zbits_firstn : forall i n z, firstn i (zbits n z) = zbits (Nat.min i n) z.
Proof. induction i as [|i IH]; intros [|n] z; try reflexivity. cbn [Nat.min zbits firstn]. f_equal. apply IH. Qed.
Lemma zbits_skipn : forall k n z, skipn k (zbits n z) = zbits (n - k) (z / 2 ^ Z.of_nat k).
Proof.
  induction k as [|k IH]; intros n z.
  - rewrite Nat.sub_0_r, Z.div_1_r. reflexivity.
  - destruct n as [|n]; [reflexivity|]. cbn [zbits skipn]. rewrite IH. f_equal. rewrite Nat2Z.inj_succ, Z.pow_succ_r, Z.div_div by lia. reflexivity.
Qed.
Lemma bval_mod n : forall z, bval (zbits n z) = z mod 2 ^ Z.of_nat n.
Proof.
  induction n as [|n IH]; intros z; cbn [zbits bval].
  - rewrite Z.mod_1_r. reflexivity.
  - rewrite IH, Nat2Z.inj_succ, Z.pow_succ_r, Z.rem_mul_r by lia. rewrite Zmod_odd. destruct (Z.odd z); cbn [Z.b2z]; lia.
Qed.

Section Generic.
  Variable G : Grp.
  Variables P aux : G.
  Notation regular := (regular_fixed G NUM_BITS WINDOW_SIZE P aux).
  Lemma lo_eq s : acc_val WINDOW_SIZE (zbits 254 s) (number_of_windows NUM_BITS WINDOW_SIZE - 2) = lo_part s.
  Proof.
    rewrite nw85. unfold acc_val, lo_part, WINDOW_SIZE. cbn [Nat.sub]. rewrite zbits_firstn, bval_mod. reflexivity.
  Qed.
  Lemma hi_eq s : (bval (wbits WINDOW_SIZE (number_of_windows NUM_BITS WINDOW_SIZE - 2) (zbits 254 s)) + 2) * W WINDOW_SIZE (number_of_windows NUM_BITS WINDOW_SIZE - 2) = hi_part s.
  Proof.
    rewrite nw85. unfold wbits, hi_part, WINDOW_SIZE, W. cbn [Nat.sub]. rewrite zbits_skipn, zbits_firstn, bval_mod. reflexivity.
  Qed.
  Lemma regular_iff s : 0 <= s < 2 ^ 254 -> (regular (zbits 254 s) <-> ~ exceptional P aux s).
  Proof.
    intros B. unfold regular_fixed, acc_hi, acc_lo, row_lo. rewrite lo_eq, hi_eq, (bval_zbits 254) by exact B. unfold exceptional.
    set (L := zmul (lo_part s) P). set (H := zmul (hi_part s) P).
    replace (2 * (lo_part s + hi_part s)) with ((lo_part s + hi_part s) + (lo_part s + hi_part s)) by ring.
    rewrite !zmul_sub, !zmul_add. fold L H. set (S := zmul s P).
    assert (E1 : L = (H ⊕ aux)%grp <-> (L ⊕ ⊖ H)%grp = aux).
    { split; intros E; [rewrite E|rewrite <- E]. - rewrite (gcomm _ H aux), gassoc, gopp_r, g0_r. reflexivity. - rewrite (gcomm _ L), <- gassoc, gopp_r, g0_l. reflexivity. }
    assert (E2 : L = (⊖ (H ⊕ aux))%grp <-> (L ⊕ H)%grp = (⊖ aux)%grp).
    { rewrite gopp_add. split; intros E; [rewrite E|].
      - rewrite (gcomm _ (⊖ H)%grp), gassoc, gopp_l, g0_r. reflexivity.
      - rewrite <- E, (gcomm _ L H), <- gassoc, gopp_l, g0_l. reflexivity. }
    assert (E3 : ((L ⊕ (H ⊕ aux)) ⊕ (L ⊕ (H ⊕ aux)))%grp = S <-> (S ⊕ ⊖ ((L ⊕ H) ⊕ (L ⊕ H)))%grp = (aux ⊕ aux)%grp).
    { rewrite <- (gassoc _ L H aux). set (T := (L ⊕ H)%grp).
      assert (Q : ((T ⊕ aux) ⊕ (T ⊕ aux))%grp = ((T ⊕ T) ⊕ (aux ⊕ aux))%grp) by apply gswap. rewrite Q. set (U := (T ⊕ T)%grp). set (X := (aux ⊕ aux)%grp).
      split; intros E; [rewrite <- E|rewrite <- E]. - rewrite (gcomm _ U X), gassoc, gopp_r, g0_r. reflexivity. - rewrite (gcomm _ S), <- gassoc, gopp_r, g0_l. reflexivity. }
    tauto.
  Qed.
End Generic.

Section Table.
  Variable G : Grp.
  Variable PT : Type.
  Variable acst : G -> circ PT.
  Variables P aux : G.
  Hypothesis ord_P : zmul r_mod P = g0.
  Hypothesis P_neq0 : P <> g0.
  Hypothesis hon_acst : forall Q, Q <> g0 -> zmul r_mod Q = g0 -> exists p, honest (acst Q) p.
  Lemma small_neq0 a : 0 < a < r_mod -> zmul a P <> g0.
  Proof.
    intros B E. pose proof (zmul_order G r_mod P a r_prime P_neq0 ord_P E) as D. apply Z.divide_pos_le in D; lia.
  Qed.
  Lemma hon_table : table_assignable P aux -> exists t, honest (assign_fixed_point G PT acst NUM_BITS WINDOW_SIZE P aux) t.
  Proof.
    intros (T1 & T2 & T3). unfold assign_fixed_point. change (Nat.ltb 1 WINDOW_SIZE) with true. cbv iota.
    apply honest_cmap_ex. intros row Hr. apply In_nth_error in Hr as [i Hi].
    assert (Li : (i < number_of_windows NUM_BITS WINDOW_SIZE)%nat).
    { rewrite <- (table_length G NUM_BITS WINDOW_SIZE w_ge2 nw_ge3 P aux). apply nth_error_Some. congruence. }
    rewrite (table_entry G NUM_BITS WINDOW_SIZE w_ge2 nw_ge3 P aux i Li) in Hi.
    assert (Er : row = map (fun k => T G WINDOW_SIZE P i k ⊕ extra G NUM_BITS WINDOW_SIZE P aux i)%grp (seq 0 (rowlen NUM_BITS WINDOW_SIZE i))) by congruence.
    subst row. clear Hi. apply honest_cmap_ex. intros Q HQ. apply in_map_iff in HQ as (k & <- & Hk). apply in_seq in Hk.
    rewrite nw85 in Li. unfold T, extra. rewrite nw85 in *. cbn [Nat.sub].
    destruct (Nat.eqb_spec i 84) as [->|N84]; [|destruct (Nat.eqb_spec i 83) as [->|N83]].
    - change (rowlen NUM_BITS WINDOW_SIZE 84) with 4%nat in Hk. change (2 * geo WINDOW_SIZE 85) with (2 * ((2 ^ 255 - 1) / 7)).
      change (Z.of_nat WINDOW_SIZE * Z.of_nat 84) with 252. rewrite gopp_add, <- gassoc, <- zmul_opp, <- zmul_add.
      replace (Z.of_nat (k + 2)) with (Z.of_nat k + 2) by lia. apply hon_acst.
      + intros E. apply (gsub_eq0 G) in E. apply (T2 (Z.of_nat k)); [lia|]. rewrite <- E. reflexivity.
      + rewrite zmul_gadd, zmul_gopp, T3, gopp_0, g0_r, zmul_comm, ord_P, zmul_g0. reflexivity.
    - change (rowlen NUM_BITS WINDOW_SIZE 83) with 8%nat in Hk. change (Z.of_nat WINDOW_SIZE * Z.of_nat 83) with 249.
      replace (Z.of_nat (k + 2)) with (Z.of_nat k + 2) by lia. apply hon_acst.
      + intros E. apply (T1 (Z.of_nat k)); [lia|]. apply gopp_unique in E. rewrite E, gopp_inv. reflexivity.
      + rewrite zmul_gadd, T3, g0_r, zmul_comm, ord_P, zmul_g0. reflexivity.
    - rewrite g0_r. apply hon_acst.
      + apply small_neq0. assert (Hk' : (k < 8)%nat).
        { pose proof (rowlen_le NUM_BITS WINDOW_SIZE w_ge2 nw_ge3 i). change (2 ^ WINDOW_SIZE)%nat with 8%nat in *. lia. }
        assert (B : 2 ^ (Z.of_nat WINDOW_SIZE * Z.of_nat i) <= 2 ^ 246) by (apply Z.pow_le_mono_r; unfold WINDOW_SIZE; lia).
        assert (0 < 2 ^ (Z.of_nat WINDOW_SIZE * Z.of_nat i)) by (apply Z.pow_pos_nonneg; unfold WINDOW_SIZE; lia).
        assert (9 * 2 ^ 246 < r_mod) by reflexivity. set (w := 2 ^ (Z.of_nat WINDOW_SIZE * Z.of_nat i)) in *. set (m := 2 ^ 246) in *. nia.
      + rewrite zmul_comm, ord_P, zmul_g0. reflexivity.
  Qed.
End Table.

Lemma hon_table1 aux1 : table_assignable (g1 : G1) aux1 -> exists t, honest (g1_assign_fixed_point aux1) t.
Proof.
  intros H. destruct (hon_table G1 (point1 Fq) g1_assign_constant g1 aux1 g1_order g1_neq0 (fun Q N _ => hon_cst1 Q N) H) as [t Ht].
  destruct (hon_cst1 g1 g1_neq0) as [p Hp]. exists t. unfold g1_assign_fixed_point. eapply hbind; [exact Ht|]. eapply hbind; [exact Hp|]. reflexivity.
Qed.
Lemma hon_table2 aux2 : table_assignable (g2 : G2c) aux2 -> exists t, honest (g2_assign_fixed_point aux2) t.
Proof. exact (hon_table G2c (point2 Fq) g2_assign_constant g2 aux2 g2_order g2_neq0 hon_cst2). Qed.
Lemma fr_range (s : Fr) : 0 <= fval (s : Fp r_mod) < 2 ^ 254.
Proof. pose proof (fval_range r_mod s eq_refl). assert (r_mod < 2 ^ 254) by reflexivity. lia. Qed.
Lemma regular1_iff aux1 s : regular1 aux1 s <-> ~ exceptional (g1 : G1) aux1 (fval (s : Fp r_mod)).
Proof. exact (regular_iff G1 g1 aux1 _ (fr_range s)). Qed.
Lemma regular2_iff aux2 s : regular2 aux2 s <-> ~ exceptional (g2 : G2c) aux2 (fval (s : Fp r_mod)).
Proof. exact (regular_iff G2c g2 aux2 _ (fr_range s)). Qed.

(** ** Grumpkin *)
Lemma gk_regular_iff (A P : Gk) s : 0 <= s < 2 ^ 254 ->
  (regular Fr bk two_r three_r bk_neq0 A P (zbits 254 s) <-> ~ gk_exceptional A P s).
Proof.
  intros B. unfold regular. rewrite zbits_length, (bval_zbits 254) by exact B.
  assert (E : forall i, (i < 254)%nat -> bval (firstn i (zbits 254 s)) = s mod 2 ^ Z.of_nat i).
  { intros i Hi. rewrite zbits_firstn, bval_mod, Nat.min_l by lia. reflexivity. }
  unfold gk_exceptional. split.
  - intros (H1 & H2 & H3) [(i & Hi & H)|[H|H]]; [|exact (H2 H)|exact (H3 H)].
    destruct (H1 (Z.to_nat i) ltac:(lia)) as [X Y]. rewrite E, Z2Nat.id in X, Y by lia. destruct H as [H|H]; [exact (X H)|exact (Y H)].
  - intros H. split; [|split].
    + intros i Hi. rewrite E by exact Hi. split; intros X; apply H; left; exists (Z.of_nat i); (split; [lia|]); [left|right]; exact X.
    + intros X. apply H. right. left. exact X.
    + intros X. apply H. right. right. exact X.
Qed.
