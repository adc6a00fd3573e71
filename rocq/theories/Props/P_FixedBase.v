(** C44: windowed multiplication of a fixed base, for every window size. *)
From Coq Require Import ZArith Znumtheory List Bool Lia Setoid.
From Verif.Base Require Import Fermat Fld Fp EC Primes Curves Group Order Fq2 Poly.
From Verif.Model Require Import Points Circ MainGate GrumpkinChip IntegerChip FixedBase DkgCircuit.
From Verif.Spec Require Import Dvrf CircuitSpec.
From Verif.Proofs Require Import DkgProofs SvdwProofs CircProofs GrumpkinProofs FixedBaseProofs IntegerProofs CircuitParts CircuitPoints DkgCircuitProofs Exceptional Rare.
From Verif.Props Require Import P_Chips.
Import ListNotations.
Open Scope Z_scope.

Lemma units_geo w i : window_units (Z.of_nat w) i = geo w i.
Proof. induction i as [|i IH]; cbn [window_units geo]; [reflexivity|]. rewrite IH. reflexivity. Qed.
Lemma acc_val_eq w bs i : (i * w <= length bs)%nat -> acc_val w bs i = acc_before (Z.of_nat w) i (bval bs).
Proof. intros L. unfold acc_val, acc_before. rewrite units_geo, bval_firstn by exact L. do 3 f_equal. lia. Qed.
Lemma bval_skipn bs k : (k <= length bs)%nat -> bval (skipn k bs) = bval bs / 2 ^ Z.of_nat k.
Proof.
  intros L. rewrite <- (firstn_skipn k bs) at 2. rewrite bval_cat. pose proof (bval_range (firstn k bs)) as B.
  rewrite firstn_length, Nat.min_l in * by lia. rewrite Z.mul_comm, Z.div_add by lia. rewrite Z.div_small by lia. reflexivity.
Qed.
Lemma digit_eq w bs i : (S i * w <= length bs)%nat -> bval (wbits w i bs) = row_digit (Z.of_nat w) i (bval bs).
Proof.
  intros L. unfold wbits, row_digit. rewrite bval_firstn by (rewrite skipn_length; lia). rewrite bval_skipn by lia.
  do 3 f_equal. lia.
Qed.

Section Generic.
  Variable G : Grp.
  Variables (num_bits w : nat) (ord : Z) (P aux : G).
  Hypothesis w_ge2 : (2 <= w)%nat.
  Hypothesis n_ge3 : (3 <= number_of_windows num_bits w)%nat.
  Notation nw := (number_of_windows num_bits w).
  Lemma win_le i : (S i < nw)%nat -> (S i * w <= num_bits)%nat.
  Proof.
    intros H. pose proof (num_bits_eq num_bits w w_ge2 n_ge3) as E. pose proof (last_pos num_bits w w_ge2). nia.
  Qed.
  Lemma regular_fixed_iff bs : length bs = num_bits ->
    (regular_fixed G num_bits w P aux bs <-> ~ fixed_exceptional (Z.of_nat w) nw P aux (bval bs)).
  Proof.
    intros L. unfold regular_fixed, acc_hi, acc_lo, row_lo, fixed_exceptional, row_entry. cbv zeta.
    pose proof (win_le (nw - 2)) as W2. rewrite acc_val_eq, digit_eq by lia. unfold W.
    set (lo := acc_before _ _ _). set (hi := (row_digit _ _ _ + 2) * _). set (s := bval bs).
    replace (2 * (lo + hi)) with ((lo + hi) + (lo + hi)) by ring.
    rewrite !zmul_sub, !zmul_add. set (Lp := zmul lo P). set (H := zmul hi P). set (S := zmul s P).
    assert (E1 : Lp = (H ⊕ aux)%grp <-> (Lp ⊕ ⊖ H)%grp = aux).
    { split; intros E; [rewrite E|rewrite <- E]. - rewrite (gcomm _ H aux), gassoc, gopp_r, g0_r. reflexivity. - rewrite (gcomm _ Lp), <- gassoc, gopp_r, g0_l. reflexivity. }
    assert (E2 : Lp = (⊖ (H ⊕ aux))%grp <-> (Lp ⊕ H)%grp = (⊖ aux)%grp).
    { rewrite gopp_add. split; intros E; [rewrite E|].
      - rewrite (gcomm _ (⊖ H)%grp), gassoc, gopp_l, g0_r. reflexivity.
      - rewrite <- E, (gcomm _ Lp H), <- gassoc, gopp_l, g0_l. reflexivity. }
    assert (E3 : ((Lp ⊕ (H ⊕ aux)) ⊕ (Lp ⊕ (H ⊕ aux)))%grp = S <-> (S ⊕ ⊖ ((Lp ⊕ H) ⊕ (Lp ⊕ H)))%grp = (aux ⊕ aux)%grp).
    { rewrite <- (gassoc _ Lp H aux). set (T := (Lp ⊕ H)%grp).
      assert (Q : ((T ⊕ aux) ⊕ (T ⊕ aux))%grp = ((T ⊕ T) ⊕ (aux ⊕ aux))%grp) by apply gswap. rewrite Q. set (U := (T ⊕ T)%grp). set (X := (aux ⊕ aux)%grp).
      split; intros E; [rewrite <- E|rewrite <- E]. - rewrite (gcomm _ U X), gassoc, gopp_r, g0_r. reflexivity. - rewrite (gcomm _ S), <- gassoc, gopp_r, g0_l. reflexivity. }
    tauto.
  Qed.
End Generic.

(** The rows added without a check never meet equal or opposite points: for every group, base of prime order, number of
    bits and window size. *)
Theorem C44_unchecked_rows (G : Grp) (num_bits w i : nat) (ord : Z) (P : G) (s : Z) :
  (2 <= w)%nat -> prime ord -> zmul ord P = g0 -> P <> g0 -> 2 ^ Z.of_nat (num_bits - 2) <= ord -> 0 <= s < 2 ^ Z.of_nat num_bits ->
  (1 <= i)%nat -> (i + 2 < number_of_windows num_bits w)%nat ->
  zmul (acc_before (Z.of_nat w) i s) P <> zmul (row_entry (Z.of_nat w) i s) P /\
  zmul (acc_before (Z.of_nat w) i s) P <> (⊖ zmul (row_entry (Z.of_nat w) i s) P)%grp.
Proof.
  intros W2 Hp HO NP HB Hs Hi Hn. assert (N3 : (3 <= number_of_windows num_bits w)%nat) by lia.
  pose proof (bval_zbits num_bits s Hs) as E. pose proof (zbits_length num_bits s) as L.
  pose proof (row_distinct G num_bits w W2 N3 ord P Hp HO NP HB (zbits num_bits s) i L ltac:(lia)) as D.
  pose proof (win_le num_bits w W2 N3 i ltac:(lia)) as WL. rewrite (T_eq G num_bits w W2 N3 ord P HB), acc_val_eq, digit_eq, E in D by lia. exact D.
Qed.
(** non-vacuous: the circuit's parameters have 82 unchecked rows *)
Example C44_unchecked_nonvacuous : prime r_mod /\ zmul r_mod (g1 : G1) = g0 /\ (g1 : G1) <> g0 /\ 2 ^ Z.of_nat (254 - 2) <= r_mod /\
  (82 + 2 < number_of_windows 254 3)%nat.
Proof.
  split; [exact r_prime|]. split; [exact g1_order|]. split; [exact g1_neq0|]. split; [exact ord_big|].
  change (number_of_windows 254 3) with 85%nat. lia.
Qed.

(** What the table contains: row i, digit k. *)
Theorem C44_table (G : Grp) (num_bits w i k : nat) (P aux : G) : (2 <= w)%nat -> (3 <= number_of_windows num_bits w)%nat ->
  let n := number_of_windows num_bits w in
  (i < n)%nat -> (k < 2 ^ w)%nat -> (i = n - 1 -> k < 2 ^ last_bits num_bits w)%nat ->
  nth_error (nth i (prepare_fixed_point_table G num_bits w P aux) []) k =
  Some (zmul ((Z.of_nat k + 2) * 2 ^ (Z.of_nat w * Z.of_nat i)) P ⊕
        if Nat.eqb i (n - 1) then ⊖ (zmul (2 * window_units (Z.of_nat w) n) P ⊕ aux) else if Nat.eqb i (n - 2) then aux else g0)%grp.
Proof.
  intros W2 N3 n Hi Hk Hl. pose proof (table_entry G num_bits w W2 N3 P aux i Hi) as E. apply nth_error_nth with (d := []) in E. rewrite E.
  rewrite (map_nth_error _ _ _ (d := k)).
  - f_equal. unfold T, extra. fold n. rewrite <- units_geo. replace (Z.of_nat (k + 2)) with (Z.of_nat k + 2) by lia. reflexivity.
  - assert (K : (k < rowlen num_bits w i)%nat). { unfold rowlen. fold n. destruct (Nat.eqb_spec i (n - 1)); auto. }
    rewrite (nth_error_nth' _ 0%nat) by (rewrite seq_length; exact K). rewrite seq_nth by exact K. reflexivity.
Qed.

(** The whole multiplication, for any base P of order r, window size 2 to 126 and scalar cell s.  The 254 bit cells
    recompose to s modulo r, so they may also be those of s + r when that fits.  *)
Section Mul.
  Variable K : Fld.
  Variable b : K.
  Hypotheses (h2 : two K <> f0) (h3 : three K <> f0) (b0 : b <> f0).
  Notation E := (ECgrp K b h2 h3 b0).
  Notation is_pt := (is_pt K b h2 h3 b0).
  Variable acst : E -> circ (K * K).
  Variable sel : Fr -> K * K -> K * K -> circ (K * K).
  Variable addi addc : K * K -> K * K -> circ (K * K).
  Hypothesis sem_cst : forall Q p, sem (acst Q) p -> is_pt p Q.
  Hypothesis sem_sel : forall c p q x, sem (sel (bit Fr c) p q) x -> x = if c then p else q.
  Hypothesis hon_sel : forall c p q, honest (sel (bit Fr c) p q) (if c then p else q).
  Hypothesis sem_addi : forall p q (P0 Q0 : E) c, is_pt p P0 -> is_pt q Q0 -> P0 <> Q0 -> P0 <> (⊖ Q0)%grp -> sem (addi p q) c -> is_pt c (P0 ⊕ Q0)%grp.
  Hypothesis sem_addc : forall p q (P0 Q0 : E) c, is_pt p P0 -> is_pt q Q0 -> sem (addc p q) c -> P0 <> Q0 /\ P0 <> (⊖ Q0)%grp /\ is_pt c (P0 ⊕ Q0)%grp.
  Hypothesis hon_addi : forall p q (P0 Q0 : E), is_pt p P0 -> is_pt q Q0 -> P0 <> Q0 -> P0 <> (⊖ Q0)%grp -> exists c, honest (addi p q) c.
  Hypothesis hon_addc : forall p q (P0 Q0 : E), is_pt p P0 -> is_pt q Q0 -> P0 <> Q0 -> P0 <> (⊖ Q0)%grp -> exists c, honest (addc p q) c.
  Variable w : nat.
  Hypothesis w_ok : (2 <= w <= 126)%nat.
  Variables P aux : E.
  Hypothesis ord_P : zmul r_mod P = g0.
  Hypothesis P_neq0 : P <> g0.
  Variable tbl : list (list (K * K)).
  Hypothesis Ht : sem (assign_fixed_point E (K * K) acst 254 w P aux) tbl.
  Notation mul s hb := (fixed_mul Fr (K * K) sel addi addc 254 w tbl s hb).
  Notation n := (number_of_windows 254 w).

  Lemma n3 : (3 <= n)%nat.
  Proof. unfold number_of_windows. assert (X : (3 * w <= 254 + w - 1)%nat) by lia. apply Nat.div_le_lower_bound; lia. Qed.
  Lemma sem_fixed_hb s hb hb' out : length hb = length hb' -> sem (mul s hb) out -> sem (mul s hb') out.
  Proof.
    intros L. unfold fixed_mul. destruct (_ && _)%bool; [|auto]. intros H. destruct (sem_binv _ _ _ H) as (bits & Hb & H'). clear H.
    apply sem_bind. exists bits. split; [|exact H']. unfold to_bits in *. destruct (sem_binv _ _ _ Hb) as (b' & H1 & H2). apply sem_bind. exists b'. split; [|exact H2].
    apply sem_bits in H1 as [L1 (bs & ->)]. apply sem_bits_rev. rewrite <- L, <- L1, map_length. reflexivity.
  Qed.
  Lemma mul_sem s out : sem (mul s (decompose s)) out <->
    out = xy (zmul (fval (s : Fp r_mod)) P : EC K b) /\
    exists z, (z = fval (s : Fp r_mod) \/ z = fval (s : Fp r_mod) + r_mod) /\ z < 2 ^ 254 /\ ~ fixed_exceptional (Z.of_nat w) n P aux z.
  Proof.
    assert (W2 : (2 <= w)%nat) by lia. pose proof n3 as N3.
    assert (ZM : forall z, 0 <= z < 2 ^ 254 -> fr z = s -> zmul z P = zmul (fval (s : Fp r_mod)) P).
    { intros z B Ez. rewrite <- Ez. unfold fr. rewrite fval_of_Z, zmul_mod; [reflexivity|discriminate|exact ord_P]. }
    split.
    - intros H. pose proof (sem_fixed_mul E Fr (K * K) acst sel addi addc 254 is_pt w W2 N3 sem_sel r_mod P aux r_prime ord_P P_neq0 ord_big sem_cst sem_addi sem_addc) as X.
      specialize (X tbl s (decompose s) out Ht (decompose_length s) H). destruct X as (bs & L & Ec & R & Rg).
      rewrite compose_bits in Ec. pose proof (bval_range bs) as B. rewrite L in B. change (Z.of_nat 254) with 254 in B. split.
      + rewrite <- (ZM _ B Ec). symmetry. exact (is_pt_xy K b h2 h3 b0 out _ R).
      + exists (bval bs). split; [apply fr_eq_iff; assumption|]. split; [apply B|]. apply (regular_fixed_iff E 254 w P aux W2 N3 bs L). exact Rg.
    - intros [Eo (z & Hz & Bz & R)]. assert (Bz' : 0 <= z < 2 ^ 254).
      { pose proof (fval_range r_mod s eq_refl). assert (0 < r_mod) by reflexivity. lia. }
      assert (Ez : fr z = s) by (apply fr_eq_iff; assumption). pose proof (zbits_length 254 z) as L.
      assert (Rg : regular_fixed E 254 w P aux (zbits 254 z)) by (apply (regular_fixed_iff E 254 w P aux W2 N3 _ L); rewrite (bval_zbits 254) by exact Bz'; exact R).
      pose proof (hon_fixed_mul E Fr (K * K) acst sel addi addc 254 is_pt w W2 N3 sem_sel hon_sel r_mod P aux r_prime ord_P P_neq0 ord_big sem_cst sem_addi sem_addc hon_addi hon_addc) as X.
      specialize (X tbl s (zbits 254 z) Ht L). specialize (X ltac:(rewrite compose_bits, (bval_zbits 254) by exact Bz'; exact Ez) Rg).
      destruct X as (out' & Ho & Ro). rewrite (bval_zbits 254), (ZM z Bz' Ez) in Ro by exact Bz'.
      pose proof (is_pt_xy K b h2 h3 b0 out' _ Ro) as Eo'. rewrite Eo, Eo'. apply honest_sem in Ho.
      apply (sem_fixed_hb s (map (bit Fr) (zbits 254 z))); [rewrite map_length, L, decompose_length; reflexivity|exact Ho].
  Qed.
  Lemma mul_hon s out : honest (mul s (decompose s)) out <->
    out = xy (zmul (fval (s : Fp r_mod)) P : EC K b) /\ ~ fixed_exceptional (Z.of_nat w) n P aux (fval (s : Fp r_mod)).
  Proof.
    assert (W2 : (2 <= w)%nat) by lia. pose proof n3 as N3. pose proof (fr_range s) as Bs. set (z := fval (s : Fp r_mod)) in *.
    pose proof (zbits_length 254 z) as L.
    assert (RI : regular_fixed E 254 w P aux (zbits 254 z) <-> ~ fixed_exceptional (Z.of_nat w) n P aux z).
    { rewrite (regular_fixed_iff E 254 w P aux W2 N3 _ L), (bval_zbits 254) by exact Bs. reflexivity. }
    split.
    - intros H. split; [apply (mul_sem s); apply honest_sem; exact H|]. apply RI. rewrite decompose_bits in H.
      exact (hon_fixed_regular E Fr (K * K) acst sel addi addc 254 is_pt w W2 N3 sem_sel r_mod P aux r_prime ord_P P_neq0 ord_big sem_cst sem_addi sem_addc tbl s _ out Ht L H).
    - intros [-> R]. apply RI in R. rewrite decompose_bits.
      pose proof (hon_fixed_mul E Fr (K * K) acst sel addi addc 254 is_pt w W2 N3 sem_sel hon_sel r_mod P aux r_prime ord_P P_neq0 ord_big sem_cst sem_addi sem_addc hon_addi hon_addc) as X.
      specialize (X tbl s (zbits 254 z) Ht L (compose_decompose s) R). destruct X as (out' & Ho & Ro). rewrite (bval_zbits 254) in Ro by exact Bs.
      pose proof (is_pt_xy K b h2 h3 b0 out' _ Ro) as Eo. rewrite Eo. exact Ho.
  Qed.
End Mul.

Lemma g1_smul (P : G1) (s : Fr) : zmul (fval (s : Fp r_mod)) P = g1mul P s. Proof. reflexivity. Qed.
Theorem C44_mul1 (w : nat) (P aux : G1) tbl : (2 <= w <= 126)%nat -> P <> g0 ->
  sem (assign_fixed_point G1 (point1 Fq) g1_assign_constant 254 w P aux) tbl ->
  forall (s : Fr) out,
  let mul := fixed_mul Fr (point1 Fq) (p1_select Fq Fr) (p1_add_incomplete Fq) (p1_add Fq) 254 w tbl s (decompose s) in
  let n := number_of_windows 254 w in
  (sem mul out <-> out = xy1 (g1mul P s) /\
     exists z, (z = fval (s : Fp r_mod) \/ z = fval (s : Fp r_mod) + r_mod) /\ z < 2 ^ 254 /\ ~ fixed_exceptional (Z.of_nat w) n P aux z) /\
  (honest mul out <-> out = xy1 (g1mul P s) /\ ~ fixed_exceptional (Z.of_nat w) n P aux (fval (s : Fp r_mod))).
Proof.
  intros Hw NP Ht s out. cbv zeta.
  pose proof (mul_sem Fq b1 two_q three_q b1_neq0 g1_assign_constant (p1_select Fq Fr) (p1_add_incomplete Fq) (p1_add Fq) sem_cst1 (sem_p1_select Fq Fr) (hon_p1_select Fq Fr)) as X.
  specialize (X (sem_p1_addi Fq b1 two_q three_q b1_neq0) (sem_p1_add Fq b1 two_q three_q b1_neq0) (hon_p1_addi Fq b1 two_q three_q b1_neq0) (hon_p1_add Fq b1 two_q three_q b1_neq0)).
  specialize (X w Hw P aux (G1_exponent P) NP tbl Ht s out).
  pose proof (mul_hon Fq b1 two_q three_q b1_neq0 g1_assign_constant (p1_select Fq Fr) (p1_add_incomplete Fq) (p1_add Fq) sem_cst1 (sem_p1_select Fq Fr) (hon_p1_select Fq Fr)) as Y.
  specialize (Y (sem_p1_addi Fq b1 two_q three_q b1_neq0) (sem_p1_add Fq b1 two_q three_q b1_neq0) (hon_p1_addi Fq b1 two_q three_q b1_neq0) (hon_p1_add Fq b1 two_q three_q b1_neq0)).
  specialize (Y w Hw P aux (G1_exponent P) NP tbl Ht s out).
  split; [exact X|exact Y].
Qed.
Theorem C44_mul2 (w : nat) (P aux : G2c) tbl : (2 <= w <= 126)%nat -> P <> g0 -> zmul r_mod P = g0 ->
  sem (assign_fixed_point G2c (point2 Fq) g2_assign_constant 254 w P aux) tbl ->
  forall (s : Fr) out,
  let mul := fixed_mul Fr (point2 Fq) (p2_select Fq Fr) (p2_add_incomplete Fq) (p2_add Fq) 254 w tbl s (decompose s) in
  let n := number_of_windows 254 w in
  (sem mul out <-> out = xy2 (g2mul P s) /\
     exists z, (z = fval (s : Fp r_mod) \/ z = fval (s : Fp r_mod) + r_mod) /\ z < 2 ^ 254 /\ ~ fixed_exceptional (Z.of_nat w) n P aux z) /\
  (honest mul out <-> out = xy2 (g2mul P s) /\ ~ fixed_exceptional (Z.of_nat w) n P aux (fval (s : Fp r_mod))).
Proof.
  intros Hw NP HO Ht s out. cbv zeta.
  pose proof (mul_sem Fq2 b2 two_q2 three_q2 b2_neq0 g2_assign_constant (p2_select Fq Fr) (p2_add_incomplete Fq) (p2_add Fq) sem_cst2 sem_sel2 hon_sel2) as X.
  specialize (X sem_addi2 sem_add2 hon_addi2 hon_add2). specialize (X w Hw P aux HO NP tbl Ht s out).
  pose proof (mul_hon Fq2 b2 two_q2 three_q2 b2_neq0 g2_assign_constant (p2_select Fq Fr) (p2_add_incomplete Fq) (p2_add Fq) sem_cst2 sem_sel2 hon_sel2) as Y.
  specialize (Y sem_addi2 sem_add2 hon_addi2 hon_add2). specialize (Y w Hw P aux HO NP tbl Ht s out).
  split; [exact X|exact Y].
Qed.

(** the parameters of the DKG circuit: windows of 3 bits; of all scalars below r at most 13 are exceptional *)
Theorem C44_circuit_parameters (G : Grp) (P aux : G) s : exceptional P aux s <-> fixed_exceptional 3 (number_of_windows 254 3) P aux s.
Proof.
  assert (L : acc_before 3 (number_of_windows 254 3 - 2) s = lo_part s).
  { unfold acc_before, lo_part. change (number_of_windows 254 3 - 2)%nat with 83%nat. change (window_units 3 83) with ((2 ^ 249 - 1) / 7). reflexivity. }
  assert (H : row_entry 3 (number_of_windows 254 3 - 2) s = hi_part s).
  { unfold row_entry, row_digit, hi_part. change (number_of_windows 254 3 - 2)%nat with 83%nat. reflexivity. }
  unfold exceptional, fixed_exceptional. cbv zeta. rewrite L, H. reflexivity.
Qed.
Theorem C44_exceptional_rare (G : Grp) (P aux : G) l : zmul r_mod P = g0 -> P <> g0 -> NoDup l ->
  (forall s, In s l -> 0 <= s < r_mod /\ exceptional P aux s) -> (length l <= 13)%nat.
Proof. intros O N. exact (exceptional_rare G P aux O N l). Qed.
(** the hypotheses of C44_mul1 hold for the generator and some auxiliary point, and some scalar below 100 is multiplied *)
Example C44_mul_nonvacuous : exists (aux : G1) tbl (s : Fr),
  sem (assign_fixed_point G1 (point1 Fq) g1_assign_constant 254 3 g1 aux) tbl /\ 0 < fval (s : Fp r_mod) < 100 /\
  honest (fixed_mul Fr (point1 Fq) (p1_select Fq Fr) (p1_add_incomplete Fq) (p1_add Fq) 254 3 tbl s (decompose s)) (xy1 (g1mul g1 s)).
Proof.
  destruct (avoid (bad_aux G1 g1) (map (fun i => zmul i (g1 : G1)) (zseq 20))) as (aux & _ & N).
  { apply (multiples_NoDup (g1 : G1) r_mod); [exact r_prime|exact g1_neq0|exact g1_order|reflexivity]. }
  { rewrite map_length, length_zseq. unfold bad_aux. rewrite app_length, !map_length. cbn [length]. lia. }
  pose proof (proj2 (bad_aux_iff G1 g1 aux (G1_exponent aux)) N) as TA.
  destruct (hon_table1 aux TA) as [tbl Ht]. apply honest_sem, sem_table1 in Ht.
  destruct (Exists_dec (fun s => ~ exceptional (g1 : G1) aux s) (zseq 20)) as [E|E].
  { intros s. destruct (exceptional_dec (g1 : G1) aux s) as [X|X]; [right; intros Y; exact (Y X)|left; exact X]. }
  - apply Exists_exists in E as (s & Hs & R). apply in_zseq in Hs. exists aux, tbl, (fr s).
    assert (V : fval (fr s : Fp r_mod) = s). { unfold fr. rewrite fval_of_Z. apply Z.mod_small. assert (100 < r_mod) by reflexivity. lia. }
    split; [exact Ht|]. split; [rewrite V; lia|]. apply (C44_mul1 3 g1 aux tbl ltac:(lia) g1_neq0 Ht (fr s)). split; [reflexivity|].
    rewrite V. intros X. apply R, C44_circuit_parameters. exact X.
  - exfalso. assert (X : (length (zseq 20) <= 13)%nat).
    { apply (C44_exceptional_rare G1 g1 aux); [exact g1_order|exact g1_neq0|apply NoDup_zseq|]. intros s Hs. pose proof Hs as Hs'. apply in_zseq in Hs'.
      split; [assert (100 < r_mod) by reflexivity; lia|]. destruct (exceptional_dec (g1 : G1) aux s) as [X|X]; [exact X|]. exfalso. apply E, Exists_exists. exists s. split; [exact Hs|exact X]. }
    rewrite length_zseq in X. lia.
Qed.
