(** Exactly which instance vectors the DKG circuit accepts, whatever the prover assigns. *)
From Coq Require Import NArith Nnat ZArith Znumtheory List Bool Lia Setoid.
From Verif.Base Require Import Fermat Fld Fp EC Primes Curves Group Order Fq2 Poly.
From Verif.Model Require Import Points Lib Circ MainGate GrumpkinChip IntegerChip FixedBase DkgCircuit.
From Verif.Spec Require Import Dvrf CircuitSpec.
From Verif.Proofs Require Import DkgProofs SvdwProofs CircProofs GrumpkinProofs FixedBaseProofs IntegerProofs CircuitParts CircuitPoints DkgCircuitProofs Exceptional DkgComplete DkgExact Rare.
Import ListNotations.
Open Scope nat_scope.

Lemma sbind {A B} (c : circ A) (f : A -> circ B) (a : A) b : sem c a -> sem (f a) b -> sem (let! x := c in f x) b.
Proof. intros H1 H2. apply sem_bind. exists a. split; assumption. Qed.

(** ** the hints do not matter *)
Section Hints.
  Variable K : Fld.
  Lemma sat_bits (bs : list bool) : forall hb, length hb = length bs -> sem (cmap assign_bit hb) (map (bit K) bs).
  Proof.
    induction bs as [|c bs IH]; intros [|h hb] L; cbn [length] in L; try discriminate L; cbn [cmap map]; [reflexivity|].
    apply (sbind _ _ (bit K c)); [apply (sem_cell1 K); apply bit_sq|]. apply (sbind _ _ (map (bit K) bs)); [apply IH; congruence|reflexivity].
  Qed.
  Lemma sat_values : forall (h cs : list K), length h = length cs -> sem (cmap assign_value h) cs.
  Proof.
    induction h as [|a h IH]; intros [|c cs] L; cbn [length] in L; try discriminate L; cbn [cmap]; [reflexivity|].
    apply (sbind _ _ c); [apply (sem_assign_value K)|]. apply (sbind _ _ cs); [apply IH; congruence|reflexivity].
  Qed.
  Lemma hint_to_bits (v : K) hb hb' bits : length hb = length hb' -> sem (to_bits v hb) bits -> sem (to_bits v hb') bits.
  Proof.
    unfold to_bits. intros L H. destruct (sem_binv _ _ _ H) as (b & Hb & H1). destruct (sem_bits K hb b Hb) as (Lb & bs & E). rewrite E in H1, Lb.
    apply (sbind _ _ (map (bit K) bs)); [|exact H1]. apply sat_bits. rewrite map_length in Lb. congruence.
  Qed.
  Lemma hint_fixed_mul PT sel addi addc nb w tbl (s : K) hb hb' out : length hb = length hb' ->
    sem (fixed_mul K PT sel addi addc nb w tbl s hb) out -> sem (fixed_mul K PT sel addi addc nb w tbl s hb') out.
  Proof.
    unfold fixed_mul. destruct (_ && _)%bool; [|intros _ []]. intros L H. destruct (sem_binv _ _ _ H) as (bits & Hb & H1). clear H.
    refine (sbind _ _ bits out (hint_to_bits s hb hb' bits L Hb) H1).
  Qed.
End Hints.

Lemma hon_values (K : Fld) (cs : list K) : honest (cmap assign_value cs) cs.
Proof. apply honest_cmap. induction cs as [|c cs IH]; constructor; [apply (honest_assign_value K)|exact IH]. Qed.
Lemma sat_shares n h cs : length h = length cs -> cs <> [] -> 1 <= n ->
  sem (assign_shares n h) (map (fun i => poly_at cs (fr (Z.of_nat i))) (seq 1 n), poly_at cs f0).
Proof.
  intros L N Hn. pose proof (hon_shares n cs N Hn) as H. unfold assign_shares in H |- *.
  destruct (hon_binv _ _ _ H) as (cs' & Hc & H1). pose proof (honest_fun _ _ _ Hc (hon_values Fr cs)) as E. subst cs'.
  exact (sbind _ _ cs _ (sat_values Fr h cs L) (honest_sem _ _ H1)).
Qed.
Lemma sat_assign_point w (P : Gk) : P <> g0 -> sem (assign_point Fr bk w) (xy P).
Proof.
  intros N. pose proof (honest_assign_point Fr bk two_r three_r bk_neq0 (xy P) P (xy_is_pt Fr bk two_r three_r bk_neq0 P N)) as H.
  apply honest_sem in H. unfold assign_point in H |- *.
  destruct (sem_binv _ _ _ H) as (x & _ & H1). destruct (sem_binv _ _ _ H1) as (y & _ & H2).
  refine (sbind _ _ x _ (sem_assign_value Fr _ _) _). refine (sbind _ _ y _ (sem_assign_value Fr _ _) H2).
Qed.

(** ** limbs of any 254-bit integer *)
Lemma limbs_ok z : (0 <= z < 2 ^ 254)%Z -> is_reduced (limbs NUMBER_OF_LIMBS z) (fq z).
Proof.
  intros B. change (limbs NUMBER_OF_LIMBS z) with [fr (z mod 2 ^ 68); fr (z / 2 ^ 68 mod 2 ^ 68); fr (z / 2 ^ 68 / 2 ^ 68 mod 2 ^ 68); fr (z / 2 ^ 68 / 2 ^ 68 / 2 ^ 68 mod 2 ^ 68)].
  assert (D4 : (z / 2 ^ 68 / 2 ^ 68 / 2 ^ 68 < 2 ^ 50)%Z).
  { rewrite !Z.div_div by lia. apply Z.div_lt_upper_bound; [lia|]. change (2 ^ 68 * 2 ^ 68 * 2 ^ 68 * 2 ^ 50)%Z with (2 ^ 254)%Z. lia. }
  assert (D40 : (0 <= z / 2 ^ 68 / 2 ^ 68 / 2 ^ 68)%Z) by (repeat (apply Z.div_pos; [|lia]); lia).
  assert (M4 : (z / 2 ^ 68 / 2 ^ 68 / 2 ^ 68 mod 2 ^ 68 = z / 2 ^ 68 / 2 ^ 68 / 2 ^ 68)%Z).
  { apply Z.mod_small. split; auto. apply (Z.lt_trans _ _ _ D4). reflexivity. }
  split.
  - repeat constructor; rewrite limb_val; change BIT_LEN_LIMB with 68%Z; try (apply Z.mod_pos_bound; lia). rewrite M4. exact D4.
  - cbn [lval]. rewrite !limb_val. change BIT_LEN_LIMB with 68%Z. rewrite M4. f_equal.
    rewrite Z.mul_0_r, Z.add_0_r.
    rewrite (Z.add_comm (z / 2 ^ 68 / 2 ^ 68 mod 2 ^ 68)), <- (Z.div_mod (z / 2 ^ 68 / 2 ^ 68) (2 ^ 68)) by lia.
    rewrite (Z.add_comm (z / 2 ^ 68 mod 2 ^ 68)), <- (Z.div_mod (z / 2 ^ 68) (2 ^ 68)) by lia.
    rewrite (Z.add_comm (z mod 2 ^ 68)), <- (Z.div_mod z (2 ^ 68)) by lia. reflexivity.
Qed.
Lemma wrapv_limbs z : (0 <= z < 2 ^ 254)%Z -> wrapv Fr limb_base (limbs NUMBER_OF_LIMBS z) = [fr (z mod 2 ^ 136); fr (z / 2 ^ 136)].
Proof.
  intros B. destruct (limbs_ok z B) as [R _]. 
  change (limbs NUMBER_OF_LIMBS z) with [fr (z mod 2 ^ 68); fr (z / 2 ^ 68 mod 2 ^ 68); fr (z / 2 ^ 68 / 2 ^ 68 mod 2 ^ 68); fr (z / 2 ^ 68 / 2 ^ 68 / 2 ^ 68 mod 2 ^ 68)].
  unfold limb_base. cbn [wrapv]. rewrite <- !fr_mul, <- !fr_add. change BIT_LEN_LIMB with 68%Z.
  assert (D4 : (0 <= z / 2 ^ 68 / 2 ^ 68 / 2 ^ 68 < 2 ^ 68)%Z).
  { split; [repeat (apply Z.div_pos; [|lia]); lia|]. rewrite !Z.div_div by lia. apply Z.div_lt_upper_bound; [lia|]. apply (Z.lt_trans _ (2 ^ 254)); [lia|reflexivity]. }
  rewrite (Z.mod_small _ _ D4). 
  assert (E1 : (z mod 2 ^ 136 = z mod 2 ^ 68 + 2 ^ 68 * (z / 2 ^ 68 mod 2 ^ 68))%Z).
  { change (2 ^ 136)%Z with (2 ^ 68 * 2 ^ 68)%Z. apply Z.rem_mul_r; lia. }
  assert (E2 : (z / 2 ^ 136 = z / 2 ^ 68 / 2 ^ 68)%Z) by (rewrite Z.div_div by lia; reflexivity).
  rewrite E1, E2. clear R E1 E2 D4 B. set (u := (z / 2 ^ 68 / 2 ^ 68)%Z). rewrite (Z.div_mod u (2 ^ 68)) at 3 by lia.
  f_equal; [f_equal; ring|]. f_equal. f_equal. ring.
Qed.
Lemma coord_limbs (x : Fq) l : coord_encodes x l -> exists w, is_reduced w x /\ wrapv Fr limb_base w = l.
Proof. intros (z & B & <- & ->). exists (limbs NUMBER_OF_LIMBS z). split; [exact (limbs_ok z B)|exact (wrapv_limbs z B)]. Qed.
Lemma sat_norm1 (p : point1 Fq) lx ly : is_reduced lx (fst p) -> is_reduced ly (snd p) -> sem (g1_normalize p) (lx, ly).
Proof.
  intros X Y. unfold g1_normalize, p1_normalize. refine (sbind _ _ lx _ _ _); [exists lx; split; [exact X|reflexivity]|].
  refine (sbind _ _ ly _ _ _); [exists ly; split; [exact Y|reflexivity]|]. reflexivity.
Qed.
Lemma sat_norm2 (p : point2 Fq) l0 l1 l2 l3 : is_reduced l0 (fst (fst p)) -> is_reduced l1 (snd (fst p)) -> is_reduced l2 (fst (snd p)) ->
  is_reduced l3 (snd (snd p)) -> sem (g2_normalize p) ((l0, l1), (l2, l3)).
Proof.
  intros X0 X1 X2 X3. unfold g2_normalize, p2_normalize. refine (sbind _ _ (l0, l1) _ _ _); [exact (sat_norm1 (fst p) l0 l1 X0 X1)|].
  refine (sbind _ _ (l2, l3) _ _ _); [exact (sat_norm1 (snd p) l2 l3 X2 X3)|]. reflexivity.
Qed.

(** ** bits of a representative *)
Lemma zbits_compose z (s : Fr) : (0 <= z < 2 ^ 254)%Z -> fr z = s -> compose (map (bit Fr) (zbits 254 z)) = s.
Proof. intros B E. rewrite compose_bits, (bval_zbits 254 z B). exact E. Qed.
Lemma bval_range bs : (0 <= bval bs < 2 ^ Z.of_nat (length bs))%Z.
Proof.
  induction bs as [|c bs IH]; [cbn; lia|]. cbn [length bval]. rewrite Nat2Z.inj_succ, Z.pow_succ_r by lia. destruct c; cbn [Z.b2z]; lia.
Qed.
Lemma zbits_bval bs : zbits (length bs) (bval bs) = bs.
Proof.
  induction bs as [|c bs IH]; [reflexivity|]. cbn [length zbits bval].
  assert (O : Z.odd (Z.b2z c + 2 * bval bs) = c). { rewrite Z.odd_add, Z.odd_mul. cbn. destruct c; reflexivity. }
  assert (D : ((Z.b2z c + 2 * bval bs) / 2 = bval bs)%Z). { rewrite (Z.mul_comm 2), Z.div_add by lia. destruct c; reflexivity. }
  rewrite O, D, IH. reflexivity.
Qed.
Lemma reach_iff1 aux1 s : reach1 aux1 s <-> reachable (g1 : G1) aux1 s.
Proof.
  split.
  - intros (bs & L & E & R). exists (bval bs). pose proof (bval_range bs) as B. rewrite L in B. split; [exact B|].
    split; [rewrite <- E; symmetry; apply compose_bits|]. apply (regular_iff G1 g1 aux1 _ B). rewrite <- L, zbits_bval. exact R.
  - intros (z & B & E & R). exists (zbits 254 z). split; [apply zbits_length|]. split; [exact (zbits_compose z s B E)|]. exact (proj2 (regular_iff G1 g1 aux1 z B) R).
Qed.
Lemma reach_iff2 aux2 s : reach2 aux2 s <-> reachable (g2 : G2c) aux2 s.
Proof.
  split.
  - intros (bs & L & E & R). exists (bval bs). pose proof (bval_range bs) as B. rewrite L in B. split; [exact B|].
    split; [rewrite <- E; symmetry; apply compose_bits|]. apply (regular_iff G2c g2 aux2 _ B). rewrite <- L, zbits_bval. exact R.
  - intros (z & B & E & R). exists (zbits 254 z). split; [apply zbits_length|]. split; [exact (zbits_compose z s B E)|]. exact (proj2 (regular_iff G2c g2 aux2 z B) R).
Qed.
Lemma reach_pad (hb : list Fr) (s : Fr) : length hb = 254 -> length hb = length (decompose s).
Proof. intros ->. symmetry. apply decompose_length. Qed.

Section Sat.
  Variable aux1 : G1.
  Variable aux2 : G2c.
  Variable inst : list Fr.
  Lemma sat_g1_mul t s : sem (g1_assign_fixed_point aux1) t -> reach1 aux1 s -> exists out, sem (g1_mul t s) out.
  Proof.
    intros Ht (bs & L & E & R). apply sem_table1 in Ht. unfold g1_mul.
    destruct (hon_fixed_mul G1 Fr (point1 Fq) g1_assign_constant (p1_select Fq Fr) (p1_add_incomplete Fq) (p1_add Fq) NUM_BITS
      pt1 WINDOW_SIZE w_ge2 nw_ge3 (sem_p1_select Fq Fr) (hon_p1_select Fq Fr) r_mod g1 aux1 r_prime g1_order g1_neq0 ord_big sem_cst1
      (sem_p1_addi Fq b1 two_q three_q b1_neq0) (sem_p1_add Fq b1 two_q three_q b1_neq0)
      (hon_p1_addi Fq b1 two_q three_q b1_neq0) (hon_p1_add Fq b1 two_q three_q b1_neq0) t s bs Ht L E R) as (out & H & _).
    exists out. refine (hint_fixed_mul Fr _ _ _ _ _ _ _ _ _ _ _ _ (honest_sem _ _ H)). apply reach_pad. rewrite map_length. exact L.
  Qed.
  Lemma sat_g2_mul t s : sem (g2_assign_fixed_point aux2) t -> reach2 aux2 s -> exists out, sem (g2_mul t s) out.
  Proof.
    intros Ht (bs & L & E & R). unfold g2_assign_fixed_point in Ht. unfold g2_mul.
    pose proof (hon_fixed_mul G2c Fr (point2 Fq) g2_assign_constant (p2_select Fq Fr) (p2_add_incomplete Fq) (p2_add Fq) NUM_BITS
      pt2 WINDOW_SIZE w_ge2 nw_ge3 sem_sel2 hon_sel2 r_mod g2 aux2) as X.
    specialize (X r_prime g2_order g2_neq0 ord_big). specialize (X sem_cst2). specialize (X sem_addi2). specialize (X sem_add2).
    specialize (X hon_addi2 hon_add2). specialize (X t s bs Ht L E R). destruct X as (out & H & _).
    exists out. refine (hint_fixed_mul Fr _ _ _ _ _ _ _ _ _ _ _ _ (honest_sem _ _ H)). apply reach_pad. rewrite map_length. exact L.
  Qed.
  Lemma sat_expose_g1 t s ob off l : base_ok ob -> sem (g1_assign_fixed_point aux1) t -> reach1 aux1 s ->
    g1_encodes (g1mul g1 s) l -> exposed Fr inst off l -> sem (expose_g1 inst t s ob off) (limb_base, off + 4).
  Proof.
    intros Hb Ht R (_ & lx & ly & -> & Ex & Ey) He. destruct (sat_g1_mul t s Ht R) as [p Hp]. pose proof (sem_g1_mul aux1 t s p Ht Hp) as HP.
    pose proof (is_pt_xy Fq b1 two_q three_q b1_neq0 p (g1mul g1 s) HP) as Exy. rewrite Exy in Ex, Ey.
    destruct (coord_limbs _ _ Ex) as (wx & Wx & <-). destruct (coord_limbs _ _ Ey) as (wy & Wy & <-).
    destruct (reduced_encodes _ _ Wx) as [_ Lx]. destruct (reduced_encodes _ _ Wy) as [_ Ly].
    unfold expose_g1. refine (sbind _ _ p _ Hp _). refine (sbind _ _ (wx, wy) _ (sat_norm1 p wx wy Wx Wy) _). unfold g1_expose. cbn [fst snd].
    assert (B : match ob with Some b => b | None => limb_base end = limb_base) by (destruct ob as [b0|]; [exact Hb|reflexivity]).
    pose proof (hon_optimal Fr inst limb_base [wx; wy] ob off) as X. cbv zeta in X. rewrite B in X. cbn [flat_map] in X. rewrite app_nil_r in X. specialize (X He).
    rewrite app_length, (wrapv_len4 wx _ Lx), (wrapv_len4 wy _ Ly) in X. exact (honest_sem _ _ X).
  Qed.
  Lemma sat_expose_g2 t s off l : sem (g2_assign_fixed_point aux2) t -> reach2 aux2 s -> g2_encodes (g2mul g2 s) l -> exposed Fr inst off l ->
    exists p w, sem (g2_mul t s) p /\ sem (g2_normalize p) w /\ sem (g2_expose inst w (Some limb_base) off) (limb_base, off + 8).
  Proof.
    intros Ht R (_ & l0 & l1 & l2 & l3 & -> & E0 & E1 & E2 & E3) He. destruct (sat_g2_mul t s Ht R) as [p Hp]. pose proof (sem_g2_mul aux2 t s p Ht Hp) as HP.
    pose proof (is_pt_xy Fq2 b2 two_q2 three_q2 b2_neq0 p (g2mul g2 s) HP) as Exy. rewrite Exy in E0, E1, E2, E3.
    destruct (coord_limbs _ _ E0) as (w0 & W0 & <-). destruct (coord_limbs _ _ E1) as (w1 & W1 & <-).
    destruct (coord_limbs _ _ E2) as (w2 & W2 & <-). destruct (coord_limbs _ _ E3) as (w3 & W3 & <-).
    destruct (reduced_encodes _ _ W0) as [_ L0]. destruct (reduced_encodes _ _ W1) as [_ L1]. destruct (reduced_encodes _ _ W2) as [_ L2]. destruct (reduced_encodes _ _ W3) as [_ L3].
    exists p, ((w0, w1), (w2, w3)). split; [exact Hp|]. split; [exact (sat_norm2 p w0 w1 w2 w3 W0 W1 W2 W3)|]. unfold g2_expose. cbn [fst snd].
    pose proof (hon_optimal Fr inst limb_base [w0; w1; w2; w3] (Some limb_base) off) as X. cbv beta iota zeta in X. cbn [flat_map] in X. rewrite app_nil_r in X. specialize (X He).
    rewrite !app_length, (wrapv_len4 w0 _ L0), (wrapv_len4 w1 _ L1), (wrapv_len4 w2 _ L2), (wrapv_len4 w3 _ L3) in X. exact (honest_sem _ _ X).
  Qed.
  Lemma sat_public_shares t sh (Ht : sem (g1_assign_fixed_point aux1) t) : forall l lgs off,
    (forall i, In i l -> reach1 aux1 (nth i sh f0)) ->
    Forall2 (fun i l => g1_encodes (g1mul g1 (nth i sh f0)) l /\ length l = 4) l lgs -> exposed Fr inst off (concat lgs) ->
    sem (cfold (fun offset i => let! (_, offset) := expose_g1 inst t (nth i sh f0) (Some limb_base) offset in Ret offset) l off) (off + 4 * length l).
  Proof.
    intros l lgs off R F. revert off R. induction F as [|i lg l lgs [E L] F IH]; intros off R X; cbn [cfold length].
    - cbn [sem]. rewrite Nat.mul_0_r, Nat.add_0_r. reflexivity.
    - cbn [concat] in X. apply exposed_app in X as [X1 X2]. rewrite L in X2.
      pose proof (R i (or_introl eq_refl)) as R1.
      assert (Hb : base_ok (Some limb_base)). { unfold base_ok. reflexivity. }
      pose proof (sat_expose_g1 t (nth i sh f0) (Some limb_base) off lg Hb Ht R1 E X1) as Y.
      refine (sbind _ _ (off + 4) _ _ _).
      + refine (sbind _ _ _ _ Y _). cbn [sem]. reflexivity.
      + rewrite (arith4 off (length l)). refine (IH (off + 4) _ X2). intros j Hj. exact (R j (or_intror Hj)).
  Qed.
End Sat.

Section Encrypt.
  Variable poseidon : Fr -> Fr -> Fr.
  Variable inst : list Fr.
  Variables (a_ an_ : apoint Fr) (A : Gk).
  Hypothesis HA : ptk a_ A.
  Hypothesis HN : ptk an_ (⊖ A)%grp.
  Variable z : Z.
  Hypothesis Hz : (0 <= z < 2 ^ 254)%Z.
  Lemma sat_encrypt_one w s (PK : Gk) off : PK <> g0 -> ~ gk_exceptional A PK z -> nth off inst f0 = cipher poseidon s PK (fq z) ->
    sem (encrypt_one poseidon inst (a_, an_) (map (bit Fr) (zbits 254 z)) s w off) (xy PK, off + 1).
  Proof.
    intros N R X. pose proof (hon_encrypt_one poseidon inst a_ an_ A HA HN z Hz s PK off N R X) as H. unfold encrypt_one in H |- *.
    destruct (hon_binv _ _ _ H) as (p & Hp & H1). destruct (hon_assign_inv _ _ Hp) as [_ E]. subst p.
    exact (sbind _ _ _ _ (sat_assign_point w PK N) (honest_sem _ _ H1)).
  Qed.
  Lemma sat_encrypt sh (ws pks : list Gk) : forall l done off,
    (forall i, In i l -> nth i pks g0 <> g0 /\ ~ gk_exceptional A (nth i pks g0) z) ->
    exposed Fr inst off (map (fun i => cipher poseidon (nth i sh f0) (nth i pks g0) (fq z)) l) ->
    sem (cfold (fun '(pks, offset) i => let! (pk, offset) := encrypt_one poseidon inst (a_, an_) (map (bit Fr) (zbits 254 z)) (nth i sh f0) (xy (nth i ws g0)) offset in
                                        Ret (pks ++ [pk], offset)) l (done, off)) (done ++ map (fun i => xy (nth i pks g0)) l, off + length l).
  Proof.
    induction l as [|i l IH]; intros done off R X; cbn [cfold length map].
    - cbn [sem]. rewrite app_nil_r, Nat.add_0_r. reflexivity.
    - cbn [map] in X. apply exposed_cons in X as [X1 X2]. destruct (R i (or_introl eq_refl)) as [R1 R2].
      refine (sbind _ _ (done ++ [xy (nth i pks g0)], off + 1) _ _ _).
      + refine (sbind _ _ _ _ (sat_encrypt_one (xy (nth i ws g0)) (nth i sh f0) (nth i pks g0) off R1 R2 X1) _). reflexivity.
      + replace (done ++ xy (nth i pks g0) :: map (fun i => xy (nth i pks g0)) l) with ((done ++ [xy (nth i pks g0)]) ++ map (fun i => xy (nth i pks g0)) l) by (rewrite <- app_assoc; reflexivity).
        rewrite (arith1 off (length l)). refine (IH _ (off + 1) _ X2). intros j Hj. exact (R j (or_intror Hj)).
  Qed.
End Encrypt.

Lemma arith_sat n : 0 + 4 + 4 * n + 8 = 4 + 4 * n + 8. Proof. reflexivity. Qed.
Section Main.
  Variable poseidon : Fr -> Fr -> Fr.
  Variable aux1 : G1.
  Variable aux2 : G2c.
  (** any dealing that is regular for some auxiliary point is accepted, in any encoding of the coordinates *)
  Theorem circuit_accepts c cs (z : Z) (pks : list Gk) (A : Gk) inst :
    cs <> [] -> pks <> [] -> length cs = length (dc_coeffs c) -> length pks = length (dc_public_keys c) ->
    (0 <= z < 2 ^ 254)%Z ->
    table_assignable (g1 : G1) aux1 -> table_assignable (g2 : G2c) aux2 ->
    dealing_reachable aux1 aux2 cs (Z.of_nat (length pks)) -> aux_point_ok A z pks ->
    dealing_instance poseidon cs (fq z) pks inst ->
    satisfiable (synthesize poseidon aux1 aux2 c inst).
  Proof.
    intros Nc Np Lc Lp Hz T1 T2 (R0 & R20 & Ri) (NA & Eg & Fk) D.
    destruct D as (lga & lgs & lg2 & Ei & Ega & Egs & Eg2 & _).
    change (fr 0) with (f0 : Fr) in R0, R20.
    apply reach_iff1 in R0. apply reach_iff2 in R20.
    set (n := length pks) in *. assert (Hn : 1 <= n) by (subst n; destruct pks; [congruence|cbn [length]; lia]).
    assert (Lga : length lga = 4).
    { destruct Ega as (_ & lx & ly & -> & (zx & _ & _ & ->) & (zy & _ & _ & ->)). reflexivity. }
    assert (Lg2 : length lg2 = 8).
    { destruct Eg2 as (_ & l0 & l1 & l2 & l3 & -> & (z0 & _ & _ & ->) & (z1 & _ & _ & ->) & (z2 & _ & _ & ->) & (z3 & _ & _ & ->)). reflexivity. }
    assert (X : exposed Fr inst 0 inst).
    { pose proof (exposed_refl Fr inst [] []) as X. rewrite app_nil_r in X. exact X. }
    rewrite Ei in X at 2. clear Ei. apply exposed_app in X as [X1 X]. rewrite Lga in X.
    apply exposed_app in X as [X2 X].
    set (sh := map (fun i => poly_at cs (fr (Z.of_nat i))) (seq 1 n)).
    assert (Esh : forall i, i < n -> nth i sh f0 = poly_at cs (fr (Z.of_nat (S i)))).
    { intros i Hi. unfold sh. rewrite (nth_indep _ _ (poly_at cs (fr (Z.of_nat 0)))) by (rewrite map_length, seq_length; exact Hi).
      rewrite (map_nth (fun i => poly_at cs (fr (Z.of_nat i)))), seq_nth by exact Hi. reflexivity. }
    assert (Fgs : Forall2 (fun i l => g1_encodes (g1mul g1 (nth i sh f0)) l /\ length l = 4) (seq 0 n) lgs).
    { rewrite zseq_seq in Egs. clear -Egs Esh. assert (B : forall i, In i (seq 0 n) -> i < n) by (intros i Hi; apply in_seq in Hi; lia).
      revert B lgs Egs. induction (seq 0 n) as [|i l IH]; intros B lgs F; cbn [map] in F; inversion F as [|u v u' v' H1 H2]; subst; constructor.
      - split; [rewrite Esh by (apply B; left; reflexivity); exact H1|]. destruct H1 as (_ & lx & ly & -> & (zx & _ & _ & ->) & (zy & _ & _ & ->)). reflexivity.
      - apply IH; [intros j Hj; apply B; right; exact Hj|exact H2]. }
    assert (Lgs : length (concat lgs) = 4 * n). { pose proof (concat_len 4 _ _ _ Fgs) as Y. rewrite seq_length in Y. exact Y. }
    rewrite Lgs in X. apply exposed_app in X as [X3 X]. rewrite Lg2 in X. apply exposed_app in X as [X4 X].
    change (length (gk_coords (gkmul gk (fq z)))) with 2 in X. apply exposed_app in X as [X5 X6].
    rewrite map_length, combine_length, length_zseq in X6. fold n in X6. rewrite Nat.min_id in X6. clear Egs.
    assert (X5' : exposed Fr inst (0 + 4 + 4 * n + 8 + 2) (map (fun i => cipher poseidon (nth i sh f0) (nth i pks g0) (fq z)) (seq 0 n))).
    { rewrite zseq_seq in X5. rewrite (combine_map_l' _ _ (fun '(i, pk) => cipher poseidon (nth i sh f0) pk (fq z))) in X5.
      - unfold n in X5 at 2. rewrite (combine_nth_seq (g0 : Gk)), map_map in X5. fold n in X5. erewrite map_ext_in; [exact X5|].
        intros i Hi. cbv beta iota. rewrite Nat.sub_0_r. reflexivity.
      - intros i pk Hi. apply in_seq in Hi. cbv beta iota. rewrite Esh by lia. reflexivity. }
    clear X5.
    destruct (hon_table1 aux1 T1) as [t Ht]. destruct (hon_table2 aux2 T2) as [t2 Ht2].
    pose proof (honest_sem _ _ Ht) as St. pose proof (honest_sem _ _ Ht2) as St2.
    destruct (sat_expose_g2 aux2 inst t2 _ (0 + 4 + 4 * n) lg2 St2 R20 Eg2 X3) as (p2 & l2 & Hp2 & Hl2 & He2).
    pose proof (xy_is_pt Fr bk two_r three_r bk_neq0 A NA) as HA.
    destruct (honest_g_neg Fr bk two_r three_r bk_neq0 (xy A) A HA) as (an & Han & HN).
    destruct (hon_gkmul (xy A) an A HA HN z Hz (xy gk) gk gk_pt Eg) as (gro & Hgro & HGR).
    unfold satisfiable, synthesize. rewrite <- Lp. fold n.
    refine (sbind _ _ _ _ (sat_shares n _ cs (eq_sym Lc) Nc Hn) _). fold sh.
    refine (sbind _ _ _ _ St _). refine (sbind _ _ _ _ St2 _).
    refine (sbind _ _ (xy A, an) _ _ _).
    { unfold assign_aux. refine (sbind _ _ _ _ (sat_assign_point _ A NA) _). refine (sbind _ _ _ _ (honest_sem _ _ Han) _). reflexivity. }
    pose proof (sat_expose_g1 aux1 inst t (poly_at cs f0) None 0 lga I St R0 Ega X1) as Y.
    refine (sbind _ _ _ _ Y _). clear Y.
    assert (Ei' : forall i, In i (seq 0 n) -> reach1 aux1 (nth i sh f0)).
    { intros i Hi. apply in_seq in Hi. rewrite Esh by lia. apply reach_iff1. apply Ri. lia. }
    pose proof (sat_public_shares aux1 inst t sh St (seq 0 n) lgs 4 Ei' Fgs X2) as Y. rewrite seq_length in Y.
    refine (sbind _ _ _ _ Y _). clear Y.
    refine (sbind _ _ _ _ Hp2 _). refine (sbind _ _ _ _ Hl2 _). refine (sbind _ _ _ _ He2 _).
    refine (sbind _ _ (xy gk) _ _ _).
    { unfold g_assign_constant. refine (sbind _ _ _ _ (proj2 (sem_assign_constant Fr _ _) eq_refl) _). refine (sbind _ _ _ _ (proj2 (sem_assign_constant Fr _ _) eq_refl) _).
      cbn [sem]. apply surjective_pairing. }
    refine (sbind _ _ (map (bit Fr) (zbits 254 z)) _ _ _).
    { apply sat_bits. rewrite zbits_length. apply decompose_length. }
    refine (sbind _ _ _ _ (honest_sem _ _ Hgro) _).
    refine (sbind _ _ _ _ (honest_sem _ _ (hon_expose_gk inst gro _ _ HGR X4)) _).
    assert (Fk' : forall i, In i (seq 0 n) -> nth i pks g0 <> g0 /\ ~ gk_exceptional A (nth i pks g0) z).
    { intros i Hi. apply in_seq in Hi. rewrite Forall_forall in Fk. apply Fk. apply nth_In. unfold n in Hi. lia. }
    pose proof (sat_encrypt poseidon inst (xy A) an A HA HN z Hz sh (dc_public_keys c) pks (seq 0 n) [] _ Fk' X5') as Y. rewrite seq_length in Y.
    refine (sbind _ _ _ _ Y _). clear Y. cbn [app].
    assert (Epk : map (fun i => xy (nth i pks g0)) (seq 0 n) = map (fun PK : Gk => xy PK) pks).
    { unfold n. clear. induction pks as [|a l IH]; cbn [length seq map nth]; [reflexivity|]. f_equal. rewrite <- seq_shift, map_map. exact IH. }
    rewrite Epk.
    assert (Fn : Forall (fun PK : Gk => PK <> g0) pks) by (eapply Forall_impl; [|exact Fk]; intros a [Q _]; exact Q).
    pose proof (hon_expose_pks inst pks _ Fn X6) as Y. refine (sbind _ _ _ _ (honest_sem _ _ Y) _). reflexivity.
  Qed.

  Lemma aux_exists (pks : list Gk) z : (0 < z < q_mod)%Z -> (Z.of_nat (length pks) < 2 ^ 200)%Z -> Forall (fun pk : Gk => pk <> g0) pks ->
    exists A, aux_point_ok A z pks.
  Proof.
    intros B L F. destruct (avoid (G := Gk) (bad_auxes pks z) (map (fun i => zmul i gk) (zseq (2 + 509 * (1 + length pks))))) as (A & _ & HA).
    - apply (multiples_NoDup (G := Gk) gk q_mod); [exact q_prime|exact gk_neq0|apply Gk_exponent|].
      assert (Q : (512 * 2 ^ 200 < q_mod)%Z) by reflexivity. lia.
    - rewrite bad_auxes_length, map_length, length_zseq. lia.
    - exists A. exact (bad_auxes_ok pks z A B F HA).
  Qed.

  Theorem satisfiable_iff c inst : dc_coeffs c <> [] -> dc_public_keys c <> [] -> (Z.of_nat (length (dc_public_keys c)) < 2 ^ 200)%Z ->
    length inst = 7 * length (dc_public_keys c) + 14 ->
    (satisfiable (synthesize poseidon aux1 aux2 c inst) <->
     table_assignable (g1 : G1) aux1 /\ table_assignable (g2 : G2c) aux2 /\
     exists coeffs rs pks, length coeffs = length (dc_coeffs c) /\ length pks = length (dc_public_keys c) /\
       dealing_instance poseidon coeffs rs pks inst /\ dealing_reachable aux1 aux2 coeffs (Z.of_nat (length pks))).
  Proof.
    intros Nc Np Sm L. split.
    - intros H. split; [|split].
      + unfold satisfiable, synthesize in H. destruct (sem_binv _ _ _ H) as ([sh a] & _ & H1). destruct (sem_binv _ _ _ H1) as (t & Ht & _). exact (table1_inv aux1 t Ht).
      + unfold satisfiable, synthesize in H. destruct (sem_binv _ _ _ H) as ([sh a] & _ & H1). destruct (sem_binv _ _ _ H1) as (t & _ & H2).
        destruct (sem_binv _ _ _ H2) as (t2 & Ht2 & _). exact (table2_inv aux2 t2 Ht2).
      + destruct (circuit_sound_full poseidon aux1 aux2 c inst H L) as (cs & rs & pks & (L1 & L2 & D) & _ & R1 & R2 & R3).
        exists cs, rs, pks. split; [exact L1|]. split; [exact L2|]. split; [exact D|]. unfold dealing_reachable. change (fr 0) with (f0 : Fr).
        split; [apply reach_iff1; exact R1|]. split; [apply reach_iff2; exact R2|]. intros i Hi. rewrite L2 in Hi.
        specialize (R3 (Z.to_nat (i - 1)) ltac:(lia)). replace (Z.of_nat (S (Z.to_nat (i - 1)))) with i in R3 by lia. apply reach_iff1. exact R3.
    - intros (T1 & T2 & cs & rs & pks & L1 & L2 & D & R).
      assert (Nc' : cs <> []) by (intros ->; apply Nc; destruct (dc_coeffs c); [reflexivity|discriminate L1]).
      assert (Np' : pks <> []) by (intros ->; apply Np; destruct (dc_public_keys c); [reflexivity|discriminate L2]).
      set (z := fval (rs : Fp q_mod)). pose proof (fval_range q_mod rs eq_refl : (0 <= z < q_mod)%Z) as B.
      assert (Q : (q_mod < 2 ^ 254)%Z) by reflexivity. assert (E : fq z = rs) by exact (of_Z_fval q_mod rs).
      assert (Nz : z <> 0%Z).
      { destruct D as (_ & _ & _ & _ & _ & _ & _ & Ng & _). intros Z0. apply Ng. unfold gkmul, smul. change (fval rs) with z. rewrite Z0. reflexivity. }
      assert (F : Forall (fun pk : Gk => pk <> g0) pks) by (destruct D as (_ & _ & _ & _ & _ & _ & _ & _ & F); exact F).
      destruct (aux_exists pks z ltac:(lia) ltac:(rewrite L2; exact Sm) F) as [A HA].
      rewrite <- E in D. exact (circuit_accepts c cs z pks A inst Nc' Np' L1 L2 ltac:(lia) T1 T2 R HA D).
  Qed.
End Main.
