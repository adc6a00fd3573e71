(** The converse of completeness: the prover's own assignment exists only for regular inputs. *)
From Coq Require Import Field NArith Nnat ZArith List Bool Lia Setoid.
From Verif.Base Require Import Fermat Fld Fp EC Primes Curves Group Order Fq2 Poly.
From Verif.Model Require Import Points Lib Circ MainGate GrumpkinChip IntegerChip FixedBase DkgCircuit.
From Verif.Spec Require Import Dvrf CircuitSpec.
From Verif.Proofs Require Import DkgProofs SvdwProofs CircProofs GrumpkinProofs FixedBaseProofs IntegerProofs CircuitParts CircuitPoints DkgCircuitProofs Exceptional DkgComplete.
Import ListNotations.
Open Scope nat_scope.

Lemma hon_binv {A B} (c : circ A) (f : A -> circ B) b : honest (let! x := c in f x) b -> exists a, honest c a /\ honest (f a) b.
Proof. apply honest_bind. Qed.
Lemma Forall2_nth_l {A B} (R : A -> B -> Prop) l l' : Forall2 R l l' -> forall i x, nth_error l i = Some x -> exists y, R x y.
Proof. induction 1; intros [|i] z Hz; cbn [nth_error] in *; try discriminate; eauto. assert (x = z) by congruence. subst. eauto. Qed.

Section TableInv.
  Variable G : Grp.
  Variable PT : Type.
  Variable acst : G -> circ PT.
  Variables P aux : G.
  Hypothesis acst_inv : forall Q p, sem (acst Q) p -> Q <> g0 /\ zmul r_mod Q = g0.
  Hypothesis ord_P : zmul r_mod P = g0.
  Lemma table_inv t : sem (assign_fixed_point G PT acst NUM_BITS WINDOW_SIZE P aux) t -> table_assignable P aux.
  Proof.
    unfold assign_fixed_point. change (Nat.ltb 1 WINDOW_SIZE) with true. cbv iota. intros H. apply sem_cmap in H.
    assert (X : forall i k, i < 85 -> k < rowlen NUM_BITS WINDOW_SIZE i ->
       (T G WINDOW_SIZE P i k ⊕ extra G NUM_BITS WINDOW_SIZE P aux i)%grp <> g0 /\ zmul r_mod (T G WINDOW_SIZE P i k ⊕ extra G NUM_BITS WINDOW_SIZE P aux i)%grp = g0).
    { intros i k Hi Hk. destruct (Forall2_nth_l _ _ _ H i _ (table_entry G NUM_BITS WINDOW_SIZE w_ge2 nw_ge3 P aux i Hi)) as [row Hr].
      apply sem_cmap in Hr. assert (E : nth_error (map (fun k => T G WINDOW_SIZE P i k ⊕ extra G NUM_BITS WINDOW_SIZE P aux i)%grp (seq 0 (rowlen NUM_BITS WINDOW_SIZE i))) k
         = Some (T G WINDOW_SIZE P i k ⊕ extra G NUM_BITS WINDOW_SIZE P aux i)%grp).
      { rewrite nth_error_map, (nth_error_nth' _ 0) by (rewrite seq_length; exact Hk). rewrite seq_nth by exact Hk. reflexivity. }
      destruct (Forall2_nth_l _ _ _ Hr k _ E) as [p Hp]. exact (acst_inv _ _ Hp). }
    clear H. split; [|split].
    - intros k Bk E. destruct (X 83 (Z.to_nat k) ltac:(lia)) as [N _]; [change (rowlen NUM_BITS WINDOW_SIZE 83) with 8; lia|].
      apply N. unfold T. change (extra G NUM_BITS WINDOW_SIZE P aux 83) with aux. change (Z.of_nat WINDOW_SIZE * Z.of_nat 83)%Z with 249%Z.
      replace (Z.of_nat (Z.to_nat k + 2)) with (k + 2)%Z by lia. rewrite E. apply gopp_l.
    - intros k Bk E. destruct (X 84 (Z.to_nat k) ltac:(lia)) as [N _]; [change (rowlen NUM_BITS WINDOW_SIZE 84) with 4; lia|].
      apply N. unfold T. change (extra G NUM_BITS WINDOW_SIZE P aux 84) with (⊖ (zmul (2 * ((2 ^ 255 - 1) / 7)) P ⊕ aux))%grp. change (Z.of_nat WINDOW_SIZE * Z.of_nat 84)%Z with 252%Z.
      replace (Z.of_nat (Z.to_nat k + 2)) with (k + 2)%Z by lia. rewrite gopp_add, <- gassoc, <- zmul_opp, <- zmul_add.
      replace ((k + 2) * 2 ^ 252 + - (2 * ((2 ^ 255 - 1) / 7)))%Z with ((k + 2) * 2 ^ 252 - 2 * ((2 ^ 255 - 1) / 7))%Z by reflexivity. rewrite E. apply gopp_r.
    - destruct (X 83 0 ltac:(lia)) as [_ O]; [change (rowlen NUM_BITS WINDOW_SIZE 83) with 8; lia|]. revert O. unfold T.
      change (extra G NUM_BITS WINDOW_SIZE P aux 83) with aux. rewrite zmul_gadd, zmul_comm, ord_P, zmul_g0, g0_l. auto.
  Qed.
End TableInv.

Lemma cst1_inv (Q : G1) p : sem (g1_assign_constant Q) p -> Q <> g0 /\ zmul r_mod Q = g0.
Proof. intros H. split; [exact (is_pt_neq0 _ _ _ _ _ _ _ (sem_cst1 Q p H))|apply G1_exponent]. Qed.
Lemma cst2_inv (Q : G2c) p : sem (g2_assign_constant Q) p -> Q <> g0 /\ zmul r_mod Q = g0.
Proof.
  intros H. split; [exact (is_pt_neq0 _ _ _ _ _ _ _ (sem_cst2 Q p H))|].
  unfold g2_assign_constant in H. apply sem_p2_cst in H. destruct (geqb (zmul r_mod Q) g0) eqn:E; [|discriminate]. apply geqb_eq in E. exact E.
Qed.
Lemma table1_inv aux1 t : sem (g1_assign_fixed_point aux1) t -> table_assignable (g1 : G1) aux1.
Proof. intros H. apply sem_table1 in H. exact (table_inv G1 (point1 Fq) g1_assign_constant g1 aux1 cst1_inv g1_order t H). Qed.
Lemma table2_inv aux2 t : sem (g2_assign_fixed_point aux2) t -> table_assignable (g2 : G2c) aux2.
Proof. intros H. exact (table_inv G2c (point2 Fq) g2_assign_constant g2 aux2 cst2_inv g2_order t H). Qed.

Section Ring.
  Variable K : Fld.
  Add Field Kf_exact : (flaw K).
  Lemma curve_at_0 (b : K) : (f0 * f0 = f0 * f0 * f0 + b)%fld -> b = f0.
  Proof. intros H. transitivity (f0 * f0 * f0 + b)%fld; [ring|]. rewrite <- H. ring. Qed.
End Ring.

Section Inv.
  Variable poseidon : Fr -> Fr -> Fr.
  Variable aux1 : G1.
  Variable aux2 : G2c.
  Variable inst : list Fr.
  Lemma hon_g1_mul_inv t s out : sem (g1_assign_fixed_point aux1) t -> honest (g1_mul t s) out -> regular1 aux1 s.
  Proof.
    intros Ht H. apply sem_table1 in Ht. unfold g1_mul in H. rewrite decompose_bits in H.
    exact (hon_fixed_regular G1 Fr (point1 Fq) g1_assign_constant (p1_select Fq Fr) (p1_add_incomplete Fq) (p1_add Fq) NUM_BITS
      pt1 WINDOW_SIZE w_ge2 nw_ge3 (sem_p1_select Fq Fr) r_mod g1 aux1 r_prime g1_order g1_neq0 ord_big sem_cst1
      (sem_p1_addi Fq b1 two_q three_q b1_neq0) (sem_p1_add Fq b1 two_q three_q b1_neq0) t s (zbits 254 (fval (s : Fp r_mod))) out Ht
      (zbits_length _ _) H).
  Qed.
  Lemma hon_g2_mul_inv t s out : sem (g2_assign_fixed_point aux2) t -> honest (g2_mul t s) out -> regular2 aux2 s.
  Proof.
    intros Ht H. unfold g2_assign_fixed_point in Ht. unfold g2_mul in H. rewrite decompose_bits in H.
    pose proof (hon_fixed_regular G2c Fr (point2 Fq) g2_assign_constant (p2_select Fq Fr) (p2_add_incomplete Fq) (p2_add Fq) NUM_BITS
      pt2 WINDOW_SIZE w_ge2 nw_ge3 sem_sel2 r_mod g2 aux2) as X.
    specialize (X r_prime g2_order g2_neq0 ord_big). specialize (X sem_cst2). specialize (X sem_addi2). specialize (X sem_add2).
    exact (X t s (zbits 254 (fval (s : Fp r_mod))) out Ht (zbits_length _ _) H).
  Qed.
  Lemma hon_expose_g1_inv t s ob off r : sem (g1_assign_fixed_point aux1) t -> honest (expose_g1 inst t s ob off) r -> regular1 aux1 s.
  Proof. intros Ht H. unfold expose_g1 in H. destruct (hon_binv _ _ _ H) as (p & Hp & _). exact (hon_g1_mul_inv t s p Ht Hp). Qed.
  Lemma hon_public_shares_inv t sh base (Ht : sem (g1_assign_fixed_point aux1) t) : forall l off off',
    honest (cfold (fun offset i => let! (_, offset) := expose_g1 inst t (nth i sh f0) (Some base) offset in Ret offset) l off) off' ->
    forall i, In i l -> regular1 aux1 (nth i sh f0).
  Proof.
    induction l as [|j l IH]; intros off off' H i [].
    - subst j. cbn [cfold] in H. destruct (hon_binv _ _ _ H) as (o1 & H1 & _). destruct (hon_binv _ _ _ H1) as (p & Hp & _). exact (hon_expose_g1_inv t _ _ _ p Ht Hp).
    - cbn [cfold] in H. destruct (hon_binv _ _ _ H) as (o1 & _ & H2). exact (IH o1 off' H2 i H0).
  Qed.
  Lemma xy0 : xy (g0 : Gk) = (f0, f0). Proof. reflexivity. Qed.
  Lemma hon_assign_inv (P : Gk) p : honest (assign_point Fr bk (xy P)) p -> P <> g0 /\ p = xy P.
  Proof.
    intros H. assert (N : P <> g0).
    { intros ->. destruct (sem_assign_point Fr bk two_r three_r bk_neq0 _ p (honest_sem _ _ H)) as [Q HQ].
      unfold assign_point in H. destruct (hon_binv _ _ _ H) as (x & Hx & H1). destruct (hon_binv _ _ _ H1) as (y & Hy & H2).
      destruct (hon_binv _ _ _ H2) as (u & _ & H3). cbn [honest] in H3. subst p.
      pose proof (honest_fun _ _ _ Hx (honest_assign_value Fr _)) as Ex. pose proof (honest_fun _ _ _ Hy (honest_assign_value Fr _)) as Ey.
      subst x y. apply (is_pt_on Fr bk two_r three_r bk_neq0) in HQ. rewrite xy0 in HQ. cbn [fst snd] in HQ. apply bk_neq0.
      exact (curve_at_0 Fr bk HQ). }
    split; [exact N|]. exact (honest_fun _ _ _ H (honest_assign_point Fr bk two_r three_r bk_neq0 (xy P) P (xy_is_pt Fr bk two_r three_r bk_neq0 P N))).
  Qed.

  Variables (a_ an_ : apoint Fr) (A : Gk).
  Hypothesis HA : ptk a_ A.
  Hypothesis HN : ptk an_ (⊖ A)%grp.
  Variable z : Z.
  Hypothesis Hz : (0 <= z < 2 ^ 254)%Z.
  Lemma hon_gkmul_inv p (P : Gk) out : ptk p P -> honest (g_mul_bits Fr THREE_OVER_TWO (Some (a_, an_)) p (map (bit Fr) (zbits 254 z))) out ->
    ~ gk_exceptional A P z.
  Proof.
    intros HP H. apply (gk_regular_iff A P z Hz).
    exact (sem_mul_bits_regular Fr bk THREE_OVER_TWO T32_ok two_r three_r bk_neq0 Gk_no_torsion A P a_ an_ p (zbits 254 z) out HA HN HP (honest_sem _ _ H)).
  Qed.
  Lemma hon_encrypt_inv sh (ws : list Gk) : forall l st st',
    honest (cfold (fun '(pks, offset) i => let! (pk, offset) := encrypt_one poseidon inst (a_, an_) (map (bit Fr) (zbits 254 z)) (nth i sh f0) (xy (nth i ws g0)) offset in
                                        Ret (pks ++ [pk], offset)) l st) st' ->
    forall i, In i l -> nth i ws g0 <> g0 /\ ~ gk_exceptional A (nth i ws g0) z.
  Proof.
    induction l as [|j l IH]; intros [done off] st' H i Hi; [destruct Hi|]. cbn [cfold] in H.
    destruct (hon_binv _ _ _ H) as (s1 & H1 & H2). destruct Hi as [->|Hi]; [|exact (IH s1 st' H2 i Hi)].
    destruct (hon_binv _ _ _ H1) as (q & Hq & _). clear H1 H2 H. unfold encrypt_one in Hq.
    destruct (hon_binv _ _ _ Hq) as (pk & Hpk & H3). destruct (hon_binv _ _ _ H3) as (pkr & Hpkr & _).
    destruct (hon_assign_inv _ _ Hpk) as [N ->]. split; [exact N|].
    exact (hon_gkmul_inv _ _ pkr (xy_is_pt Fr bk two_r three_r bk_neq0 _ N) Hpkr).
  Qed.
End Inv.

Section Exposed.
  Variable poseidon : Fr -> Fr -> Fr.
  Variable aux1 : G1.
  Variable aux2 : G2c.
  Variable inst : list Fr.
  Lemma hon_expose_g1_exp t s ob off base off' : base_ok ob -> sem (g1_assign_fixed_point aux1) t -> honest (expose_g1 inst t s ob off) (base, off') ->
    base = limb_base /\ off' = off + 4 /\ exposed Fr inst off (point_to_public (g1mul g1 s)).
  Proof.
    intros Hb Ht H. destruct (sem_expose_g1 aux1 inst t s ob off base off' Hb Ht (honest_sem _ _ H)) as (Eb & Eo & _). split; [exact Eb|]. split; [exact Eo|].
    unfold expose_g1 in H. destruct (hon_binv _ _ _ H) as (p & Hp & H1). destruct (hon_binv _ _ _ H1) as (l & Hl & H2).
    pose proof (honest_fun _ _ _ Hl (hon_norm1 p)) as El. subst l. pose proof (sem_g1_mul aux1 t s p Ht (honest_sem _ _ Hp)) as HP.
    apply honest_sem in H2. unfold g1_expose in H2. apply sem_optimal in H2. destruct H2 as (_ & He & _). rewrite Eb in He. cbn [fst snd] in He.
    assert (E : flat_map (wrapv Fr limb_base) [reduced (fst p); reduced (snd p)] = point_to_public (g1mul g1 s)).
    { cbn [flat_map]. rewrite app_nil_r, !wrapv_reduced. unfold point_to_public.
      rewrite (is_pt_xy Fq b1 two_q three_q b1_neq0 p (g1mul g1 s) HP). reflexivity. }
    rewrite E in He. exact He.
  Qed.
  Lemma hon_expose_g2_exp t s p l off base off' : sem (g2_assign_fixed_point aux2) t -> honest (g2_mul t s) p -> honest (g2_normalize p) l ->
    honest (g2_expose inst l (Some limb_base) off) (base, off') -> off' = off + 8 /\ exposed Fr inst off (point2_to_public (g2mul g2 s)).
  Proof.
    intros Ht Hp Hl H. destruct (sem_expose_g2 aux2 inst t s off base off' p l Ht (honest_sem _ _ Hp) (honest_sem _ _ Hl) (honest_sem _ _ H)) as (Eo & _). split; [exact Eo|].
    pose proof (honest_fun _ _ _ Hl (hon_norm2 p)) as El. subst l. pose proof (sem_g2_mul aux2 t s p Ht (honest_sem _ _ Hp)) as HP.
    apply honest_sem in H. unfold g2_expose in H. apply sem_optimal in H. destruct H as (Eb & He & _). subst base. cbn [fst snd] in He.
    assert (E : flat_map (wrapv Fr limb_base) [reduced (fst (fst p)); reduced (snd (fst p)); reduced (fst (snd p)); reduced (snd (snd p))]
                = point2_to_public (g2mul g2 s)).
    { cbn [flat_map]. rewrite app_nil_r, !wrapv_reduced. unfold point2_to_public.
      rewrite (is_pt_xy Fq2 b2 two_q2 three_q2 b2_neq0 p (g2mul g2 s) HP). destruct p as [x y]. reflexivity. }
    rewrite E in He. exact He.
  Qed.
  Lemma hon_public_shares_exp t sh (Ht : sem (g1_assign_fixed_point aux1) t) : forall l off off',
    honest (cfold (fun offset i => let! (_, offset) := expose_g1 inst t (nth i sh f0) (Some limb_base) offset in Ret offset) l off) off' ->
    off' = off + 4 * length l /\ exposed Fr inst off (flat_map (fun i => point_to_public (g1mul g1 (nth i sh f0))) l).
  Proof.
    induction l as [|j l IH]; intros off off' H; cbn [cfold] in H.
    - cbn [honest] in H. subst off'. split; [cbn [length]; rewrite Nat.mul_0_r, Nat.add_0_r; reflexivity|apply exposed_nil].
    - destruct (hon_binv _ _ _ H) as (o1 & H1 & H2). clear H. destruct (hon_binv _ _ _ H1) as ([b0 o2] & Hp & He). cbn [honest] in He. subst o2. clear H1.
      assert (Hb : base_ok (Some limb_base)). { unfold base_ok. reflexivity. }
      destruct (hon_expose_g1_exp t _ _ _ b0 o1 Hb Ht Hp) as (_ & -> & X). destruct (IH _ _ H2) as [-> Y].
      split; [cbn [length]; symmetry; apply arith4|]. cbn [flat_map]. apply exposed_app. rewrite point_to_public_len. split; [exact X|exact Y].
  Qed.
  Variables (a_ an_ : apoint Fr) (A : Gk).
  Hypothesis HA : ptk a_ A.
  Hypothesis HN : ptk an_ (⊖ A)%grp.
  Variable bs : list bool.
  Lemma hon_expose_gk_exp p (P : Gk) off off' : ptk p P -> honest (g_expose_public Fr inst p off) off' -> off' = off + 2 /\ exposed Fr inst off (gk_coords P).
  Proof. intros HP H. apply (sem_expose_gk inst p P off off' HP). exact (honest_sem _ _ H). Qed.
  Lemma hon_encrypt_exp sh (ws : list Gk) : forall l done off st',
    honest (cfold (fun '(pks, offset) i => let! (pk, offset) := encrypt_one poseidon inst (a_, an_) (map (bit Fr) bs) (nth i sh f0) (xy (nth i ws g0)) offset in
                                        Ret (pks ++ [pk], offset)) l (done, off)) st' ->
    st' = (done ++ map (fun i => xy (nth i ws g0)) l, off + length l) /\
    exposed Fr inst off (map (fun i => cipher poseidon (nth i sh f0) (nth i ws g0) (fq (bval bs))) l).
  Proof.
    induction l as [|j l IH]; intros done off st' H; cbn [cfold] in H.
    - cbn [honest] in H. subst st'. split; [cbn [map length]; rewrite app_nil_r, Nat.add_0_r; reflexivity|apply exposed_nil].
    - destruct (hon_binv _ _ _ H) as (s1 & H1 & H2). clear H. destruct (hon_binv _ _ _ H1) as ([pk o1] & Hq & He). cbn [honest] in He. subst s1. clear H1.
      unfold encrypt_one in Hq. destruct (hon_binv _ _ _ Hq) as (pk' & Hpk & H3). clear Hq. destruct (hon_binv _ _ _ H3) as (pkr & Hpkr & H4). clear H3.
      destruct (hon_binv _ _ _ H4) as (key & Hk & H5). clear H4. destruct (hon_binv _ _ _ H5) as (ci & Hc & H6). clear H5.
      destruct (hon_binv _ _ _ H6) as (u & Hu & H7). clear H6. cbn [honest] in H7. apply pair_inj in H7. destruct H7 as [E1 E2]. subst pk o1.
      destruct (hon_assign_inv _ _ Hpk) as [N ->]. pose proof (xy_is_pt Fr bk two_r three_r bk_neq0 _ N) as HP.
      pose proof (sem_gkmul a_ an_ A HA HN bs _ _ pkr HP (honest_sem _ _ Hpkr)) as HR.
      destruct Hk as [_ Hk]. cbn [honest] in Hk. subst key.
      apply honest_sem in Hc. apply -> (sem_add Fr) in Hc. apply honest_sem in Hu. apply (sem_expose Fr) in Hu.
      destruct (IH _ _ _ H2) as [-> X]. split.
      + cbn [map length]. rewrite <- app_assoc, (arith1 off (length l)). reflexivity.
      + cbn [map]. apply exposed_cons. split; [|exact X]. rewrite Hu, Hc. unfold cipher. rewrite (is_pt_xy Fr bk two_r three_r bk_neq0 pkr _ HR). reflexivity.
  Qed.
  Lemma hon_expose_pks_exp : forall (PKS : list Gk) off off', Forall (fun PK => PK <> g0) PKS ->
    honest (cfold (fun offset pk => g_expose_public Fr inst pk offset) (map (fun PK => xy PK) PKS) off) off' -> exposed Fr inst off (flat_map gk_coords PKS).
  Proof.
    intros PKS off off' F. revert off. induction F as [|P PKS HP F IH]; intros off H; cbn [map cfold] in H; [apply exposed_nil|].
    destruct (hon_binv _ _ _ H) as (o1 & H1 & H2). destruct (hon_expose_gk_exp _ P off o1 (xy_is_pt Fr bk two_r three_r bk_neq0 P HP) H1) as [-> X].
    cbn [flat_map]. apply exposed_app. split; [exact X|]. exact (IH _ H2).
  Qed.
End Exposed.

Lemma idx_back i : (1 <= i)%Z -> Z.of_nat (1 + (Z.to_nat i - 1)) = i.
Proof. lia. Qed.

Section Main.
  Variable poseidon : Fr -> Fr -> Fr.
  Variable aux1 : G1.
  Variable aux2 : G2c.
  (** the prover succeeds only on regular inputs, whatever the instance *)
  Theorem circuit_regular cs (r : Fr) (pks : list Gk) (A : Gk) inst : pks <> [] ->
    prover_ok (synthesize poseidon aux1 aux2 (mkDkgCircuit cs r pks A) inst) ->
    cs <> [] /\ table_assignable (g1 : G1) aux1 /\ table_assignable (g2 : G2c) aux2 /\
    ~ exceptional (g1 : G1) aux1 (fval (poly_at cs f0 : Fp r_mod)) /\ ~ exceptional (g2 : G2c) aux2 (fval (poly_at cs f0 : Fp r_mod)) /\
    (forall i, (1 <= i <= Z.of_nat (length pks))%Z -> ~ exceptional (g1 : G1) aux1 (fval (poly_at cs (fr i) : Fp r_mod))) /\
    A <> g0 /\ ~ gk_exceptional A gk (fval (r : Fp r_mod)) /\
    Forall (fun pk : Gk => pk <> g0 /\ ~ gk_exceptional A pk (fval (r : Fp r_mod))) pks.
  Proof.
    unfold prover_ok, synthesize. cbn [dc_public_keys dc_coeffs dc_random dc_grumpkin_aux]. intros Np H.
    set (z := fval (r : Fp r_mod)) in *. set (n := length pks) in *. assert (Hn : 1 <= n) by (subst n; destruct pks; [congruence|cbn [length]; lia]).
    destruct (hon_binv _ _ _ H) as ([sh a] & Hsh & H1). clear H. destruct (hon_binv _ _ _ H1) as (t & Ht & H2). clear H1.
    destruct (hon_binv _ _ _ H2) as (t2 & Ht2 & H3). clear H2. destruct (hon_binv _ _ _ H3) as ([a_ an_] & Hx & H4). clear H3.
    destruct (hon_binv _ _ _ H4) as ([base o1] & Ha & H5). clear H4. destruct (hon_binv _ _ _ H5) as (o2 & Hs & H6). clear H5.
    destruct (hon_binv _ _ _ H6) as (g2p & Hg2 & H7). clear H6. destruct (hon_binv _ _ _ H7) as (g2l & _ & H8). clear H7.
    destruct (hon_binv _ _ _ H8) as ([b2' o3] & _ & H9). clear H8. destruct (hon_binv _ _ _ H9) as (g & Hg & H10). clear H9.
    destruct (hon_binv _ _ _ H10) as (bits & Hb & H11). clear H10. destruct (hon_binv _ _ _ H11) as (grp & Hgr & H12). clear H11.
    destruct (hon_binv _ _ _ H12) as (o4 & _ & H13). clear H12. destruct (hon_binv _ _ _ H13) as ([pks' o5] & Hp & _). clear H13.
    assert (Nc : cs <> []).
    { intros ->. unfold assign_shares in Hsh. destruct (hon_binv _ _ _ Hsh) as (l & Hl & Hm). cbn [cmap honest] in Hl. subst l. exact Hm. }
    pose proof (honest_fun _ _ _ Hsh (hon_shares n cs Nc Hn)) as E. apply pair_inj in E. destruct E as [-> ->]. clear Hsh.
    pose proof (honest_sem _ _ Ht) as St. pose proof (honest_sem _ _ Ht2) as St2.
    split; [exact Nc|]. split; [exact (table1_inv aux1 t St)|]. split; [exact (table2_inv aux2 t2 St2)|].
    split; [apply (regular1_iff aux1); exact (hon_expose_g1_inv aux1 inst t _ _ _ _ St Ha)|].
    split; [apply (regular2_iff aux2); exact (hon_g2_mul_inv aux2 t2 _ _ St2 Hg2)|].
    split.
    { intros i Hi. apply (regular1_iff aux1). pose proof (hon_public_shares_inv aux1 inst t _ base St _ _ _ Hs (Z.to_nat i - 1)) as X.
      assert (I : In (Z.to_nat i - 1) (seq 0 n)) by (apply in_seq; clear -Hi; unfold n; lia). specialize (X I).
      rewrite (nth_indep _ _ (poly_at cs (fr (Z.of_nat 0)))) in X by (rewrite map_length, seq_length; clear -Hi; unfold n; lia).
      rewrite (map_nth (fun i => poly_at cs (fr (Z.of_nat i)))), seq_nth in X by (clear -Hi; unfold n; lia).
      rewrite (idx_back i (proj1 Hi)) in X. exact X. }
    unfold assign_aux in Hx. destruct (hon_binv _ _ _ Hx) as (a0 & Hx1 & Hx2). clear Hx. destruct (hon_binv _ _ _ Hx2) as (c0 & Hx3 & Hx4). clear Hx2.
    cbn [honest] in Hx4. destruct (pair_inj Hx4) as [<- <-]. clear Hx4.
    destruct (hon_assign_inv _ _ Hx1) as [NA ->]. split; [exact NA|].
    pose proof (xy_is_pt Fr bk two_r three_r bk_neq0 A NA) as HA.
    pose proof (sem_g_neg Fr bk two_r three_r bk_neq0 _ A an_ HA (honest_sem _ _ Hx3)) as HN.
    assert (Hz : (0 <= z < 2 ^ 254)%Z) by exact (fr_range r).
    assert (Hg' : honest (g_assign_constant Fr (xy gk)) (xy gk)).
    { unfold g_assign_constant. refine (hbind _ _ _ _ (honest_assign_constant Fr _) _). refine (hbind _ _ _ _ (honest_assign_constant Fr _) _).
      cbn [honest]. apply surjective_pairing. }
    pose proof (honest_fun _ _ _ Hg Hg') as E. subst g. clear Hg Hg'.
    rewrite decompose_bits in Hb. fold z in Hb.
    pose proof (honest_fun _ _ _ Hb (honest_bits Fr _)) as E. subst bits. clear Hb.
    split; [exact (hon_gkmul_inv (xy A) an_ A HA HN z Hz (xy gk) gk grp gk_pt Hgr)|].
    pose proof (hon_encrypt_inv poseidon inst (xy A) an_ A HA HN z Hz _ pks _ _ _ Hp) as X.
    apply Forall_forall. intros pk Hpk. apply In_nth with (d := g0) in Hpk. destruct Hpk as (i & Li & <-). apply X. apply in_seq. clear -Li. unfold n. lia.
  Qed.
  (** ... and only on the instance of its own dealing *)
  Theorem circuit_instance cs (r : Fr) (pks : list Gk) (A : Gk) inst : pks <> [] -> length inst = 7 * length pks + 14 ->
    prover_ok (synthesize poseidon aux1 aux2 (mkDkgCircuit cs r pks A) inst) ->
    inst = honest_instance poseidon cs (fq (fval (r : Fp r_mod))) pks.
  Proof.
    intros Np L H. destruct (circuit_regular cs r pks A inst Np H) as (Nc & _ & _ & _ & _ & _ & NA & _ & Fk).
    unfold prover_ok, synthesize in H. cbn [dc_public_keys dc_coeffs dc_random dc_grumpkin_aux] in H.
    set (z := fval (r : Fp r_mod)) in *. set (n := length pks) in *. assert (Hn : 1 <= n) by (subst n; destruct pks; [congruence|cbn [length]; lia]).
    destruct (hon_binv _ _ _ H) as ([sh a] & Hsh & H1). clear H. destruct (hon_binv _ _ _ H1) as (t & Ht & H2). clear H1.
    destruct (hon_binv _ _ _ H2) as (t2 & Ht2 & H3). clear H2. destruct (hon_binv _ _ _ H3) as ([a_ an_] & Hx & H4). clear H3.
    destruct (hon_binv _ _ _ H4) as ([base o1] & Ha & H5). clear H4. destruct (hon_binv _ _ _ H5) as (o2 & Hs & H6). clear H5.
    destruct (hon_binv _ _ _ H6) as (g2p & Hg2 & H7). clear H6. destruct (hon_binv _ _ _ H7) as (g2l & Hl2 & H8). clear H7.
    destruct (hon_binv _ _ _ H8) as ([b2' o3] & He2 & H9). clear H8. destruct (hon_binv _ _ _ H9) as (g & Hg & H10). clear H9.
    destruct (hon_binv _ _ _ H10) as (bits & Hb & H11). clear H10. destruct (hon_binv _ _ _ H11) as (grp & Hgr & H12). clear H11.
    destruct (hon_binv _ _ _ H12) as (o4 & Ho4 & H13). clear H12. destruct (hon_binv _ _ _ H13) as ([pks' o5] & Hp & H14). clear H13.
    destruct (hon_binv _ _ _ H14) as (o6 & Ho6 & _). clear H14.
    pose proof (honest_fun _ _ _ Hsh (hon_shares n cs Nc Hn)) as E. apply pair_inj in E. destruct E as [-> ->]. clear Hsh.
    set (sh := map (fun i => poly_at cs (fr (Z.of_nat i))) (seq 1 n)) in *.
    pose proof (honest_sem _ _ Ht) as St. pose proof (honest_sem _ _ Ht2) as St2.
    destruct (hon_expose_g1_exp aux1 inst t _ None 0 base o1 I St Ha) as (-> & -> & X1).
    destruct (hon_public_shares_exp aux1 inst t sh St _ _ _ Hs) as (-> & X2). rewrite seq_length in *.
    destruct (hon_expose_g2_exp aux2 inst t2 _ g2p g2l _ b2' o3 St2 Hg2 Hl2 He2) as (-> & X3).
    unfold assign_aux in Hx. destruct (hon_binv _ _ _ Hx) as (a0 & Hx1 & Hx2). clear Hx. destruct (hon_binv _ _ _ Hx2) as (c0 & Hx3 & Hx4). clear Hx2.
    cbn [honest] in Hx4. destruct (pair_inj Hx4) as [<- <-]. clear Hx4.
    destruct (hon_assign_inv _ _ Hx1) as [_ ->].
    pose proof (xy_is_pt Fr bk two_r three_r bk_neq0 A NA) as HA.
    pose proof (sem_g_neg Fr bk two_r three_r bk_neq0 _ A an_ HA (honest_sem _ _ Hx3)) as HN.
    assert (Hz : (0 <= z < 2 ^ 254)%Z) by exact (fr_range r).
    assert (Hg' : honest (g_assign_constant Fr (xy gk)) (xy gk)).
    { unfold g_assign_constant. refine (hbind _ _ _ _ (honest_assign_constant Fr _) _). refine (hbind _ _ _ _ (honest_assign_constant Fr _) _).
      cbn [honest]. apply surjective_pairing. }
    pose proof (honest_fun _ _ _ Hg Hg') as E. subst g. clear Hg Hg'.
    rewrite decompose_bits in Hb. fold z in Hb.
    pose proof (honest_fun _ _ _ Hb (honest_bits Fr _)) as E. subst bits. clear Hb.
    pose proof (sem_gkmul (xy A) an_ A HA HN (zbits 254 z) (xy gk) gk grp gk_pt (honest_sem _ _ Hgr)) as HGR.
    rewrite (bval_zbits 254 z Hz) in HGR.
    destruct (hon_expose_gk_exp inst grp _ _ o4 HGR Ho4) as (-> & X4).
    destruct (hon_encrypt_exp poseidon inst (xy A) an_ A HA HN (zbits 254 z) sh pks (seq 0 n) [] _ _ Hp) as (E & X5).
    apply pair_inj in E. destruct E as [-> ->]. cbn [app] in Ho6. rewrite seq_length in *. rewrite (bval_zbits 254 z Hz) in X5.
    assert (Epk : map (fun i => xy (nth i pks g0)) (seq 0 n) = map (fun PK : Gk => xy PK) pks).
    { unfold n. clear. induction pks as [|a l IH]; cbn [length seq map nth]; [reflexivity|]. f_equal. rewrite <- seq_shift, map_map. exact IH. }
    rewrite Epk in Ho6.
    assert (Fn : Forall (fun PK : Gk => PK <> g0) pks) by (eapply Forall_impl; [|exact Fk]; intros a' [Q _]; exact Q).
    pose proof (hon_expose_pks_exp inst pks _ o6 Fn Ho6) as X6.
    clear Ho6 Hp Ho4 Hgr He2 Hl2 Hg2 Hs Ha Hx1 Hx3 Ht Ht2 St St2.
    assert (Esh : forall i, i < n -> nth i sh f0 = poly_at cs (fr (Z.of_nat (S i)))).
    { intros i Hi. unfold sh. rewrite (nth_indep _ _ (poly_at cs (fr (Z.of_nat 0)))) by (rewrite map_length, seq_length; exact Hi).
      rewrite (map_nth (fun i => poly_at cs (fr (Z.of_nat i)))), seq_nth by exact Hi. reflexivity. }
    assert (X2' : exposed Fr inst (0 + 4) (flat_map (fun i => point_to_public (g1mul g1 (poly_at cs (fr i)))) (zseq n))).
    { rewrite zseq_seq, flat_map_concat_map, map_map. rewrite flat_map_concat_map in X2. erewrite map_ext_in; [exact X2|].
      intros i Hi. apply in_seq in Hi. cbv beta. rewrite Esh by (clear -Hi; lia). reflexivity. }
    assert (X5' : exposed Fr inst (0 + 4 + 4 * n + 8 + 2) (map (fun '(i, pk) => cipher poseidon (poly_at cs (fr i)) pk (fq z)) (combine (zseq n) pks))).
    { rewrite zseq_seq. rewrite (combine_map_l' _ _ (fun '(i, pk) => cipher poseidon (nth i sh f0) pk (fq z))).
      - unfold n at 2. rewrite (combine_nth_seq (g0 : Gk)), map_map. fold n. erewrite map_ext_in; [exact X5|].
        intros i Hi. cbv beta iota. rewrite Nat.sub_0_r. reflexivity.
      - intros i pk Hi. apply in_seq in Hi. cbv beta iota. rewrite Esh by (clear -Hi; lia). reflexivity. }
    apply (exposed_all Fr).
    - unfold honest_instance. fold n. apply exposed_app. split; [exact X1|]. rewrite point_to_public_len.
      apply exposed_app. split; [exact X2'|]. rewrite (flat_len4 (fun i => g1mul g1 (poly_at cs (fr i)))), length_zseq.
      apply exposed_app. split; [exact X3|]. rewrite point2_to_public_len. apply exposed_app. split; [exact X4|].
      change (length (gk_coords (gkmul gk (fq z)))) with 2. apply exposed_app. split; [exact X5'|].
      rewrite map_length, combine_length, length_zseq. fold n. rewrite Nat.min_id. exact X6.
    - unfold honest_instance. fold n. rewrite !app_length, point_to_public_len, (flat_len4 (fun i => g1mul g1 (poly_at cs (fr i)))), length_zseq, point2_to_public_len,
        map_length, combine_length, length_zseq. fold n. rewrite Nat.min_id, flat_len. fold n. cbn [gk_coords length]. clear -L. lia.
  Qed.
End Main.
