(** Soundness and completeness of the DKG circuit. *)
From Coq Require Import NArith Nnat ZArith List Bool Lia Setoid.
From Verif.Base Require Import Fermat Fld Fp EC Primes Curves Group Order Fq2 Poly.
From Verif.Model Require Import Points Lib Circ MainGate GrumpkinChip IntegerChip FixedBase DkgCircuit.
From Verif.Spec Require Import Dvrf CircuitSpec.
From Verif.Proofs Require Import DkgProofs SvdwProofs CircProofs GrumpkinProofs FixedBaseProofs IntegerProofs CircuitParts CircuitPoints.
Import ListNotations.
Open Scope nat_scope.

Lemma T32_ok : (THREE_OVER_TWO * (f1 + f1) = f1 + (f1 + f1) :> Fr)%fld.
Proof. apply Fp_ext. reflexivity. Qed.
Lemma gkmul_bits (P : Gk) z : zmul z P = gkmul P (fq z).
Proof. unfold gkmul, smul, fq. rewrite fval_of_Z, zmul_mod; [reflexivity|discriminate|apply Gk_exponent]. Qed.
Lemma gk_pt : ptk (xy gk) gk.
Proof. exact (xy_is_pt Fr bk two_r three_r bk_neq0 gk gk_neq0). Qed.

Lemma pair_inj {A B} {a c : A} {b d : B} : (a, b) = (c, d) -> a = c /\ b = d.
Proof. intros E. split; [exact (f_equal fst E)|exact (f_equal snd E)]. Qed.

(** ** the shares *)
Lemma sem_shares n h sh a : sem (assign_shares n h) (sh, a) -> exists cs, length cs = length h /\ cs <> [] /\
  a = poly_at cs f0 /\ forall i, i < n -> nth i sh f0 = poly_at cs (fr (Z.of_nat (S i))).
Proof.
  unfold assign_shares. intros H. destruct (sem_binv _ _ _ H) as (cs & Hc & H1). clear H. apply -> (@sem_cmap Fr Fr) in Hc.
  assert (L : length cs = length h) by (clear -Hc; induction Hc; cbn [length]; congruence). clear Hc.
  destruct cs as [|c0 rest]; [destruct H1|]. destruct (sem_binv _ _ _ H1) as (s0 & Hs & H2). clear H1.
  destruct (sem_binv _ _ _ H2) as (sr & Hr & H3). clear H2. cbn [sem] in H3.
  assert (sh = s0 :: sr) by congruence. assert (a = c0) by congruence. clear H3. subst sh a.
  exists (c0 :: rest). split; [exact L|]. split; [discriminate|]. split.
  - rewrite poly_at_peval. symmetry. exact (peval_0 Fr (c0 :: rest)).
  - apply sem_fold_add in Hs. apply -> (@sem_cmap nat Fr) in Hr. intros [|i] Hi.
    + cbn [nth]. rewrite Hs, peval_1, poly_at_peval. reflexivity.
    + cbn [nth]. rewrite poly_at_peval.
      assert (G : forall k m l, Forall2 (fun i b => sem (let! x := assign_constant (fr (Z.of_nat i)) in
                   cfold (fun s c => mul_add s x c) (rev (removelast (c0 :: rest))) (last (c0 :: rest) f0)) b) (seq k m) l ->
                 forall i, i < m -> nth i l f0 = peval (c0 :: rest) (fr (Z.of_nat (k + i)))).
      { clear. intros k m l F. revert k l F. induction m as [|m IH]; intros k l F i Hi; [lia|]. cbn [seq] in F.
        inversion F as [|? y ? ys Hy Hys]; subst. destruct i as [|i].
        - cbn [nth]. destruct (sem_binv _ _ _ Hy) as (x & Hx & Hf). apply -> (sem_assign_constant Fr) in Hx. subst x.
          apply sem_fold_horner in Hf. rewrite horner_last in Hf by discriminate. rewrite Nat.add_0_r. exact Hf.
        - cbn [nth]. rewrite (IH (S k) ys Hys i ltac:(lia)). do 3 f_equal. lia. }
      exact (G 2 (n - 1) sr Hr i ltac:(lia)).
Qed.

Section Sound.
  Variable poseidon : Fr -> Fr -> Fr.
  Variable aux1 : G1.
  Variable aux2 : G2c.
  Variable inst : list Fr.

  (** ** the bits used by the two fixed-base multiplications are regular *)
  Definition reach1 (s : Fr) : Prop := exists bs, length bs = 254 /\ compose (map (bit Fr) bs) = s /\ regular_fixed G1 NUM_BITS WINDOW_SIZE g1 aux1 bs.
  Definition reach2 (s : Fr) : Prop := exists bs, length bs = 254 /\ compose (map (bit Fr) bs) = s /\ regular_fixed G2c NUM_BITS WINDOW_SIZE g2 aux2 bs.
  Lemma sem_g1_reach t s out : sem (g1_assign_fixed_point aux1) t -> sem (g1_mul t s) out -> reach1 s.
  Proof.
    intros Ht H. apply sem_table1 in Ht.
    destruct (sem_fixed_mul G1 Fr (point1 Fq) g1_assign_constant (p1_select Fq Fr) (p1_add_incomplete Fq) (p1_add Fq) NUM_BITS
      pt1 WINDOW_SIZE w_ge2 nw_ge3 (sem_p1_select Fq Fr) r_mod g1 aux1 r_prime g1_order g1_neq0 ord_big sem_cst1
      (sem_p1_addi Fq b1 two_q three_q b1_neq0) (sem_p1_add Fq b1 two_q three_q b1_neq0) t s (decompose s) out Ht (decompose_length s) H)
      as (bs & L & E & _ & R). exists bs. split; [exact L|]. split; [exact E|exact R].
  Qed.
  Lemma sem_g2_reach t s out : sem (g2_assign_fixed_point aux2) t -> sem (g2_mul t s) out -> reach2 s.
  Proof.
    intros Ht H. unfold g2_assign_fixed_point in Ht. unfold g2_mul in H.
    pose proof (sem_fixed_mul G2c Fr (point2 Fq) g2_assign_constant (p2_select Fq Fr) (p2_add_incomplete Fq) (p2_add Fq) NUM_BITS
      pt2 WINDOW_SIZE w_ge2 nw_ge3 sem_sel2 r_mod g2 aux2) as X.
    specialize (X r_prime g2_order g2_neq0 ord_big). specialize (X sem_cst2). specialize (X sem_addi2). specialize (X sem_add2). specialize (X t s (decompose s) out Ht).
    specialize (X (decompose_length s) H). destruct X as (bs & L & E & _ & R). exists bs. split; [exact L|]. split; [exact E|exact R].
  Qed.
  Lemma sem_expose_reach t s ob off r : sem (g1_assign_fixed_point aux1) t -> sem (expose_g1 inst t s ob off) r -> reach1 s.
  Proof. intros Ht H. unfold expose_g1 in H. destruct (sem_binv _ _ _ H) as (p & Hp & _). exact (sem_g1_reach t s p Ht Hp). Qed.
  Lemma sem_public_reach t sh base (Ht : sem (g1_assign_fixed_point aux1) t) : forall l off off',
    sem (cfold (fun offset i => let! (_, offset) := expose_g1 inst t (nth i sh f0) (Some base) offset in Ret offset) l off) off' ->
    forall i, In i l -> reach1 (nth i sh f0).
  Proof.
    induction l as [|j l IH]; intros off off' H i Hi; [destruct Hi|]. cbn [cfold] in H. destruct (sem_binv _ _ _ H) as (o1 & H1 & H2). destruct Hi as [->|Hi].
    - destruct (sem_binv _ _ _ H1) as (p & Hp & _). exact (sem_expose_reach t _ _ _ p Ht Hp).
    - exact (IH o1 off' H2 i Hi).
  Qed.

  (** ** the public shares *)
  Lemma sem_public_shares t sh (Ht : sem (g1_assign_fixed_point aux1) t) : forall l off off',
    sem (cfold (fun offset i => let! (_, offset) := expose_g1 inst t (nth i sh f0) (Some limb_base) offset in Ret offset) l off) off' ->
    off' = off + 4 * length l /\ exists lgs, Forall2 (fun i l => g1_encodes (g1mul g1 (nth i sh f0)) l /\ length l = 4) l lgs /\
      exposed Fr inst off (concat lgs).
  Proof.
    induction l as [|i l IH]; intros off off' H.
    - cbn [cfold sem] in H. subst. split; [cbn; lia|]. exists []. split; [constructor|apply exposed_nil].
    - cbn [cfold] in H. destruct (sem_binv _ _ _ H) as (o1 & H1 & H2). clear H.
      destruct (sem_binv _ _ _ H1) as ([b1 o2] & H3 & H4). clear H1. cbn [sem] in H4. subst o2.
      destruct (sem_expose_g1 aux1 inst t (nth i sh f0) (Some limb_base) off b1 o1 eq_refl Ht H3) as (_ & -> & l1 & E1 & L1 & X1).
      destruct (IH _ _ H2) as (-> & lgs & F & X). split; [cbn [length]; lia|]. exists (l1 :: lgs). split; [constructor; [split; [exact E1|exact L1]|exact F]|].
      cbn [concat]. apply exposed_app. rewrite L1. split; assumption.
  Qed.

  (** ** one ciphertext *)
  Variables (a_ an_ : apoint Fr) (A : Gk).
  Hypothesis HA : ptk a_ A.
  Hypothesis HN : ptk an_ (⊖ A)%grp.
  Variable bs : list bool.
  Lemma sem_gkmul p (P : Gk) out : ptk p P -> sem (g_mul_bits Fr THREE_OVER_TWO (Some (a_, an_)) p (map (bit Fr) bs)) out ->
    ptk out (gkmul P (fq (bval bs))).
  Proof.
    intros HP H. rewrite <- gkmul_bits.
    exact (sem_mul_bits Fr bk THREE_OVER_TWO T32_ok two_r three_r bk_neq0 Gk_no_torsion A P a_ an_ p bs out HA HN HP H).
  Qed.
  Definition cipher (s : Fr) (pk : Gk) (rs : Fq) : Fr := (s + poseidon (fst (xy (gkmul pk rs))) (snd (xy (gkmul pk rs))))%fld.
  Lemma sem_encrypt_one s w off pk off' : sem (encrypt_one poseidon inst (a_, an_) (map (bit Fr) bs) s w off) (pk, off') ->
    off' = off + 1 /\ exists PK : Gk, ptk pk PK /\ nth off inst f0 = cipher s PK (fq (bval bs)).
  Proof.
    unfold encrypt_one. intros H. destruct (sem_binv _ _ _ H) as (p & Hp & H1). clear H.
    destruct (sem_binv _ _ _ H1) as (q & Hq & H2). clear H1. destruct (sem_binv _ _ _ H2) as (k & Hk & H3). clear H2.
    destruct (sem_binv _ _ _ H3) as (ci & Hc & H4). clear H3. destruct (sem_binv _ _ _ H4) as (u & Hu & H5). clear H4.
    cbn [sem] in H5. assert (p = pk) by congruence. assert (off' = off + 1) by congruence. clear H5. subst p off'.
    split; [reflexivity|]. destruct (sem_assign_point Fr bk two_r three_r bk_neq0 w pk Hp) as [PK HPK]. exists PK. split; [exact HPK|].
    apply (sem_gkmul pk PK q HPK) in Hq. apply sem_expose in Hu. apply -> (sem_add Fr) in Hc. destruct Hk as (k' & Hk & Ek). cbn [sem] in Ek. rewrite <- Ek in Hk.
    unfold cipher. rewrite (is_pt_xy Fr bk two_r three_r bk_neq0 q _ Hq), <- Hk, <- Hc. exact Hu.
  Qed.
  Lemma sem_encrypt sh (ws : list Gk) : forall l done off pks off',
    sem (cfold (fun '(pks, offset) i => let! (pk, offset) := encrypt_one poseidon inst (a_, an_) (map (bit Fr) bs) (nth i sh f0) (xy (nth i ws g0)) offset in
                                        Ret (pks ++ [pk], offset)) l (done, off)) (pks, off') ->
    off' = off + length l /\ exists ps (PKS : list Gk), pks = done ++ ps /\ Forall2 ptk ps PKS /\ length PKS = length l /\
      exposed Fr inst off (map (fun '(i, PK) => cipher (nth i sh f0) PK (fq (bval bs))) (combine l PKS)).
  Proof.
    induction l as [|i l IH]; intros done off pks off' H.
    - cbn [cfold sem] in H. assert (pks = done) by congruence. assert (off' = off) by congruence. subst. split; [cbn; lia|].
      exists [], []. rewrite app_nil_r. split; [reflexivity|]. split; [constructor|]. split; [reflexivity|apply exposed_nil].
    - cbn [cfold] in H. destruct (sem_binv _ _ _ H) as ([d1 o1] & H1 & H2). clear H.
      destruct (sem_binv _ _ _ H1) as ([pk o2] & H3 & H4). clear H1. cbn [sem] in H4.
      assert (d1 = done ++ [pk]) by congruence. assert (o1 = o2) by congruence. clear H4. subst d1 o1.
      destruct (sem_encrypt_one _ _ _ _ _ H3) as (-> & PK & HPK & X1).
      destruct (IH _ _ _ _ H2) as (-> & ps & PKS & -> & F & L & X). split; [cbn [length]; lia|].
      exists (pk :: ps), (PK :: PKS). split; [rewrite <- app_assoc; reflexivity|]. split; [constructor; assumption|]. split; [cbn [length]; congruence|].
      cbn [combine map]. apply exposed_cons. split; assumption.
  Qed.
  Lemma sem_expose_gk p (P : Gk) off off' : ptk p P -> sem (g_expose_public Fr inst p off) off' -> off' = off + 2 /\ exposed Fr inst off (gk_coords P).
  Proof.
    intros HP H. unfold g_expose_public in H. destruct (sem_binv _ _ _ H) as (u & Hu & H1). clear H. destruct (sem_binv _ _ _ H1) as (u' & Hu' & H2). clear H1.
    apply sem_expose in Hu. apply sem_expose in Hu'. cbn [sem] in H2. split; [exact H2|].
    unfold gk_coords. rewrite (is_pt_xy Fr bk two_r three_r bk_neq0 p P HP). apply exposed_cons. split; [exact Hu|]. apply exposed_cons. split; [exact Hu'|apply exposed_nil].
  Qed.
  Lemma sem_expose_pks : forall ps (PKS : list Gk) off off', Forall2 ptk ps PKS ->
    sem (cfold (fun offset pk => g_expose_public Fr inst pk offset) ps off) off' ->
    off' = off + 2 * length ps /\ exposed Fr inst off (flat_map gk_coords PKS).
  Proof.
    intros ps PKS off off' F. revert off off'. induction F as [|p P ps PKS HP F IH]; intros off off' H.
    - cbn [cfold sem] in H. subst. split; [cbn; lia|apply exposed_nil].
    - cbn [cfold] in H. destruct (sem_binv _ _ _ H) as (o1 & H1 & H2). clear H. apply (sem_expose_gk p P off o1 HP) in H1. destruct H1 as [-> X1].
      destruct (IH _ _ H2) as [-> X]. split; [cbn [length]; lia|]. cbn [flat_map]. apply exposed_app. split; [exact X1|exact X].
  Qed.
End Sound.

Lemma zseq_seq n : zseq n = map (fun i => Z.of_nat (S i)) (seq 0 n).
Proof. unfold zseq. rewrite <- seq_shift, map_map. reflexivity. Qed.
Lemma Forall2_map_l' {A B C} (f : A -> B) (R : B -> C -> Prop) l l' : Forall2 (fun a => R (f a)) l l' -> Forall2 R (map f l) l'.
Proof. intros H. induction H; cbn [map]; constructor; assumption. Qed.
Lemma combine_map_l' {A B C D} (f : A -> B) (g : B * C -> D) (h : A * C -> D) : forall (l : list A) (l' : list C),
  (forall a c, In a l -> h (a, c) = g (f a, c)) -> map g (combine (map f l) l') = map h (combine l l').
Proof.
  induction l as [|a l IH]; intros [|c l'] H; cbn [map combine]; try reflexivity. rewrite (H a c) by (left; reflexivity). f_equal.
  apply IH. intros. apply H. right. assumption.
Qed.
Lemma concat_len {A} (k : nat) (P : nat -> list A -> Prop) is ls : Forall2 (fun i l => P i l /\ length l = k) is ls -> length (concat ls) = k * length is.
Proof. intros H. induction H as [|i l is ls [_ L] _ IH]; cbn [concat length]; [lia|]. rewrite app_length, L, IH. lia. Qed.
Lemma flat_len (l : list Gk) : length (flat_map gk_coords l) = 2 * length l.
Proof. induction l as [|a l IH]; cbn [flat_map length]; [reflexivity|]. rewrite app_length, IH. unfold gk_coords. cbn [length]. lia. Qed.

Section Main.
  Variable poseidon : Fr -> Fr -> Fr.
  Variable aux1 : G1.
  Variable aux2 : G2c.

  Theorem circuit_sound_full c inst : satisfiable (synthesize poseidon aux1 aux2 c inst) ->
    length inst = 7 * length (dc_public_keys c) + 14 ->
    exists coeffs rs pks, (length coeffs = length (dc_coeffs c) /\ length pks = length (dc_public_keys c) /\
      dealing_instance poseidon coeffs rs pks inst) /\
      coeffs <> [] /\ reach1 aux1 (poly_at coeffs f0) /\ reach2 aux2 (poly_at coeffs f0) /\
      forall i, i < length (dc_public_keys c) -> reach1 aux1 (poly_at coeffs (fr (Z.of_nat (S i)))).
  Proof.
    unfold satisfiable, synthesize. set (n := length (dc_public_keys c)). intros H L.
    destruct (sem_binv _ _ _ H) as ([sh a] & Hsh & H1). clear H. destruct (sem_binv _ _ _ H1) as (t & Ht & H2). clear H1.
    destruct (sem_binv _ _ _ H2) as (t2 & Ht2 & H3). clear H2. destruct (sem_binv _ _ _ H3) as ([a_ an_] & Hx & H4). clear H3.
    destruct (sem_binv _ _ _ H4) as ([base o1] & Ha & H5). clear H4. destruct (sem_binv _ _ _ H5) as (o2 & Hs & H6). clear H5.
    destruct (sem_binv _ _ _ H6) as (g2p & Hg2 & H7). clear H6. destruct (sem_binv _ _ _ H7) as (g2l & Hl2 & H8). clear H7.
    destruct (sem_binv _ _ _ H8) as ([b2' o3] & He2 & H9). clear H8. destruct (sem_binv _ _ _ H9) as (g & Hg & H10). clear H9.
    destruct (sem_binv _ _ _ H10) as (bits & Hb & H11). clear H10. destruct (sem_binv _ _ _ H11) as (grp & Hgr & H12). clear H11.
    destruct (sem_binv _ _ _ H12) as (o4 & Ho4 & H13). clear H12. destruct (sem_binv _ _ _ H13) as ([pks o5] & Hp & H14). clear H13.
    destruct (sem_binv _ _ _ H14) as (o6 & Ho6 & H15). clear H14 H15.
    (* shares *)
    destruct (sem_shares n (dc_coeffs c) sh a Hsh) as (cs & Lc & Nc & Ea & Esh).
    pose proof (sem_expose_reach aux1 inst t a None 0 _ Ht Ha) as RA.
    pose proof (sem_public_reach aux1 inst t sh base Ht (seq 0 n) _ _ Hs) as RS.
    pose proof (sem_g2_reach aux2 t2 a g2p Ht2 Hg2) as RA2.
    (* ga *)
    destruct (sem_expose_g1 aux1 inst t a None 0 base o1 I Ht Ha) as (-> & -> & lga & Xga & Lga & Ega).
    destruct (sem_public_shares aux1 inst t sh Ht (seq 0 n) _ _ Hs) as (-> & lgs & Flgs & Elgs). rewrite seq_length in *.
    destruct (sem_expose_g2 aux2 inst t2 a _ b2' o3 g2p g2l Ht2 Hg2 Hl2 He2) as (-> & lg2 & Xg2 & Lg2 & Eg2).
    (* Grumpkin *)
    unfold assign_aux in Hx. destruct (sem_binv _ _ _ Hx) as (a0 & Hx1 & Hx2). clear Hx. destruct (sem_binv _ _ _ Hx2) as (c0 & Hx3 & Hx4). clear Hx2.
    cbn [sem] in Hx4. destruct (pair_inj Hx4) as [<- <-]. clear Hx4.
    destruct (sem_assign_point Fr bk two_r three_r bk_neq0 _ a_ Hx1) as [A HA].
    pose proof (sem_g_neg Fr bk two_r three_r bk_neq0 a_ A an_ HA Hx3) as HN.
    unfold g_assign_constant in Hg. destruct (sem_binv _ _ _ Hg) as (gx & Hgx & Hg1). clear Hg. destruct (sem_binv _ _ _ Hg1) as (gy & Hgy & Hg3). clear Hg1.
    apply -> (sem_assign_constant Fr) in Hgx. apply -> (sem_assign_constant Fr) in Hgy. cbn [sem] in Hg3.
    assert (HG : ptk g gk). { rewrite Hg3, Hgx, Hgy. rewrite <- surjective_pairing. exact gk_pt. }
    destruct (sem_bits Fr _ bits Hb) as (_ & bs & ->).
    pose proof (sem_gkmul a_ an_ A HA HN bs g gk grp HG Hgr) as HGR.
    destruct (sem_expose_gk inst grp _ _ o4 HGR Ho4) as (-> & Egr).
    destruct (sem_encrypt poseidon inst a_ an_ A HA HN bs sh (dc_public_keys c) (seq 0 n) [] _ pks o5 Hp) as (-> & ps & PKS & E & FP & LP & Eci).
    cbn [app] in E. subst pks. rewrite seq_length in *.
    destruct (sem_expose_pks inst ps PKS _ o6 FP Ho6) as (-> & Epk).
    exists cs, (fq (bval bs)), PKS. split.
    2: { split; [exact Nc|]. split; [rewrite <- Ea; exact RA|]. split; [rewrite <- Ea; exact RA2|].
         intros i Hi. rewrite <- (Esh i Hi). apply RS. apply in_seq. split; [apply Nat.le_0_l|exact Hi]. }
    split; [exact Lc|]. split; [exact LP|]. unfold dealing_instance. exists lga, lgs, lg2.
    assert (Lgs : length (concat lgs) = 4 * n). { pose proof (concat_len 4 _ _ _ Flgs) as X. rewrite seq_length in X. exact X. }
    change (length (PKS : list Gk) = n) in LP. rewrite LP.
    assert (Eci' : map (fun '(i, pk) => (poly_at cs (fr i) + poseidon (fst (xy (gkmul pk (fq (bval bs))))) (snd (xy (gkmul pk (fq (bval bs))))))%fld) (combine (zseq n) PKS)
            = map (fun '(i, PK) => cipher poseidon (nth i sh f0) PK (fq (bval bs))) (combine (seq 0 n) PKS)).
    { rewrite zseq_seq. apply combine_map_l'. intros i pk Hi. apply in_seq in Hi. cbv beta iota. unfold cipher. rewrite Esh by lia. reflexivity. }
    split; [|split; [|split; [|split; [|split]]]].
    - apply (exposed_all Fr).
      + apply exposed_app. split; [exact Ega|]. rewrite Lga. apply exposed_app. split; [exact Elgs|]. rewrite Lgs. apply exposed_app. split; [exact Eg2|].
        rewrite Lg2. apply exposed_app. split; [exact Egr|]. apply exposed_app. rewrite Eci'. split; [exact Eci|]. rewrite map_length, combine_length, seq_length, LP, Nat.min_id.
        exact Epk.
      + rewrite !app_length, Lga, Lgs, Lg2, map_length, combine_length, length_zseq, LP, Nat.min_id, flat_len, LP. unfold gk_coords. cbn [length]. lia.
    - rewrite <- Ea. exact Xga.
    - rewrite zseq_seq. apply Forall2_map_l'. clear -Flgs Esh.
      assert (B : forall i, In i (seq 0 n) -> i < n) by (intros i Hi; apply in_seq in Hi; lia). revert B.
      induction Flgs as [|i l is ls [X _] _ IH]; intros B; constructor.
      + rewrite <- Esh by (apply B; left; reflexivity). exact X.
      + apply IH. intros j Hj. apply B. right. exact Hj.
    - rewrite <- Ea. exact Xg2.
    - exact (is_pt_neq0 _ _ _ _ _ _ _ HGR).
    - clear -FP. induction FP as [|p P ps Ps HP _ IH]; constructor; [|exact IH]. exact (is_pt_neq0 _ _ _ _ _ _ _ HP).
  Qed.
  Theorem circuit_sound c inst : satisfiable (synthesize poseidon aux1 aux2 c inst) ->
    length inst = 7 * length (dc_public_keys c) + 14 ->
    exists coeffs rs pks, length coeffs = length (dc_coeffs c) /\ length pks = length (dc_public_keys c) /\
      dealing_instance poseidon coeffs rs pks inst.
  Proof. intros H L. destruct (circuit_sound_full c inst H L) as (cs & rs & pks & X & _). exists cs, rs, pks. exact X. Qed.
End Main.
