(** Completeness of the DKG circuit: the prover succeeds on the instance of an honest dealing. *)
From Coq Require Import NArith Nnat ZArith List Bool Lia Setoid.
From Verif.Base Require Import Fermat Fld Fp EC Primes Curves Group Order Fq2 Poly.
From Verif.Model Require Import Points Lib Circ MainGate GrumpkinChip IntegerChip FixedBase DkgCircuit.
From Verif.Spec Require Import Dvrf CircuitSpec.
From Verif.Proofs Require Import DkgProofs SvdwProofs CircProofs GrumpkinProofs FixedBaseProofs IntegerProofs CircuitParts CircuitPoints DkgCircuitProofs Exceptional.
Import ListNotations.
Open Scope nat_scope.

Section Folds.
  Variable K : Fld.
  Lemma hon_fold_add (l : list K) : forall c, honest (cfold (fun s c => add s c) l c) (fold_left fadd l c).
  Proof. induction l as [|a l IH]; intros c; cbn [cfold fold_left]; [reflexivity|]. eapply hbind; [apply (honest_add K); reflexivity|]. apply IH. Qed.
  Lemma hon_fold_horner (x : K) (l : list K) : forall a, honest (cfold (fun s c => mul_add s x c) l a) (fold_left (fun s c => s * x + c)%fld l a).
  Proof. induction l as [|c l IH]; intros a; cbn [cfold fold_left]; [reflexivity|]. eapply hbind; [apply (honest_mul_add K); reflexivity|]. apply IH. Qed.
End Folds.

Lemma hon_shares n cs : cs <> [] -> 1 <= n ->
  honest (assign_shares n cs) (map (fun i => poly_at cs (fr (Z.of_nat i))) (seq 1 n), poly_at cs f0).
Proof.
  intros N Hn. unfold assign_shares. apply (hbind _ _ cs).
  { apply honest_cmap. clear. induction cs as [|c cs IH]; constructor; [apply (honest_assign_value Fr)|exact IH]. }
  destruct cs as [|c0 rest]; [congruence|]. apply (hbind _ _ (fold_left fadd rest c0)); [apply hon_fold_add|].
  apply (hbind _ _ (map (fun i => poly_at (c0 :: rest) (fr (Z.of_nat i))) (seq 2 (n - 1)))).
  - apply honest_cmap. induction (seq 2 (n - 1)) as [|i l IH]; cbn [map]; constructor; [|exact IH].
    eapply hbind; [apply (honest_assign_constant Fr)|]. rewrite poly_at_peval, <- (horner_last Fr (fr (Z.of_nat i)) (c0 :: rest)) by discriminate.
    apply hon_fold_horner.
  - cbn [honest]. destruct n as [|n]; [lia|]. cbn [seq map]. rewrite Nat.sub_succ, Nat.sub_0_r. f_equal.
    + f_equal. rewrite poly_at_peval, peval_1. reflexivity.
    + rewrite poly_at_peval. exact (peval_0 Fr (c0 :: rest)).
Qed.

Lemma arith4 a b : a + 4 * S b = a + 4 + 4 * b. Proof. lia. Qed.
Lemma arith1 a b : a + S b = a + 1 + b. Proof. lia. Qed.
Lemma arith2 a b : a + 2 * S b = a + 2 + 2 * b. Proof. lia. Qed.

Section Complete.
  Variable poseidon : Fr -> Fr -> Fr.
  Variable aux1 : G1.
  Variable aux2 : G2c.
  Variable inst : list Fr.

  Lemma hon_public_shares t sh (Ht : sem (g1_assign_fixed_point aux1) t) : forall l off,
    (forall i, In i l -> regular1 aux1 (nth i sh f0)) ->
    exposed Fr inst off (flat_map (fun i => point_to_public (g1mul g1 (nth i sh f0))) l) ->
    honest (cfold (fun offset i => let! (_, offset) := expose_g1 inst t (nth i sh f0) (Some limb_base) offset in Ret offset) l off) (off + 4 * length l).
  Proof.
    induction l as [|i l IH]; intros off R X; cbn [cfold length].
    - cbn [honest]. rewrite Nat.mul_0_r, Nat.add_0_r. reflexivity.
    - cbn [flat_map] in X. apply exposed_app in X as [X1 X2]. rewrite point_to_public_len in X2.
      apply (hbind _ _ (off + 4)).
      + pose proof (R i (or_introl eq_refl)) as R1.
        assert (Hb : base_ok (Some limb_base)). { unfold base_ok. reflexivity. }
        pose proof (hon_expose_g1 aux1 inst t (nth i sh f0) (Some limb_base) off) as Y.
        specialize (Y Hb). specialize (Y Ht). specialize (Y R1). specialize (Y X1).
        refine (hbind _ _ _ _ Y _). cbn [honest]. reflexivity.
      + rewrite (arith4 off (length l)). refine (IH (off + 4) _ X2). intros j Hj. exact (R j (or_intror Hj)).
  Qed.

  Variables (a_ an_ : apoint Fr) (A : Gk).
  Hypothesis HA : ptk a_ A.
  Hypothesis HN : ptk an_ (⊖ A)%grp.
  Variable z : Z.
  Hypothesis Hz : (0 <= z < 2 ^ 254)%Z.
  Let bs := zbits 254 z.
  Lemma bs_val : bval bs = z. Proof. exact (bval_zbits 254 z Hz). Qed.
  Lemma hon_gkmul p (P : Gk) : ptk p P -> ~ gk_exceptional A P z ->
    exists out, honest (g_mul_bits Fr THREE_OVER_TWO (Some (a_, an_)) p (map (bit Fr) bs)) out /\ ptk out (gkmul P (fq z)).
  Proof.
    intros HP R. apply (gk_regular_iff A P z Hz) in R.
    destruct (honest_mul_bits Fr bk THREE_OVER_TWO T32_ok two_r three_r bk_neq0 Gk_no_torsion A P a_ an_ p bs HA HN HP R) as (out & Ho & Hp).
    exists out. split; [exact Ho|]. rewrite <- gkmul_bits. rewrite bs_val in Hp. exact Hp.
  Qed.
  Lemma hon_encrypt_one s (PK : Gk) off : PK <> g0 -> ~ gk_exceptional A PK z -> nth off inst f0 = cipher poseidon s PK (fq z) ->
    honest (encrypt_one poseidon inst (a_, an_) (map (bit Fr) bs) s (xy PK) off) (xy PK, off + 1).
  Proof.
    intros N R X. unfold encrypt_one. pose proof (xy_is_pt Fr bk two_r three_r bk_neq0 PK N) as HP.
    eapply hbind; [exact (honest_assign_point Fr bk two_r three_r bk_neq0 (xy PK) PK HP)|].
    destruct (hon_gkmul (xy PK) PK HP R) as (out & Ho & Hp). eapply hbind; [exact Ho|].
    apply (hbind _ _ (poseidon (fst out) (snd out))); [split; reflexivity|].
    eapply hbind; [apply (honest_add Fr); reflexivity|]. eapply hbind; [|reflexivity].
    apply (hon_expose Fr). rewrite X. unfold cipher. rewrite (is_pt_xy Fr bk two_r three_r bk_neq0 out _ Hp). reflexivity.
  Qed.
  Lemma hon_encrypt sh (ws : list Gk) : forall l done off,
    (forall i, In i l -> nth i ws g0 <> g0 /\ ~ gk_exceptional A (nth i ws g0) z) ->
    exposed Fr inst off (map (fun i => cipher poseidon (nth i sh f0) (nth i ws g0) (fq z)) l) ->
    honest (cfold (fun '(pks, offset) i => let! (pk, offset) := encrypt_one poseidon inst (a_, an_) (map (bit Fr) bs) (nth i sh f0) (xy (nth i ws g0)) offset in
                                        Ret (pks ++ [pk], offset)) l (done, off)) (done ++ map (fun i => xy (nth i ws g0)) l, off + length l).
  Proof.
    induction l as [|i l IH]; intros done off R X; cbn [cfold length map].
    - cbn [honest]. rewrite app_nil_r, Nat.add_0_r. reflexivity.
    - cbn [map] in X. apply exposed_cons in X as [X1 X2]. destruct (R i (or_introl eq_refl)) as [R1 R2].
      apply (hbind _ _ (done ++ [xy (nth i ws g0)], off + 1)).
      + eapply hbind; [exact (hon_encrypt_one (nth i sh f0) (nth i ws g0) off R1 R2 X1)|]. reflexivity.
      + replace (done ++ xy (nth i ws g0) :: map (fun i => xy (nth i ws g0)) l) with ((done ++ [xy (nth i ws g0)]) ++ map (fun i => xy (nth i ws g0)) l) by (rewrite <- app_assoc; reflexivity).
        rewrite (arith1 off (length l)). refine (IH _ (off + 1) _ X2). intros j Hj. exact (R j (or_intror Hj)).
  Qed.
  Lemma hon_expose_gk p (P : Gk) off : ptk p P -> exposed Fr inst off (gk_coords P) -> honest (g_expose_public Fr inst p off) (off + 2).
  Proof.
    intros HP X. unfold gk_coords in X. rewrite (is_pt_xy Fr bk two_r three_r bk_neq0 p P HP) in X. apply exposed_cons in X as [X1 X2]. apply exposed_cons in X2 as [X2 _].
    unfold g_expose_public. eapply hbind; [exact (hon_expose Fr inst _ _ X1)|]. eapply hbind; [exact (hon_expose Fr inst _ _ X2)|]. reflexivity.
  Qed.
  Lemma hon_expose_pks : forall (PKS : list Gk) off, Forall (fun PK => PK <> g0) PKS -> exposed Fr inst off (flat_map gk_coords PKS) ->
    honest (cfold (fun offset pk => g_expose_public Fr inst pk offset) (map (fun PK => xy PK) PKS) off) (off + 2 * length PKS).
  Proof.
    intros PKS off F. revert off. induction F as [|P PKS HP F IH]; intros off X; cbn [map cfold length].
    - cbn [honest]. rewrite Nat.mul_0_r, Nat.add_0_r. reflexivity.
    - cbn [flat_map] in X. apply exposed_app in X as [X1 X2]. eapply hbind; [exact (hon_expose_gk _ P off (xy_is_pt Fr bk two_r three_r bk_neq0 P HP) X1)|].
      rewrite (arith2 off (length PKS)). exact (IH (off + 2) X2).
  Qed.
End Complete.

(** the instance vector the Rust code produces for a dealing *)
Definition honest_instance (poseidon : Fr -> Fr -> Fr) (cs : list Fr) (rs : Fq) (pks : list Gk) : list Fr :=
  point_to_public (g1mul g1 (poly_at cs f0)) ++
  flat_map (fun i => point_to_public (g1mul g1 (poly_at cs (fr i)))) (zseq (length pks)) ++
  point2_to_public (g2mul g2 (poly_at cs f0)) ++ gk_coords (gkmul gk rs) ++
  map (fun '(i, pk) => cipher poseidon (poly_at cs (fr i)) pk rs) (combine (zseq (length pks)) pks) ++ flat_map gk_coords pks.

Lemma flat_len4 (f : Z -> G1) l : length (flat_map (fun i => point_to_public (f i)) l) = 4 * length l.
Proof. induction l as [|a l IH]; cbn [flat_map length]; [reflexivity|]. rewrite app_length, IH, point_to_public_len. lia. Qed.
Lemma map_ext_In {A B} (f g : A -> B) l : (forall a, In a l -> f a = g a) -> map f l = map g l.
Proof. apply map_ext_in. Qed.
Lemma combine_nth_seq {A} (d : A) : forall l k, combine (seq k (length l)) l = map (fun i => (i, nth (i - k) l d)) (seq k (length l)).
Proof.
  induction l as [|a l IH]; intros k; cbn [length seq combine map]; [reflexivity|]. rewrite Nat.sub_diag. f_equal. rewrite IH. apply map_ext_in.
  intros i Hi. apply in_seq in Hi. replace (i - k) with (S (i - S k)) by lia. reflexivity.
Qed.

Section Main.
  Variable poseidon : Fr -> Fr -> Fr.
  Variable aux1 : G1.
  Variable aux2 : G2c.
  Theorem circuit_complete cs (r : Fr) (pks : list Gk) (A : Gk) :
    cs <> [] -> pks <> [] -> table_assignable (g1 : G1) aux1 -> table_assignable (g2 : G2c) aux2 ->
    ~ exceptional (g1 : G1) aux1 (fval (poly_at cs f0 : Fp r_mod)) -> ~ exceptional (g2 : G2c) aux2 (fval (poly_at cs f0 : Fp r_mod)) ->
    (forall i, (1 <= i <= Z.of_nat (length pks))%Z -> ~ exceptional (g1 : G1) aux1 (fval (poly_at cs (fr i) : Fp r_mod))) ->
    A <> g0 -> ~ gk_exceptional A gk (fval (r : Fp r_mod)) ->
    Forall (fun pk : Gk => pk <> g0 /\ ~ gk_exceptional A pk (fval (r : Fp r_mod))) pks ->
    prover_ok (synthesize poseidon aux1 aux2 (mkDkgCircuit cs r pks A) (honest_instance poseidon cs (fq (fval (r : Fp r_mod))) pks)).
  Proof.
    intros Nc Np T1 T2 E0 E20 Ei NA Eg Fk. set (z := fval (r : Fp r_mod)) in *. set (inst := honest_instance poseidon cs (fq z) pks).
    set (n := length pks) in *. assert (Hn : 1 <= n) by (subst n; destruct pks; [congruence|cbn [length]; lia]).
    assert (Hz : (0 <= z < 2 ^ 254)%Z) by exact (fr_range r).
    assert (X : exposed Fr inst 0 (honest_instance poseidon cs (fq z) pks)).
    { pose proof (exposed_refl Fr (honest_instance poseidon cs (fq z) pks) [] []) as X. rewrite app_nil_r in X. exact X. }
    unfold honest_instance in X. fold n in X. apply exposed_app in X as [X1 X]. rewrite point_to_public_len in X.
    apply exposed_app in X as [X2 X]. rewrite (flat_len4 (fun i => g1mul g1 (poly_at cs (fr i)))), length_zseq in X.
    apply exposed_app in X as [X3 X]. rewrite point2_to_public_len in X. apply exposed_app in X as [X4 X].
    change (length (gk_coords (gkmul gk (fq z)))) with 2 in X. apply exposed_app in X as [X5 X6].
    rewrite map_length, combine_length, length_zseq in X6. fold n in X6. rewrite Nat.min_id in X6. clearbody inst.
    set (sh := map (fun i => poly_at cs (fr (Z.of_nat i))) (seq 1 n)).
    assert (Esh : forall i, i < n -> nth i sh f0 = poly_at cs (fr (Z.of_nat (S i)))).
    { intros i Hi. unfold sh. rewrite (nth_indep _ _ (poly_at cs (fr (Z.of_nat 0)))) by (rewrite map_length, seq_length; exact Hi).
      rewrite (map_nth (fun i => poly_at cs (fr (Z.of_nat i)))), seq_nth by exact Hi. reflexivity. }
    assert (X2' : exposed Fr inst 4 (flat_map (fun i => point_to_public (g1mul g1 (nth i sh f0))) (seq 0 n))).
    { rewrite zseq_seq, flat_map_concat_map, map_map in X2. rewrite flat_map_concat_map. erewrite map_ext_in; [exact X2|].
      intros i Hi. apply in_seq in Hi. cbv beta. rewrite Esh by lia. reflexivity. }
    assert (X5' : exposed Fr inst (0 + 4 + 4 * n + 8 + 2) (map (fun i => cipher poseidon (nth i sh f0) (nth i pks g0) (fq z)) (seq 0 n))).
    { rewrite zseq_seq in X5. rewrite (combine_map_l' _ _ (fun '(i, pk) => cipher poseidon (nth i sh f0) pk (fq z))) in X5.
      - unfold n in X5 at 2. rewrite (combine_nth_seq (g0 : Gk)), map_map in X5. fold n in X5. erewrite map_ext_in; [exact X5|].
        intros i Hi. cbv beta iota. rewrite Nat.sub_0_r. reflexivity.
      - intros i pk Hi. apply in_seq in Hi. cbv beta iota. rewrite Esh by lia. reflexivity. }
    clear X2 X5.
    destruct (hon_table1 aux1 T1) as [t Ht]. destruct (hon_table2 aux2 T2) as [t2 Ht2].
    pose proof (honest_sem _ _ Ht) as St. pose proof (honest_sem _ _ Ht2) as St2.
    apply (regular1_iff aux1) in E0. apply (regular2_iff aux2) in E20.
    destruct (hon_g2_mul aux2 t2 _ St2 E20) as [p2 Hp2].
    destruct (hon_expose_g2 aux2 inst t2 _ (0 + 4 + 4 * n) p2 St2 (honest_sem _ _ Hp2) X3) as (l2 & Hl2 & He2).
    pose proof (xy_is_pt Fr bk two_r three_r bk_neq0 A NA) as HA.
    destruct (honest_g_neg Fr bk two_r three_r bk_neq0 (xy A) A HA) as (an & Han & HN).
    destruct (hon_gkmul (xy A) an A HA HN z Hz (xy gk) gk gk_pt Eg) as (gro & Hgro & HGR).
    unfold prover_ok, synthesize. cbn [dc_public_keys dc_coeffs dc_random dc_grumpkin_aux]. fold n.
    refine (hbind _ _ _ _ (hon_shares n cs Nc Hn) _). fold sh.
    refine (hbind _ _ _ _ Ht _). refine (hbind _ _ _ _ Ht2 _).
    refine (hbind _ _ (xy A, an) _ _ _).
    { unfold assign_aux. refine (hbind _ _ _ _ (honest_assign_point Fr bk two_r three_r bk_neq0 _ A HA) _). refine (hbind _ _ _ _ Han _). reflexivity. }
    pose proof (hon_expose_g1 aux1 inst t (poly_at cs f0) None 0) as Y. specialize (Y I). specialize (Y St). specialize (Y E0). specialize (Y X1).
    refine (hbind _ _ _ _ Y _). clear Y.
    assert (Ei' : forall i, In i (seq 0 n) -> regular1 aux1 (nth i sh f0)).
    { intros i Hi. apply in_seq in Hi. rewrite Esh by lia. apply (regular1_iff aux1). apply Ei. lia. }
    pose proof (hon_public_shares aux1 inst t sh St (seq 0 n) 4 Ei' X2') as Y. rewrite seq_length in Y.
    refine (hbind _ _ _ _ Y _). clear Y.
    refine (hbind _ _ _ _ Hp2 _). refine (hbind _ _ _ _ Hl2 _). refine (hbind _ _ _ _ He2 _).
    refine (hbind _ _ (xy gk) _ _ _).
    { unfold g_assign_constant. refine (hbind _ _ _ _ (honest_assign_constant Fr _) _). refine (hbind _ _ _ _ (honest_assign_constant Fr _) _).
      cbn [honest]. apply surjective_pairing. }
    refine (hbind _ _ (map (bit Fr) (zbits 254 z)) _ _ _).
    { rewrite decompose_bits. exact (honest_bits Fr _). }
    refine (hbind _ _ _ _ Hgro _).
    refine (hbind _ _ _ _ (hon_expose_gk inst gro _ _ HGR X4) _).
    assert (Fk' : forall i, In i (seq 0 n) -> nth i pks g0 <> g0 /\ ~ gk_exceptional A (nth i pks g0) z).
    { intros i Hi. apply in_seq in Hi. rewrite Forall_forall in Fk. apply Fk. apply nth_In. unfold n in Hi. lia. }
    pose proof (hon_encrypt poseidon inst (xy A) an A HA HN z Hz sh pks (seq 0 n) [] _ Fk' X5') as Y. rewrite seq_length in Y.
    refine (hbind _ _ _ _ Y _). clear Y. cbn [app].
    assert (Epk : map (fun i => xy (nth i pks g0)) (seq 0 n) = map (fun PK : Gk => xy PK) pks).
    { unfold n. clear. induction pks as [|a l IH]; cbn [length seq map nth]; [reflexivity|]. f_equal. rewrite <- seq_shift, map_map. exact IH. }
    rewrite Epk.
    assert (Fn : Forall (fun PK : Gk => PK <> g0) pks) by (eapply Forall_impl; [|exact Fk]; intros a [Q _]; exact Q).
    refine (hbind _ _ _ _ (hon_expose_pks inst pks _ Fn X6) _). reflexivity.
  Qed.
End Main.
