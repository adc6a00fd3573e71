(** Soundness of the opening: a wrong value survives for few challenges only. *)
From Coq Require Import ZArith NArith List Lia Field Bool.
From Verif.Base Require Import Fld Fp Poly Group.
From Verif.Spec Require Import Few Plonk.
From Verif.Proofs Require Import FewProofs.
Import ListNotations.

(** the field as a group *)
Definition FGrp (K : Fld) : Grp.
Proof.
  refine {| gcar := K; g0 := f0; gadd := fadd; gopp := fopp |}.
  - apply feq_dec.
  - intros x y z. symmetry. apply (Radd_assoc (F_R (flaw K))).
  - apply (Radd_comm (F_R (flaw K))).
  - apply (Radd_0_l (F_R (flaw K))).
  - intros x. rewrite (Radd_comm (F_R (flaw K))). apply (Ropp_def (F_R (flaw K))).
Defined.

Section Hom.
  Variable K : Fld.
  Variable G : Grp.
  Variable smul : K -> G -> G.
  Variable phi : K -> G.
  Open Scope fld_scope.
  Hypothesis phi_0 : phi 0 = g0.
  Hypothesis phi_add : forall a b, phi (a + b) = gadd (phi a) (phi b).
  Hypothesis phi_opp : forall a, phi (- a) = gopp (phi a).
  Hypothesis phi_mul : forall a b, smul a (phi b) = phi (a * b).
  Lemma commitment_hom (c : col -> K) zeta cs : commitment K G smul (fun cl => phi (c cl)) zeta cs = phi (commitment K (FGrp K) fmul c zeta cs).
  Proof.
    induction cs as [|cl cs IH]; [symmetry; exact phi_0|]. unfold commitment in *. cbn [fold_right]. rewrite IH, phi_mul, <- phi_add. reflexivity.
  Qed.
  Lemma linearised_hom p e (c : col -> K) zeta nu mu w w' :
    linearised K G smul p e (fun cl => phi (c cl)) (phi 1) zeta nu mu (phi w) (phi w') =
    phi (linearised K (FGrp K) fmul p e c 1 zeta nu mu w w').
  Proof.
    unfold linearised.
    assert (E : forall sets, fold_right (fun s acc => gadd (smul (scale K p mu (fst s)) (gadd (commitment K G smul (fun cl => phi (c cl)) zeta (snd s))
                  (gopp (smul (interpolated K p mu (fst s) (values K e zeta (snd s))) (phi 1))))) (smul nu acc)) g0 sets =
                phi (fold_right (fun s acc => gadd (g := FGrp K) (scale K p mu (fst s) * gadd (g := FGrp K) (commitment K (FGrp K) fmul c zeta (snd s))
                  (gopp (g := FGrp K) (interpolated K p mu (fst s) (values K e zeta (snd s)) * 1))) (nu * acc)) 0 sets)).
    { induction sets as [|s sets IH]; [symmetry; exact phi_0|]. cbn [fold_right].
      rewrite IH, commitment_hom, !phi_mul, <- phi_opp, <- phi_add, phi_mul, <- phi_add. reflexivity. }
    rewrite E, !phi_mul, <- phi_opp, <- !phi_add. reflexivity.
  Qed.
End Hom.

Section Open.
  Variable K : Fld.
  Open Scope fld_scope.
  Add Field kf : (flaw K).
  Hypothesis finite : exists all : list K, NoDup all /\ forall x, In x all.
  Variable p : rot -> K.
  Hypothesis Hp : forall r r', r <> r' -> p r - p r' <> 0.
  Variable e : col -> rot -> K.
  Variable F : col -> list K.
  Variable N : nat.
  Hypothesis N3 : (3 <= N)%nat.
  Hypothesis HF : forall cl, (length (F cl) <= N)%nat.

  Notation at_ X := (fun cl => peval (F cl) X).
  Definition com (c : col -> K) zeta cs := commitment K (FGrp K) fmul c zeta cs.
  Lemma com_peval c zeta cs : com c zeta cs = peval (map c cs) zeta.
  Proof. induction cs as [|cl cs IH]; [reflexivity|]. unfold com, commitment in *. cbn [fold_right map peval]. rewrite IH. reflexivity. Qed.
  Lemma values_peval zeta cs r : values K e zeta cs r = peval (map (fun cl => e cl r) cs) zeta.
  Proof. induction cs as [|cl cs IH]; [reflexivity|]. unfold values in *. cbn [fold_right map peval]. rewrite IH. reflexivity. Qed.
  Lemma peval_diff (cs : list col) (f g : col -> K) z : peval (map f cs) z - peval (map g cs) z = peval (map (fun cl => f cl - g cl) cs) z.
  Proof. induction cs as [|cl cs IH]; cbn [map peval]; [ring|]. rewrite <- IH. ring. Qed.

  (** difference between the combination of one set of columns and the polynomial through its values, at X *)
  Definition diff zeta (s : list rot * list col) (X : K) : K :=
    com (at_ X) zeta (snd s) - interpolated K p X (fst s) (values K e zeta (snd s)).

  (** *** interpolation *)
  Lemma prod_zero {A} (f : A -> K) l a : In a l -> f a = 0 -> fold_right fmul 1 (map f l) = 0.
  Proof. induction l as [|b l IH]; intros H E; [destruct H|]. cbn [map fold_right]. destruct H as [->|H]; [rewrite E|rewrite (IH H E)]; ring. Qed.
  Lemma prod_one {A} (f : A -> K) l : (forall a, In a l -> f a = 1) -> fold_right fmul 1 (map f l) = 1.
  Proof.
    induction l as [|b l IH]; intros H; [reflexivity|]. cbn [map fold_right].
    rewrite (H b (or_introl eq_refl)), IH by (intros a Ha; apply H; right; exact Ha). ring.
  Qed.
  Lemma basis_at rs r r0 : In r0 rs -> basis K p (p r0) rs r = if rot_eq_dec r r0 then 1 else 0.
  Proof.
    intros H. unfold basis. destruct (rot_eq_dec r r0) as [->|D].
    - apply prod_one. intros r' Hr. apply filter_In in Hr as [_ Hr]. destruct (rot_eq_dec r0 r') as [|D]; [discriminate Hr|]. field. apply Hp. exact D.
    - apply (prod_zero _ _ r0).
      + apply filter_In. split; [exact H|]. destruct (rot_eq_dec r r0); [contradiction|reflexivity].
      + rewrite (fdiv_def K). ring.
  Qed.
  Lemma sum_pick (v : rot -> K) rs r0 : NoDup rs -> In r0 rs -> fold_right fadd 0 (map (fun r => v r * (if rot_eq_dec r r0 then 1 else 0)) rs) = v r0.
  Proof.
    induction rs as [|r rs IH]; intros ND H; [destruct H|]. inversion ND as [|? ? Nr ND']; subst. cbn [map fold_right].
    destruct (rot_eq_dec r r0) as [->|D].
    - assert (Z0 : fold_right fadd 0 (map (fun r => v r * (if rot_eq_dec r r0 then 1 else 0)) rs) = 0).
      { clear -Nr. induction rs as [|r rs IH]; [reflexivity|]. cbn [map fold_right]. destruct (rot_eq_dec r r0) as [->|]; [exfalso; apply Nr; left; reflexivity|].
        rewrite IH by (intros H; apply Nr; right; exact H). ring. }
      rewrite Z0. ring.
    - destruct H as [->|H]; [contradiction|]. rewrite (IH ND' H). ring.
  Qed.
  Lemma interpolated_at rs v r0 : NoDup rs -> In r0 rs -> interpolated K p (p r0) rs v = v r0.
  Proof.
    intros ND H. unfold interpolated. rewrite <- (sum_pick v rs r0 ND H). apply f_equal. apply map_ext_in. intros r Hr. rewrite (basis_at rs r r0 H). reflexivity.
  Qed.

  (** *** degrees *)
  Lemma pf_lin a : polyfun K 1 (fun X => X - a).
  Proof. apply (pf_ext K 1 (fun X => X + - a)); [intros X; ring|]. apply pf_add; [apply pf_id|]. apply (pf_le K 0); [lia|apply pf_const]. Qed.
  Lemma pf_vanish rs : polyfun K (length rs) (fun X => vanish K p X rs).
  Proof. replace (length rs) with (length rs * 1)%nat by lia. apply (pf_prod K 1 rs (fun r X => X - p r)). intros r _. apply pf_lin. Qed.
  Lemma pf_interpolated rs v : polyfun K (length rs) (fun X => interpolated K p X rs v).
  Proof.
    apply (pf_sum K (length rs) rs (fun r X => v r * basis K p X rs r)). intros r _. apply pf_scale. unfold basis.
    set (l := filter (fun r' => if rot_eq_dec r r' then false else true) rs).
    assert (L : (length l <= length rs)%nat).
    { unfold l. clear. induction rs as [|a rs IH]; [auto|]. cbn [filter]. destruct (rot_eq_dec r a); cbn [length]; lia. }
    apply (pf_le K (length l * 1)); [lia|]. apply (pf_prod K 1 l (fun r' X => (X - p r') / (p r - p r'))).
    intros r' _. apply (pf_ext K 1 (fun X => finv (p r - p r') * (X - p r'))); [intros X; rewrite (fdiv_def K); ring|]. apply pf_scale. apply pf_lin.
  Qed.
  Lemma pf_com zeta cs : polyfun K N (fun X => com (at_ X) zeta cs).
  Proof.
    apply (pf_ext K N (fun X => peval (map (at_ X) cs) zeta)); [intros X; symmetry; apply com_peval|].
    induction cs as [|cl cs IH]; cbn [map peval]; [apply (pf_le K 0); [lia|apply pf_const]|].
    apply pf_add; [apply pf_poly; specialize (HF cl); lia|]. apply pf_scale. exact IH.
  Qed.
  Lemma pf_diff zeta s : (length (fst s) <= 3)%nat -> polyfun K N (diff zeta s).
  Proof. intros L. apply pf_sub; [apply pf_com|]. apply (pf_le K (length (fst s))); [lia|]. apply pf_interpolated. Qed.

  Definition set_ok (s : list rot * list col) : bool :=
    Nat.leb (length (fst s)) 3 && Nat.leb (length (snd s)) 40 && Nat.leb (length (others (fst s))) 3 &&
    forallb (fun r => Nat.eqb (count_occ rot_eq_dec (fst s) r) 1) (fst s).
  Lemma sets_ok : forallb set_ok rotation_sets = true. Proof. reflexivity. Qed.
  Lemma set_facts s : In s rotation_sets -> (length (fst s) <= 3)%nat /\ (length (snd s) <= 40)%nat /\ (length (others (fst s)) <= 3)%nat /\ NoDup (fst s).
  Proof.
    intros H. pose proof sets_ok as A. rewrite forallb_forall in A. specialize (A s H). unfold set_ok in A. rewrite !andb_true_iff in A.
    destruct A as (((A1 & A2) & A3) & A4). apply Nat.leb_le in A1. apply Nat.leb_le in A2. apply Nat.leb_le in A3. repeat split; try assumption.
    apply (NoDup_count_occ rot_eq_dec). intros r. destruct (in_dec rot_eq_dec r (fst s)) as [I|I].
    - rewrite forallb_forall in A4. specialize (A4 r I). apply Nat.eqb_eq in A4. rewrite A4. auto.
    - apply (count_occ_not_In rot_eq_dec) in I. rewrite I. auto.
  Qed.
  Lemma others_in rs r : In r rs -> ~ In r (others rs).
  Proof.
    intros H I. apply filter_In in I as [_ I]. assert (X : existsb (fun r' => if rot_eq_dec r r' then true else false) rs = true).
    { apply existsb_exists. exists r. split; [exact H|]. destruct (rot_eq_dec r r); [reflexivity|contradiction]. }
    rewrite X in I. discriminate I.
  Qed.
  Lemma vanish_neq0 rs r : ~ In r rs -> vanish K p (p r) rs <> 0.
  Proof.
    unfold vanish. induction rs as [|r' rs IH]; intros H; cbn [map fold_right]; [apply f1_neq_0|].
    apply fmul_neq0; [|apply IH; intros I; apply H; right; exact I]. apply Hp. intros ->. apply H. left. reflexivity.
  Qed.

  (** the whole combination, cleared of denominators, at X *)
  Definition total zeta nu (X : K) : K := peval (map (fun s => vanish K p X (others (fst s)) * diff zeta s X) rotation_sets) nu.
  Definition all_vanish (X : K) : K := vanish K p X [Prev; Cur; Next] * vanish K p X (others [Prev; Cur; Next]).
  (** the equation checked, at s *)
  Definition lin (c : col -> K) zeta nu mu w w' : K := linearised K (FGrp K) fmul p e c 1 zeta nu mu w w'.
  Definition body zeta nu mu (W : list K) (X : K) : K :=
    peval (map (fun s => scale K p mu (fst s) * (com (at_ X) zeta (snd s) - interpolated K p mu (fst s) (values K e zeta (snd s)))) rotation_sets) nu
    - vanish K p mu [Prev; Cur; Next] * peval W X.
  Lemma alg1 (c a b t : K) : c * (a + - (b * 1)) + t = c * (a - b) + t. Proof. ring. Qed.
  Lemma alg2 (a b c t : K) : a + - (b * c) + t = a - b * c + t. Proof. ring. Qed.
  Lemma lin_body zeta nu mu W X w' : lin (at_ X) zeta nu mu (peval W X) w' = body zeta nu mu W X + mu * w'.
  Proof.
    unfold lin, linearised, body.
    assert (E : forall sets, fold_right (fun s acc => gadd (g := FGrp K) (scale K p mu (fst s) * gadd (g := FGrp K) (com (at_ X) zeta (snd s))
                  (gopp (g := FGrp K) (interpolated K p mu (fst s) (values K e zeta (snd s)) * 1))) (nu * acc)) 0 sets =
                peval (map (fun s => scale K p mu (fst s) * (com (at_ X) zeta (snd s) - interpolated K p mu (fst s) (values K e zeta (snd s)))) sets) nu).
    { induction sets as [|s sets IH]; [reflexivity|]. cbn [fold_right map peval]. rewrite IH.
      generalize (com (at_ X) zeta (snd s)), (interpolated K p mu (fst s) (values K e zeta (snd s))), (scale K p mu (fst s)). intros a b c0.
      exact (alg1 c0 a b (nu * peval (map (fun s => scale K p mu (fst s) * (com (at_ X) zeta (snd s) - interpolated K p mu (fst s) (values K e zeta (snd s)))) sets) nu)). }
    refine (eq_trans (f_equal (fun t => gadd (g := FGrp K) (gadd (g := FGrp K) t _) _) (E rotation_sets)) _).
    exact (alg2 _ _ _ _).
  Qed.
  Lemma body_mu zeta nu mu W : vanish K p mu (others [Prev; Cur; Next]) <> 0 ->
    body zeta nu mu W mu * vanish K p mu (others [Prev; Cur; Next]) = total zeta nu mu - all_vanish mu * peval W mu.
  Proof.
    intros H. unfold body, total, all_vanish, scale. fold (diff zeta). set (V := vanish K p mu (others [Prev; Cur; Next])) in *.
    assert (E : forall sets, peval (map (fun s => vanish K p mu (others (fst s)) / V * diff zeta s mu) sets) nu * V =
                 peval (map (fun s => vanish K p mu (others (fst s)) * diff zeta s mu) sets) nu).
    { induction sets as [|s sets IH]; cbn [map peval]; [ring|]. rewrite <- IH. field. exact H. }
    change (peval (map (fun s => vanish K p mu (others (fst s)) / V * (com (at_ mu) zeta (snd s) - interpolated K p mu (fst s) (values K e zeta (snd s)))) rotation_sets) nu)
      with (peval (map (fun s => vanish K p mu (others (fst s)) / V * diff zeta s mu) rotation_sets) nu).
    rewrite <- E. ring.
  Qed.
  Lemma all_vanish_at r : all_vanish (p r) = 0.
  Proof. unfold all_vanish, vanish, others. destruct r; cbn; ring. Qed.
  Lemma pf_peval_map {A} d (l : list A) (f : A -> K -> K) z : (forall a, In a l -> polyfun K d (f a)) -> polyfun K d (fun X => peval (map (fun a => f a X) l) z).
  Proof.
    induction l as [|a l IH]; intros H; cbn [map peval]; [apply (pf_le K 0); [lia|apply pf_const]|].
    apply pf_add; [apply H; left; reflexivity|]. apply pf_scale, IH. intros b Hb. apply H. right. exact Hb.
  Qed.
  Lemma pf_total zeta nu : polyfun K (N + 3) (total zeta nu).
  Proof.
    apply (pf_peval_map (N + 3) rotation_sets (fun s X => vanish K p X (others (fst s)) * diff zeta s X)). intros s Hs.
    destruct (set_facts s Hs) as (L1 & _ & L3 & _). apply (pf_le K (length (others (fst s)) + N)); [lia|].
    apply pf_mul; [apply pf_vanish|apply pf_diff; exact L1].
  Qed.

  Theorem open_sound s0 cl0 r0 : In s0 rotation_sets -> In r0 (fst s0) -> In cl0 (snd s0) -> e cl0 r0 <> peval (F cl0) (p r0) ->
    except 39 (fun zeta => except 4 (fun nu => forall W, (length W <= N)%nat ->
      except (N + 7) (fun mu => (forall r, mu <> p r) /\ forall W', (length W' <= N)%nat ->
        except N (fun s => lin (at_ s) zeta nu mu (peval W s) (peval W' s) <> s * peval W' s)))).
  Proof.
    intros Hs Hr Hc Hne. destruct (set_facts s0 Hs) as (_ & L2 & _ & ND).
    assert (Hz : except 39 (fun zeta => peval (map (fun cl => peval (F cl) (p r0) - e cl r0) (snd s0)) zeta <> 0)).
    { apply (except_roots K finite); [rewrite map_length; exact L2|]. exists (peval (F cl0) (p r0) - e cl0 r0). split.
      - apply in_map_iff. exists cl0. split; [reflexivity|exact Hc].
      - intros E. apply Hne. symmetry. apply (fsub_eq0 K). exact E. }
    revert Hz. apply except_impl. intros zeta Hzeta.
    assert (HD : diff zeta s0 (p r0) <> 0).
    { unfold diff. rewrite (interpolated_at _ _ r0 ND Hr), com_peval, values_peval, peval_diff. exact Hzeta. }
    assert (Hn : except 4 (fun nu => total zeta nu (p r0) <> 0)).
    { apply (except_roots K finite); [cbn; lia|]. exists (vanish K p (p r0) (others (fst s0)) * diff zeta s0 (p r0)). split.
      - apply in_map_iff. exists s0. split; [reflexivity|exact Hs].
      - apply fmul_neq0; [apply vanish_neq0, others_in; exact Hr|exact HD]. }
    revert Hn. apply except_impl. intros nu Hnu W HW.
    assert (Hm : except (N + 3) (fun mu => total zeta nu mu - all_vanish mu * peval W mu <> 0)).
    { apply (pf_at K finite (N + 3) (fun mu => total zeta nu mu - all_vanish mu * peval W mu)).
      - apply pf_sub; [apply pf_total|]. apply (pf_le K (4 + (N - 1))); [lia|]. apply pf_mul; [|apply pf_poly; lia].
        apply (pf_mul K 3 1); [exact (pf_vanish [Prev; Cur; Next])|exact (pf_vanish (others [Prev; Cur; Next]))].
      - exists (p r0). rewrite all_vanish_at. intros E. apply Hnu. rewrite <- E. ring. }
    assert (Hm' : except 4 (fun mu => ~ In mu (map p all_rots))) by (apply except_list; cbn; lia).
    pose proof (except_and _ _ _ _ Hm Hm') as HM. apply (except_le _ (N + 7)) in HM; [|lia]. revert HM. apply except_impl.
    intros mu (Hmu & Hpt). split; [intros r E; apply Hpt; rewrite E; apply in_map; destruct r; cbn; tauto|]. intros W' HW'.
    assert (HB : body zeta nu mu W mu <> 0).
    { intros E. apply Hmu. rewrite <- body_mu; [rewrite E; ring|]. unfold vanish, others. cbn.
      intros E'. apply Hpt. apply fmul_eq0 in E' as [E'|E']; [|exfalso; exact (f1_neq_0 K E')]. apply (fsub_eq0 K) in E'. rewrite E'. left. reflexivity. }
    apply (except_impl N (fun s => body zeta nu mu W s - (s - mu) * peval W' s <> 0)).
    - intros s H E. apply H. rewrite (lin_body zeta nu mu W s) in E. transitivity (body zeta nu mu W s + mu * peval W' s - s * peval W' s); [ring|]. rewrite E. ring.
    - apply (pf_at K finite N (fun s => body zeta nu mu W s - (s - mu) * peval W' s)).
      + apply pf_sub.
        * apply pf_sub.
          -- apply (pf_peval_map N rotation_sets (fun st X => scale K p mu (fst st) * (com (at_ X) zeta (snd st) - interpolated K p mu (fst st) (values K e zeta (snd st))))).
             intros st _. apply pf_scale. apply pf_sub; [apply pf_com|]. apply (pf_le K 0); [lia|apply pf_const].
          -- apply pf_scale. apply pf_poly. lia.
        * apply (pf_le K (1 + (N - 1))); [lia|]. apply pf_mul; [apply pf_lin|apply pf_poly; lia].
      + exists mu. intros E. apply HB. rewrite <- E. ring.
  Qed.

End Open.
