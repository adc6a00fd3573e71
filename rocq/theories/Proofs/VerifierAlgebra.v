(** The two points the verifier pairs are those of the SHPLONK equation. *)
From Coq Require Import ZArith NArith List String Bool Lia Field.
From Verif.Base Require Import Fld Fp Primes Curves Group.
From Verif.Spec Require Import Plonk.
From Verif.Proofs Require Import VerifierTools VerifierGates VerifierOpen.
Import ListNotations.
Open Scope Z_scope.

Section Algebra.
  Variable K : Fld.
  Variable G : Grp.
  Variable smul : K -> G -> G.
  Add Field Kf : (flaw K).
  Open Scope fld_scope.
  Open Scope grp_scope.
  Hypothesis smul_add : forall (a b : K) P, smul (a + b)%fld P = smul a P ⊕ smul b P.
  Hypothesis smul_mul : forall (a b : K) P, smul (a * b)%fld P = smul a (smul b P).
  Hypothesis smul_gadd : forall (a : K) P Q, smul a (P ⊕ Q) = smul a P ⊕ smul a Q.
  Hypothesis smul_one : forall P, smul (1 : K) P = P.
  Lemma smul_zero P : smul (0 : K) P = g0.
  Proof. apply (gadd_inj_l G (smul 1 P)). rewrite <- smul_add, g0_r. f_equal. ring. Qed.
  Lemma smul_neg a P : smul (- a)%fld P = ⊖ smul a P.
  Proof. apply gopp_unique. rewrite <- smul_add. rewrite <- (smul_zero P). f_equal. ring. Qed.
  Lemma smul_unit a : smul a (g0 : G) = g0.
  Proof. rewrite <- (smul_zero g0), <- smul_mul. f_equal. ring. Qed.

  (** linear expressions in points *)
  Inductive lin := At (i : nat) | LZ | LA (u v : lin) | LO (u : lin) | LM (k : K) (u : lin).
  Fixpoint den (P : nat -> G) (t : lin) : G :=
    match t with At i => P i | LZ => g0 | LA u v => den P u ⊕ den P v | LO u => ⊖ den P u | LM k u => smul k (den P u) end.
  Fixpoint coef (t : lin) (i : nat) : K :=
    match t with
    | At j => if Nat.eqb i j then 1 else 0
    | LZ => 0 | LA u v => coef u i + coef v i | LO u => - coef u i | LM k u => k * coef u i
    end%fld.
  Fixpoint atoms (n : nat) (t : lin) : Prop :=
    match t with At j => (j < n)%nat | LZ => True | LA u v => atoms n u /\ atoms n v | LO u => atoms n u | LM _ u => atoms n u end.
  Fixpoint total_ (P : nat -> G) (c : nat -> K) (n : nat) : G := match n with O => g0 | S n => total_ P c n ⊕ smul (c n) (P n) end.
  Lemma total_ext P c c' n : (forall i, (i < n)%nat -> c i = c' i) -> total_ P c n = total_ P c' n.
  Proof. induction n as [|n IH]; intros H; cbn; [reflexivity|]. rewrite IH by (intros; apply H; lia). rewrite H by lia. reflexivity. Qed.
  Lemma total_add P c c' n : total_ P c n ⊕ total_ P c' n = total_ P (fun i => c i + c' i)%fld n.
  Proof. induction n as [|n IH]; cbn; [apply g0_l|]. rewrite gswap, IH, <- smul_add. reflexivity. Qed.
  Lemma total_opp P c n : ⊖ total_ P c n = total_ P (fun i => - c i)%fld n.
  Proof. induction n as [|n IH]; cbn; [apply gopp_0|]. rewrite gopp_add, IH, <- smul_neg. reflexivity. Qed.
  Lemma total_mul P c k n : smul k (total_ P c n) = total_ P (fun i => k * c i)%fld n.
  Proof. induction n as [|n IH]; cbn; [apply smul_unit|]. rewrite smul_gadd, IH, <- smul_mul. reflexivity. Qed.
  Lemma total_0 P n : total_ P (fun _ => 0)%fld n = g0.
  Proof. induction n as [|n IH]; cbn; [reflexivity|]. rewrite IH, smul_zero. apply g0_l. Qed.
  Lemma total_at P j n : (j < n)%nat -> total_ P (fun i => if Nat.eqb i j then 1 else 0)%fld n = P j.
  Proof.
    induction n as [|n IH]; intros H; [lia|]. cbn [total_]. destruct (Nat.eq_dec n j) as [->|N].
    - rewrite Nat.eqb_refl, smul_one. rewrite (total_ext P _ (fun _ => 0)%fld), total_0, g0_l; [reflexivity|].
      intros i Hi. destruct (Nat.eqb_spec i j); [lia|reflexivity].
    - rewrite IH by lia. destruct (Nat.eqb_spec n j); [contradiction|]. rewrite smul_zero. apply g0_r.
  Qed.
  Lemma den_total P n t : atoms n t -> den P t = total_ P (coef t) n.
  Proof.
    induction t as [j| |u IHu v IHv|u IHu|k u IHu]; cbn [atoms den coef]; intros H.
    - symmetry. apply total_at, H.
    - symmetry. apply total_0.
    - rewrite IHu, IHv by tauto. apply total_add.
    - rewrite IHu by tauto. apply total_opp.
    - rewrite IHu by tauto. apply total_mul.
  Qed.
  Lemma lin_eq P n t u : atoms n t -> atoms n u -> (forall i, (i < n)%nat -> coef t i = coef u i) -> den P t = den P u.
  Proof. intros H1 H2 H. rewrite (den_total P n t), (den_total P n u) by assumption. apply total_ext, H. Qed.

  (** the combination of the sets *)
  Lemma combine_sets (C0 C1 C2 C3 C4 gen w w' : G) (s0 s1 s2 s3 s4 t0 t1 t2 t3 t4 nu v mu : K) (s0_1 : s0 = 1%fld) :
    (C0 ⊕ smul (nu * s1)%fld C1 ⊕ smul (nu * nu * s2)%fld C2 ⊕ smul (nu * nu * nu * s3)%fld C3 ⊕ smul (nu * nu * nu * nu * s4)%fld C4
     ⊕ smul (- ((((s4 * t4) * nu + s3 * t3) * nu + s2 * t2) * nu + s1 * t1) * nu + - t0)%fld gen ⊕ smul (- v)%fld w ⊕ smul mu w') =
    smul s0 (C0 ⊕ ⊖ smul t0 gen) ⊕ smul nu (smul s1 (C1 ⊕ ⊖ smul t1 gen) ⊕ smul nu (smul s2 (C2 ⊕ ⊖ smul t2 gen) ⊕ smul nu
      (smul s3 (C3 ⊕ ⊖ smul t3 gen) ⊕ smul nu (smul s4 (C4 ⊕ ⊖ smul t4 gen) ⊕ smul nu g0)))) ⊕ ⊖ smul v w ⊕ smul mu w'.
  Proof.
    set (P := fun i : nat => match i with 0 => C0 | 1 => C1 | 2 => C2 | 3 => C3 | 4 => C4 | 5 => gen | 6 => w | _ => w' end%nat).
    pose (A := At).
    exact (lin_eq P 8
     (LA (LA (LA (LA (LA (LA (LA (A 0%nat) (LM (nu * s1)%fld (A 1%nat))) (LM (nu * nu * s2)%fld (A 2%nat))) (LM (nu * nu * nu * s3)%fld (A 3%nat)))
       (LM (nu * nu * nu * nu * s4)%fld (A 4%nat))) (LM (- ((((s4 * t4) * nu + s3 * t3) * nu + s2 * t2) * nu + s1 * t1) * nu + - t0)%fld (A 5%nat)))
        (LM (- v)%fld (A 6%nat))) (LM mu (A 7%nat)))
     (LA (LA (LA (LM s0 (LA (A 0%nat) (LO (LM t0 (A 5%nat)))))
        (LM nu (LA (LM s1 (LA (A 1%nat) (LO (LM t1 (A 5%nat))))) (LM nu (LA (LM s2 (LA (A 2%nat) (LO (LM t2 (A 5%nat))))) (LM nu
         (LA (LM s3 (LA (A 3%nat) (LO (LM t3 (A 5%nat))))) (LM nu (LA (LM s4 (LA (A 4%nat) (LO (LM t4 (A 5%nat))))) (LM nu LZ)))))))))) (LO (LM v (A 6%nat)))) (LM mu (A 7%nat)))
     ltac:(cbn; repeat split; lia) ltac:(cbn; repeat split; lia)
     ltac:(intros i Hi; do 8 (destruct i as [|i]; [cbn; rewrite ?s0_1; ring|]); lia)).
  Qed.

  (** *** The verifier's own computation *)
  Variable ofz : Z -> K.
  Hypothesis ofz0 : ofz 0%Z = f0.
  Hypothesis ofz1 : ofz 1%Z = f1.
  Variable pt : Z -> G.
  Variable ev : Z -> K.
  Variable vkp : Z -> G.
  Variables omega omega_inv x zeta nu mu hev : K.
  Variable H : G.
  Notation e := (ei K ev hev).
  Notation c := (cm G pt vkp H).
  Notation pts := (pts K omega omega_inv x).
  Definition pr (r : rot) : K := match r with Last => pts 0 | Prev => pts 1 | Cur => pts 2 | Next => pts 3 end%nat.
  Lemma rev_last {A} (a : A) l : exists b t, rev (a :: l) = b :: t.
  Proof. destruct (rev (a :: l)) as [|b t] eqn:E; [|eauto]. apply (f_equal (@List.length A)) in E. rewrite rev_length in E. discriminate. Qed.
  Lemma phorner_ok a l : phorner K G gadd smul pt vkp zeta H (a :: l) = commitment K G smul c zeta (a :: l).
  Proof.
    revert a. induction l as [|b l IH]; intros a.
    - cbn. rewrite smul_unit. symmetry. apply g0_r.
    - unfold phorner. destruct (rev_last b l) as (u & t & E). change (rev (a :: b :: l)) with (rev (b :: l) ++ [a])%list. rewrite E.
      cbn [app]. rewrite fold_left_app. cbn [fold_left]. specialize (IH b). unfold phorner in IH. rewrite E in IH. rewrite IH.
      cbn [commitment]. apply gcomm.
  Qed.
  Definition dot (us : list K) (vs : list K) : K := (fold_right (fun p acc => fst p * snd p + acc) 0 (combine us vs))%fld.
  Lemma row_ok us cl rs acc : row K ev hev us cl rs acc = (acc + dot us (map (e cl) rs))%fld.
  Proof.
    unfold row, dot. revert rs acc. induction us as [|u us IH]; intros [|r rs] acc; cbn; try ring. rewrite IH. ring.
  Qed.
  Lemma dot_comb us (f g : rot -> K) z rs :
    dot us (map (fun r => f r + z * g r)%fld rs) = (dot us (map f rs) + z * dot us (map g rs))%fld.
  Proof. unfold dot. revert us. induction rs as [|r rs IH]; intros [|u us]; cbn; try ring. rewrite IH. ring. Qed.
  Lemma dot_0 us (rs : list rot) : dot us (map (fun _ => 0)%fld rs) = 0%fld.
  Proof. unfold dot. revert us. induction rs as [|r rs IH]; intros [|u us]; cbn; try ring. rewrite IH. ring. Qed.
  Lemma horner_ok us rs a l : horner K ofz ev zeta hev us rs (a :: l) = dot us (map (values K e zeta (a :: l)) rs).
  Proof.
    revert a. induction l as [|b l IH]; intros a.
    - cbn [horner rev app fold_left]. rewrite row_ok, ofz0.
      change (values K e zeta [a]) with (fun r => e a r + zeta * 0)%fld.
      rewrite (dot_comb us (e a) (fun _ => 0)%fld), dot_0. ring.
    - unfold horner. destruct (rev_last b l) as (u & t & E). change (rev (a :: b :: l)) with (rev (b :: l) ++ [a])%list. rewrite E.
      cbn [app]. rewrite fold_left_app. cbn [fold_left]. specialize (IH b). unfold horner in IH. rewrite E in IH. rewrite IH, row_ok.
      change (values K e zeta (a :: b :: l)) with (fun r => e a r + zeta * values K e zeta (b :: l) r)%fld.
      rewrite dot_comb. ring.
  Qed.
  (** distinct points, none of them mu *)
  Hypothesis d_nz : forall r, (mu - pr r <> 0)%fld.
  Hypothesis p_nz : forall r r', r <> r' -> (pr r - pr r' <> 0)%fld.
  Notation d := (fun i : nat => (mu + - pts i)%fld).
  Lemma coefs_nz i : coefs K ofz pts d i <> 0%fld.
  Proof.
    assert (D : forall r, (mu + - pr r)%fld <> 0%fld). { intros r E. apply (d_nz r). rewrite <- E. ring. }
    assert (P : forall r r', r <> r' -> (pr r + - pr r')%fld <> 0%fld). { intros r r' N E. apply (p_nz r r' N). rewrite <- E. ring. }
    pose proof (D Last). pose proof (D Prev). pose proof (D Cur). pose proof (D Next).
    assert (ofz 1%Z <> f0). { rewrite ofz1. apply f1_neq_0. }
    pose proof (P Last Cur ltac:(discriminate)). pose proof (P Last Next ltac:(discriminate)).
    pose proof (P Prev Cur ltac:(discriminate)). pose proof (P Prev Next ltac:(discriminate)).
    pose proof (P Cur Last ltac:(discriminate)). pose proof (P Cur Prev ltac:(discriminate)). pose proof (P Cur Next ltac:(discriminate)).
    pose proof (P Next Last ltac:(discriminate)). pose proof (P Next Prev ltac:(discriminate)). pose proof (P Next Cur ltac:(discriminate)).
    clear D P.
    unfold coefs. do 11 (destruct i as [|i]; [repeat first [assumption | apply fmul_neq0]|]).
    repeat first [assumption | apply fmul_neq0].
  Qed.
  Notation u := (binv (coefs K ofz pts d) 11).
  Lemma u_ok i : (i <= 11)%nat -> u i = finv (coefs K ofz pts d i).
  Proof. intros Hi. apply binv_ok; [intros; apply coefs_nz|lia|exact Hi]. Qed.
  Notation van := (vanish K pr mu).
  Notation interp := (interpolated K pr mu).
  Lemma vanish_nz rs : van rs <> 0%fld.
  Proof. unfold vanish. induction rs as [|r rs IH]; cbn; [apply f1_neq_0|]. apply fmul_neq0; [apply d_nz|exact IH]. Qed.
  Lemma sub_def_ (a b : K) : (a + - b = a - b)%fld.
  Proof. ring. Qed.
  Lemma nz_list : (mu - pr Last <> 0 /\ mu - pr Prev <> 0 /\ mu - pr Cur <> 0 /\ mu - pr Next <> 0 /\
    pr Last - pr Cur <> 0 /\ pr Last - pr Next <> 0 /\ pr Prev - pr Cur <> 0 /\ pr Prev - pr Next <> 0 /\ pr Cur - pr Last <> 0 /\
    pr Cur - pr Prev <> 0 /\ pr Cur - pr Next <> 0 /\ pr Next - pr Last <> 0 /\ pr Next - pr Prev <> 0 /\ pr Next - pr Cur <> 0)%fld.
  Proof. repeat split; first [apply d_nz | apply p_nz; discriminate]. Qed.
  Ltac fld_tac :=
    rewrite !u_ok by lia; cbn [coefs rset cset rotation_sets nth fst snd vanish interpolated basis map filter fold_right fold_left combine dot uset diffs scales
       rot_eq_dec rot_rec rot_rect sumbool_rec sumbool_rect];
    rewrite ?ofz1; change (pts 0%nat) with (pr Last) in *; change (pts 1%nat) with (pr Prev) in *;
    change (pts 2%nat) with (pr Cur) in *; change (pts 3%nat) with (pr Next) in *.
  Ltac fld_gen := generalize dependent (pr Last); generalize dependent (pr Prev); generalize dependent (pr Cur); generalize dependent (pr Next);
    intros; rewrite ?sub_def_; field; tauto.
  (** the inverse of the sum of the coefficients is the vanishing polynomial at mu *)
  Lemma sums_inv j : (j <= 4)%nat -> (sums K ofz u j * van (rset j) = 1)%fld.
  Proof.
    intros Hj. pose proof nz_list as Z. unfold sums, uset.
    do 4 (destruct j as [|j]; [fld_tac; fld_gen|]). destruct j as [|j]; [|lia]. fld_tac; fld_gen.
  Qed.
  Lemma sums_nz j : (j <= 4)%nat -> sums K ofz u j <> 0%fld.
  Proof. intros Hj E. apply (f1_neq_0 K). rewrite <- (sums_inv j Hj), E. ring. Qed.
  Lemma si_ok j : (j <= 4)%nat -> binv (sums K ofz u) 4 j = van (rset j).
  Proof.
    intros Hj. rewrite binv_ok; [|intros; apply sums_nz; lia|lia|exact Hj].
    symmetry. apply inv_unique. rewrite <- (sums_inv j Hj). ring.
  Qed.
  (** and so the combination is the value of the interpolation polynomial *)
  Lemma interp_ok j v : (j <= 4)%nat -> (van (rset j) * dot (uset K u j) (map v (rset j)) = interp (rset j) v)%fld.
  Proof.
    intros Hj. pose proof nz_list as Z. unfold uset, interpolated, basis, dot, vanish.
    do 4 (destruct j as [|j]; [fld_tac; fld_gen|]). destruct j as [|j]; [|lia]. fld_tac; fld_gen.
  Qed.
  Notation sc := (scales K d (u 0%nat)).
  Lemma scale_ok j : (1 <= j <= 4)%nat -> sc j = scale K pr mu (rset j).
  Proof.
    intros Hj. pose proof nz_list as Z. unfold scale. destruct j as [|j]; [lia|].
    do 3 (destruct j as [|j]; [fld_tac; unfold others, vanish; cbn [all_rots filter existsb rot_eq_dec rot_rec rot_rect sumbool_rec sumbool_rect negb orb map fold_right]; fld_gen|]).
    destruct j as [|j]; [|lia].
    fld_tac; unfold others, vanish; cbn [all_rots filter existsb rot_eq_dec rot_rec rot_rect sumbool_rec sumbool_rect negb orb map fold_right]; fld_gen.
  Qed.
  Lemma scale_0 : scale K pr mu (rset 0) = 1%fld.
  Proof. unfold scale, rset, rotation_sets. cbn [nth fst]. pose proof (vanish_nz (others [Prev; Cur; Next])). field. assumption. Qed.
  Notation v := (fun j => values K e zeta (cset j)).
  Lemma re_ok j : (1 <= j <= 4)%nat ->
    (van (rset j) * revals K ofz ev zeta hev sc u j = scale K pr mu (rset j) * interp (rset j) (v j))%fld.
  Proof.
    intros Hj. rewrite <- interp_ok, <- scale_ok by lia. unfold revals. destruct j as [|j]; [lia|].
    assert (E : exists a l, cset (S j) = a :: l) by (do 4 (destruct j as [|j]; [cbn; eauto|]); lia).
    destruct E as (a & l & ->). rewrite horner_ok. ring.
  Qed.
  Lemma re0_ok : (van (rset 0) * revals K ofz ev zeta hev sc u 0 = interp (rset 0) (v 0%nat))%fld.
  Proof. rewrite <- interp_ok by lia. unfold revals. cbn [cset rotation_sets nth snd]. rewrite horner_ok. reflexivity. Qed.
  Notation R := (VerifierOpen.total K nu (revals K ofz ev zeta hev sc u) (binv (sums K ofz u) 4)).
  Theorem msm_ok : msm K G gadd smul pt vkp zeta nu mu H (d 1%nat * d 2%nat * d 3%nat)%fld sc R =
    linearised K G smul pr e c (vkp 0x820) zeta nu mu (pt 0x1184) (pt 0x11c4).
  Proof.
    unfold linearised. change (rotation_sets) with (map (fun j => (rset j, cset j)) [0; 1; 2; 3; 4]%nat).
    cbn [map fold_right fst snd].
    rewrite <- (combine_sets _ _ _ _ _ _ _ _ _ _ _ _ _ _ _ _ _ _ _ _ _ scale_0).
    unfold msm, nus. cbn [fold_left Nat.sub Nat.iter nat_rect].
    rewrite <- !scale_ok by lia.
    assert (PH : forall j, (j <= 4)%nat -> phorner K G gadd smul pt vkp zeta H (cset j) = commitment K G smul c zeta (cset j)).
    { intros j Hj. assert (E : exists a l, cset j = a :: l) by (do 5 (destruct j as [|j]; [cbn; eauto|]); lia).
      destruct E as (a & l & ->). apply phorner_ok. }
    rewrite !PH by lia. unfold Nat.iter, nat_rect. f_equal. f_equal; [f_equal|].
    - f_equal. unfold VerifierOpen.total. cbn [fold_left]. rewrite !si_ok by lia.
      rewrite re0_ok. rewrite !re_ok, <- !scale_ok by lia. ring.
    - f_equal. unfold vanish. cbn [map fold_right]. unfold pr. ring.
  Qed.
End Algebra.
