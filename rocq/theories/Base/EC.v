(** Group law of the curve y^2 = x^3 + b over a field of characteristic <> 2, 3
    (the arithmetic of halo2curves bn256/grumpkin affine points and of EVM precompile 6;
    mathematics, not code of this repository). *)
From Coq Require Import List Lia Bool Ring Field Eqdep_dec.
From Verif.Base Require Import Fld.
Open Scope fld_scope.

Section Curve.
  Variable K : Fld.
  Variable b : K.
  Add Field KfE : (flaw K).

  Definition two : K := 1 + 1.
  Definition three : K := 1 + (1 + 1).

  Inductive rp := Inf | Aff (x y : K).

  Definition on_curve (P : rp) : bool :=
    match P with Inf => true | Aff x y => feqb (y * y) (x * x * x + b) end.

  Definition ropp (P : rp) : rp := match P with Inf => Inf | Aff x y => Aff x (- y) end.

  Definition chord (l x1 y1 x2 : K) : rp :=
    let x3 := l * l - x1 - x2 in Aff x3 (l * (x1 - x3) - y1).

  Definition radd (P Q : rp) : rp :=
    match P, Q with
    | Inf, _ => Q
    | _, Inf => P
    | Aff x1 y1, Aff x2 y2 =>
        if feq_dec x1 x2 then
          if feq_dec (y1 + y2) 0 then Inf
          else chord ((three * (x1 * x1)) / (two * y1)) x1 y1 x2
        else chord ((y2 - y1) / (x2 - x1)) x1 y1 x2
    end.

  Record EC := mkEC { pt : rp; pt_ok : on_curve pt = true }.

  Lemma EC_ext (P Q : EC) : pt P = pt Q -> P = Q.
  Proof. destruct P as [P HP], Q as [Q HQ]; cbn; intros ->. f_equal. apply UIP_dec, bool_dec. Qed.

  Lemma on_aff x y : on_curve (Aff x y) = true <-> y * y = x * x * x + b.
  Proof. cbn. apply feqb_eq. Qed.

  Hypothesis two_neq0 : two <> 0.
  Hypothesis three_neq0 : three <> 0.
  Hypothesis b_neq0 : b <> 0.

  Lemma same_x x y y' : on_curve (Aff x y) = true -> on_curve (Aff x y') = true -> y + y' <> 0 -> y' = y.
  Proof.
    rewrite !on_aff. intros H H' N. rewrite <- H in H'.
    apply fsq_eq in H' as [E|E]; auto. exfalso. apply N. rewrite E. ring.
  Qed.

  Lemma dbl_y_neq0 (y : K) : y + y <> 0 -> y <> 0.
  Proof. intros N E; apply N; rewrite E; ring. Qed.

  Lemma on_chord l x1 y1 x2 y2 : on_curve (Aff x1 y1) = true -> on_curve (Aff x2 y2) = true ->
    x1 <> x2 -> l = (y2 - y1) / (x2 - x1) -> on_curve (chord l x1 y1 x2) = true.
  Proof.
    unfold chord; cbv zeta. rewrite !on_aff. intros H1 H2 N ->.
    assert (Hb : b = y1 * y1 - x1 * x1 * x1) by (rewrite H1; ring).
    assert (H2' : y2 * y2 = x2 * x2 * x2 + (y1 * y1 - x1 * x1 * x1)) by (rewrite H2, Hb; ring).
    rewrite Hb. clear H1 H2 Hb.
    assert (D : x2 - x1 <> 0) by (apply fsub_neq0; auto).
    field [H2']. auto.
  Qed.

  Lemma on_tangent l x1 y1 : on_curve (Aff x1 y1) = true -> y1 <> 0 ->
    l = (three * (x1 * x1)) / (two * y1) -> on_curve (chord l x1 y1 x1) = true.
  Proof.
    unfold chord; cbv zeta. rewrite !on_aff. intros H1 N ->.
    assert (Hb : b = y1 * y1 - x1 * x1 * x1) by (rewrite H1; ring).
    rewrite Hb. clear H1 Hb.
    unfold two, three in *. field. split; auto.
  Qed.

  Lemma on_add P Q : on_curve P = true -> on_curve Q = true -> on_curve (radd P Q) = true.
  Proof.
    destruct P as [|x1 y1], Q as [|x2 y2]; cbn [radd]; intros H1 H2; auto.
    destruct (feq_dec x1 x2) as [E|N].
    - subst x2. destruct (feq_dec (y1 + y2) 0) as [E|N]; auto.
      assert (y2 = y1) by (eapply same_x; eauto). subst y2.
      eapply on_tangent; eauto. apply dbl_y_neq0; auto.
    - eapply on_chord; eauto.
  Qed.

  Lemma on_opp P : on_curve P = true -> on_curve (ropp P) = true.
  Proof. destruct P as [|x y]; cbn [ropp]; auto. rewrite !on_aff. intros <-. ring. Qed.

  Definition ec0 : EC := mkEC Inf eq_refl.
  Definition ecadd (P Q : EC) : EC := mkEC (radd (pt P) (pt Q)) (on_add _ _ (pt_ok P) (pt_ok Q)).
  Definition ecopp (P : EC) : EC := mkEC (ropp (pt P)) (on_opp _ (pt_ok P)).

  Lemma ec_eq_dec (P Q : EC) : {P = Q} + {P <> Q}.
  Proof.
    assert (D : {pt P = pt Q} + {pt P <> pt Q}).
    { destruct (pt P) as [|x y], (pt Q) as [|x' y']; try (right; discriminate); [left; auto|].
      destruct (feq_dec x x'); [|right; congruence].
      destruct (feq_dec y y'); [left; congruence|right; congruence]. }
    destruct D; [left; apply EC_ext; auto|right; congruence].
  Defined.

  Lemma ecadd_0_l P : ecadd ec0 P = P.
  Proof. apply EC_ext. reflexivity. Qed.
  Lemma ecadd_0_r P : ecadd P ec0 = P.
  Proof. apply EC_ext. cbn. destruct (pt P); reflexivity. Qed.

  Lemma radd_comm P Q : on_curve P = true -> on_curve Q = true -> radd P Q = radd Q P.
  Proof.
    destruct P as [|x1 y1], Q as [|x2 y2]; cbn [radd]; auto. intros H1 H2.
    destruct (feq_dec x1 x2) as [E|N].
    - subst x2. destruct (feq_dec x1 x1) as [_|?]; [|congruence].
      destruct (feq_dec (y1 + y2) 0) as [E|N].
      + destruct (feq_dec (y2 + y1) 0) as [_|N']; auto. exfalso; apply N'; rewrite <- E; ring.
      + destruct (feq_dec (y2 + y1) 0) as [E'|_]; [exfalso; apply N; rewrite <- E'; ring|].
        assert (y2 = y1) by (eapply same_x; eauto). subst; auto.
    - destruct (feq_dec x2 x1); [congruence|].
      assert (D : x2 - x1 <> 0) by (apply fsub_neq0; auto).
      assert (D' : x1 - x2 <> 0) by (apply fsub_neq0; auto).
      unfold chord; cbv zeta. f_equal; field; auto.
  Qed.
  Lemma ecadd_comm P Q : ecadd P Q = ecadd Q P.
  Proof. apply EC_ext. apply radd_comm; apply pt_ok. Qed.

  Lemma ecadd_opp_r P : ecadd P (ecopp P) = ec0.
  Proof.
    apply EC_ext. cbn. destruct (pt P) as [|x y]; cbn; auto.
    destruct (feq_dec x x); [|congruence].
    destruct (feq_dec (y + - y) 0) as [_|N]; auto. exfalso; apply N; ring.
  Qed.
  Lemma ecadd_opp_l P : ecadd (ecopp P) P = ec0.
  Proof. rewrite ecadd_comm. apply ecadd_opp_r. Qed.
  Lemma ecopp_0 : ecopp ec0 = ec0.
  Proof. apply EC_ext. reflexivity. Qed.
  Lemma ecopp_inv P : ecopp (ecopp P) = P.
  Proof. apply EC_ext. cbn. destruct (pt P); cbn; auto. f_equal; ring. Qed.

  Lemma ropp_chord l x1 y1 x2 : ropp (chord l x1 y1 x2) = chord (- l) x1 (- y1) x2.
  Proof. unfold chord, ropp. f_equal; ring. Qed.

  Lemma ecopp_add P Q : ecopp (ecadd P Q) = ecadd (ecopp P) (ecopp Q).
  Proof.
    apply EC_ext. cbn. destruct P as [[|x1 y1] H1], Q as [[|x2 y2] H2]; cbn [pt ropp radd]; auto.
    destruct (feq_dec x1 x2) as [E|N].
    - subst x2. destruct (feq_dec (y1 + y2) 0) as [E|N].
      + destruct (feq_dec (- y1 + - y2) 0) as [_|N']; auto. exfalso; apply N'.
        replace (- y1 + - y2) with (- (y1 + y2)) by ring. rewrite E; ring.
      + destruct (feq_dec (- y1 + - y2) 0) as [E'|_].
        { exfalso; apply N. replace (y1 + y2) with (- (- y1 + - y2)) by ring. rewrite E'; ring. }
        rewrite ropp_chord. f_equal.
        assert (y2 = y1) by (eapply same_x; eauto). subst y2.
        apply dbl_y_neq0 in N. unfold two, three in *. field.
        assert (- y1 <> 0) by (intros E'; apply N; replace y1 with (- - y1) by ring; rewrite E'; ring).
        repeat split; auto.
    - rewrite ropp_chord. f_equal. assert (D : x2 - x1 <> 0) by (apply fsub_neq0; auto). field; auto.
  Qed.

  (** (P + Q) - Q = P *)
  Lemma radd_cancel P Q : on_curve P = true -> on_curve Q = true -> radd (radd P Q) (ropp Q) = P.
  Proof.
    destruct P as [|x1 y1], Q as [|x2 y2]; intros H1 H2; auto.
    - cbn. destruct (feq_dec x2 x2); [|congruence].
      destruct (feq_dec (y2 + - y2) 0) as [_|N]; auto. exfalso; apply N; ring.
    - cbn [radd]. destruct (feq_dec x1 x2) as [E|N].
      + subst x2. destruct (feq_dec (y1 + y2) 0) as [E|N].
        * cbn. f_equal. apply fsub_eq0. rewrite <- E. replace (- y2 - y1) with (- (y1 + y2)) by ring. rewrite E. ring.
        * assert (y2 = y1) by (eapply same_x; eauto). subst y2. clear H2.
          apply dbl_y_neq0 in N.
          set (l := three * (x1 * x1) / (two * y1)).
          unfold chord; cbv zeta. cbn [ropp radd].
          set (x3 := l * l - x1 - x1). set (y3 := l * (x1 - x3) - y1).
          destruct (feq_dec x3 x1) as [E3|N3].
          -- assert (Ey : y3 = - y1) by (unfold y3; rewrite E3; ring).
             destruct (feq_dec (y3 + - y1) 0) as [E4|N4].
             { exfalso. apply N. rewrite Ey in E4.
               apply (fmul_cancel_l K (- two)); [intros Z; apply two_neq0; apply fopp_inj; rewrite Z; ring|].
               transitivity (- y1 + - y1); [unfold two; ring|]. rewrite E4. ring. }
             rewrite Ey, E3.
             assert (El : three * (x1 * x1) / (two * - y1) = - l).
             { unfold l, two, three in *. field.
               assert (- y1 <> 0) by (intros E'; apply N; replace y1 with (- - y1) by ring; rewrite E'; ring).
               repeat split; auto. }
             rewrite El. unfold chord; cbv zeta.
             assert (Ex : - l * - l - x1 - x1 = x1).
             { transitivity x3; [unfold x3; ring|auto]. }
             rewrite Ex. f_equal. ring.
          -- assert (D : x1 - x3 <> 0) by (apply fsub_neq0; auto).
             assert (El : (- y1 - y3) / (x1 - x3) = - l) by (unfold y3; field; auto).
             rewrite El. unfold chord; cbv zeta.
             assert (Ex : - l * - l - x3 - x1 = x1) by (unfold x3; ring).
             rewrite Ex. f_equal. unfold y3. ring.
      + set (l := (y2 - y1) / (x2 - x1)).
        assert (D0 : x2 - x1 <> 0) by (apply fsub_neq0; auto).
        assert (Hl : y2 = y1 + l * (x2 - x1)) by (unfold l; field; auto).
        assert (H12 : l * (y1 + y2) = x1 * x1 + x1 * x2 + x2 * x2).
        { apply on_aff in H1, H2. apply (fmul_cancel_l K (x2 - x1)); auto.
          transitivity ((y2 - y1) * (y1 + y2)); [unfold l; field; auto|].
          transitivity (y2 * y2 - y1 * y1); [ring|]. rewrite H1, H2. ring. }
        unfold chord; cbv zeta. cbn [ropp radd].
        set (x3 := l * l - x1 - x2). set (y3 := l * (x1 - x3) - y1).
        destruct (feq_dec x3 x2) as [E3|N3].
        * assert (Ey : y3 = - y2) by (unfold y3; rewrite E3, Hl; ring).
          assert (Et : two * l * y2 = three * (x2 * x2)).
          { assert (Ell : l * l = x1 + x2 + x2) by (rewrite <- E3 at 2; unfold x3; ring).
            transitivity (l * (y1 + y2) + l * l * (x2 - x1)); [rewrite Hl; unfold two; ring|].
            rewrite H12, Ell. unfold three. ring. }
          destruct (feq_dec (y3 + - y2) 0) as [E4|N4].
          { exfalso. rewrite Ey in E4.
            assert (y2 = 0).
            { apply (fmul_cancel_l K (- two)); [intros Z; apply two_neq0; apply fopp_inj; rewrite Z; ring|].
              transitivity (- y2 + - y2); [unfold two; ring|]. rewrite E4. ring. }
            assert (x2 = 0).
            { assert (Z : three * (x2 * x2) = 0) by (rewrite <- Et, H; ring).
              apply fmul_eq0 in Z as [Z|Z]; [contradiction|]. apply fmul_eq0 in Z as [Z|Z]; auto. }
            apply b_neq0. apply on_aff in H2. rewrite H, H0 in H2.
            transitivity (0 * 0 * 0 + b); [ring|]. rewrite <- H2. ring. }
          assert (Ny : y2 <> 0) by (intros Z; apply N4; rewrite Ey, Z; ring).
          assert (Nty : two * y2 <> 0) by (apply fmul_neq0; auto).
          rewrite Ey, E3.
          assert (El : three * (x2 * x2) / (two * - y2) = - l).
          { rewrite <- Et. unfold two in *. field.
            assert (- y2 <> 0) by (intros E'; apply Ny; replace y2 with (- - y2) by ring; rewrite E'; ring).
            repeat split; auto. }
          rewrite El. unfold chord; cbv zeta.
          assert (Ex : - l * - l - x2 - x2 = x1).
          { transitivity (l * l - x1 - x2 + x1 - x2); [ring|]. fold x3. rewrite E3. ring. }
          rewrite Ex. f_equal. rewrite Hl. ring.
        * assert (D : x2 - x3 <> 0) by (apply fsub_neq0; auto).
          assert (El : (- y2 - y3) / (x2 - x3) = - l).
          { unfold y3. rewrite Hl. field. auto. }
          rewrite El. unfold chord; cbv zeta.
          assert (Ex : - l * - l - x3 - x2 = x1) by (unfold x3; ring).
          rewrite Ex. f_equal. unfold y3. ring.
  Qed.

  Lemma ecadd_cancel P Q : ecadd (ecadd P Q) (ecopp Q) = P.
  Proof. apply EC_ext. apply radd_cancel; apply pt_ok. Qed.
  Lemma ecadd_cancel_opp P Q : ecadd (ecadd P (ecopp Q)) Q = P.
  Proof. rewrite <- (ecopp_inv Q) at 2. apply ecadd_cancel. Qed.
  Lemma ecadd_inj_r P P' Q : ecadd P Q = ecadd P' Q -> P = P'.
  Proof. intros H. rewrite <- (ecadd_cancel P Q), H. apply ecadd_cancel. Qed.
  Lemma ecadd_eq0 P Q : ecadd P Q = ec0 -> P = ecopp Q.
  Proof. intros H. apply (ecadd_inj_r _ _ Q). rewrite H, ecadd_opp_l. auto. Qed.

  (** raw formulas for the generic cases *)
  Lemma assoc_generic x1 y1 x2 y2 x3 y3 :
    y1 * y1 = x1 * x1 * x1 + b -> y2 * y2 = x2 * x2 * x2 + b -> y3 * y3 = x3 * x3 * x3 + b ->
    x1 <> x2 -> x2 <> x3 ->
    let l12 := (y2 - y1) / (x2 - x1) in
    let x12 := l12 * l12 - x1 - x2 in let y12 := l12 * (x1 - x12) - y1 in
    let l23 := (y3 - y2) / (x3 - x2) in
    let x23 := l23 * l23 - x2 - x3 in let y23 := l23 * (x2 - x23) - y2 in
    x12 <> x3 -> x1 <> x23 ->
    chord ((y3 - y12) / (x3 - x12)) x12 y12 x3 = chord ((y23 - y1) / (x23 - x1)) x1 y1 x23.
  Proof.
    intros H1 H2 H3 N12 N23 l12 x12 y12 l23 x23 y23 Na Nb.
    assert (H2' : y2 * y2 = x2 * x2 * x2 + (y1 * y1 - x1 * x1 * x1)) by (rewrite H2, H1; ring).
    assert (H3' : y3 * y3 = x3 * x3 * x3 + (y1 * y1 - x1 * x1 * x1)) by (rewrite H3, H1; ring).
    assert (D12 : x2 - x1 <> 0) by (apply fsub_neq0; auto).
    assert (D23 : x3 - x2 <> 0) by (apply fsub_neq0; auto).
    assert (Da : x3 - x12 <> 0) by (apply fsub_neq0; auto).
    assert (Db : x23 - x1 <> 0) by (apply fsub_neq0; auto).
    assert (Ea : x3 * ((x2 - x1) * (x2 - x1)) -
      ((y2 - y1) * (y2 - y1) - x1 * ((x2 - x1) * (x2 - x1)) - x2 * ((x2 - x1) * (x2 - x1))) <> 0).
    { intros Z. apply Da. apply (fmul_cancel_l K ((x2 - x1) * (x2 - x1))); [apply fmul_neq0; auto|].
      transitivity (0 : K); [rewrite <- Z; unfold x12, l12; field; auto | ring]. }
    assert (Eb : (y3 - y2) * (y3 - y2) - x2 * ((x3 - x2) * (x3 - x2)) -
      x3 * ((x3 - x2) * (x3 - x2)) - x1 * ((x3 - x2) * (x3 - x2)) <> 0).
    { intros Z. apply Db. apply (fmul_cancel_l K ((x3 - x2) * (x3 - x2))); [apply fmul_neq0; auto|].
      transitivity (0 : K); [rewrite <- Z; unfold x23, l23; field; auto | ring]. }
    unfold chord; cbv zeta.
    f_equal.
    - unfold y12, y23, x12, x23, l12, l23 in *. field [H2' H3']. repeat split; auto.
    - unfold y12, y23, x12, x23, l12, l23 in *. field [H2' H3']. repeat split; auto.
  Qed.

  Lemma assoc_double x1 y1 x3 y3 :
    y1 * y1 = x1 * x1 * x1 + b -> y3 * y3 = x3 * x3 * x3 + b ->
    y1 <> 0 -> x1 <> x3 ->
    let l11 := (three * (x1 * x1)) / (two * y1) in
    let x11 := l11 * l11 - x1 - x1 in let y11 := l11 * (x1 - x11) - y1 in
    let l13 := (y3 - y1) / (x3 - x1) in
    let x13 := l13 * l13 - x1 - x3 in let y13 := l13 * (x1 - x13) - y1 in
    x11 <> x3 -> x1 <> x13 ->
    chord ((y3 - y11) / (x3 - x11)) x11 y11 x3 = chord ((y13 - y1) / (x13 - x1)) x1 y1 x13.
  Proof.
    intros H1 H3 Ny N13 l11 x11 y11 l13 x13 y13 Na Nb.
    assert (H3' : y3 * y3 = x3 * x3 * x3 + (y1 * y1 - x1 * x1 * x1)) by (rewrite H3, H1; ring).
    assert (D13 : x3 - x1 <> 0) by (apply fsub_neq0; auto).
    assert (Da : x3 - x11 <> 0) by (apply fsub_neq0; auto).
    assert (Db : x13 - x1 <> 0) by (apply fsub_neq0; auto).
    assert (Ny2 : two * y1 <> 0) by (apply fmul_neq0; auto).
    assert (Ea : x3 * (two * y1 * (two * y1)) -
      (three * (x1 * x1) * (three * (x1 * x1)) - x1 * (two * y1 * (two * y1)) - x1 * (two * y1 * (two * y1))) <> 0).
    { intros Z. apply Da. apply (fmul_cancel_l K (two * y1 * (two * y1))); [apply fmul_neq0; auto|].
      transitivity (0 : K); [rewrite <- Z; unfold x11, l11; field; repeat split; auto | ring]. }
    assert (Eb : (y3 - y1) * (y3 - y1) - x1 * ((x3 - x1) * (x3 - x1)) -
      x3 * ((x3 - x1) * (x3 - x1)) - x1 * ((x3 - x1) * (x3 - x1)) <> 0).
    { intros Z. apply Db. apply (fmul_cancel_l K ((x3 - x1) * (x3 - x1))); [apply fmul_neq0; auto|].
      transitivity (0 : K); [rewrite <- Z; unfold x13, l13; field; auto | ring]. }
    unfold chord; cbv zeta.
    f_equal.
    - unfold y11, y13, x11, x13, l11, l13, two, three in *. field [H3']. repeat split; auto. 
    - unfold y11, y13, x11, x13, l11, l13, two, three in *. field [H3']. repeat split; auto.
  Qed.

  (** x-coordinates coincide iff equal or opposite *)
  Lemma same_x_cases (P Q : EC) x y y' : pt P = Aff x y -> pt Q = Aff x y' -> P = Q \/ P = ecopp Q.
  Proof.
    intros HP HQ. pose proof (pt_ok P) as OP. pose proof (pt_ok Q) as OQ. rewrite HP in OP. rewrite HQ in OQ.
    destruct (feq_dec (y + y') 0) as [E|N].
    - right. apply EC_ext. cbn. rewrite HP, HQ. cbn. f_equal. apply fsub_eq0. rewrite <- E. ring.
    - left. apply EC_ext. rewrite HP, HQ. f_equal. symmetry. eapply same_x; eauto.
  Qed.

  Lemma radd_chord x1 y1 x2 y2 : x1 <> x2 -> radd (Aff x1 y1) (Aff x2 y2) = chord ((y2 - y1) / (x2 - x1)) x1 y1 x2.
  Proof. intros N. cbn. destruct (feq_dec x1 x2); [congruence|auto]. Qed.
  Lemma radd_tangent x1 y1 : y1 <> 0 -> radd (Aff x1 y1) (Aff x1 y1) = chord ((three * (x1 * x1)) / (two * y1)) x1 y1 x1.
  Proof.
    intros N. cbn. destruct (feq_dec x1 x1); [|congruence].
    destruct (feq_dec (y1 + y1) 0) as [E|_]; auto. exfalso.
    apply (fmul_neq0 K two y1) in N; auto. apply N. rewrite <- E. unfold two; ring.
  Qed.

  Lemma aff_cases (P : EC) : P = ec0 \/ exists x y, pt P = Aff x y.
  Proof. destruct P as [[|x y] H]; [left; apply EC_ext; auto | right; exists x, y; auto]. Qed.

  Lemma neq_x (P Q : EC) x y x' y' : pt P = Aff x y -> pt Q = Aff x' y' -> P <> Q -> P <> ecopp Q -> x <> x'.
  Proof. intros HP HQ N1 N2 E. subst x'. destruct (same_x_cases P Q x y y'); auto. Qed.

  Lemma assoc_gen (P Q R : EC) :
    P <> ec0 -> Q <> ec0 -> R <> ec0 -> P <> Q -> P <> ecopp Q -> Q <> R -> Q <> ecopp R ->
    ecadd P Q <> R -> ecadd P Q <> ecopp R -> P <> ecadd Q R -> P <> ecopp (ecadd Q R) ->
    ecadd (ecadd P Q) R = ecadd P (ecadd Q R).
  Proof.
    intros P0 Q0 R0 N1 N2 N3 N4 N5 N6 N7 N8.
    destruct (aff_cases P) as [?|[x1 [y1 HP]]]; [contradiction|].
    destruct (aff_cases Q) as [?|[x2 [y2 HQ]]]; [contradiction|].
    destruct (aff_cases R) as [?|[x3 [y3 HR]]]; [contradiction|].
    assert (X12 : x1 <> x2) by (eapply neq_x; eauto).
    assert (X23 : x2 <> x3) by (eapply neq_x; eauto).
    pose proof (pt_ok P) as OP; pose proof (pt_ok Q) as OQ; pose proof (pt_ok R) as OR.
    rewrite HP in OP. rewrite HQ in OQ. rewrite HR in OR. apply on_aff in OP, OQ, OR.
    assert (HPQ : pt (ecadd P Q) = chord ((y2 - y1) / (x2 - x1)) x1 y1 x2).
    { cbn [ecadd pt]. rewrite HP, HQ. apply radd_chord; auto. }
    assert (HQR : pt (ecadd Q R) = chord ((y3 - y2) / (x3 - x2)) x2 y2 x3).
    { cbn [ecadd pt]. rewrite HQ, HR. apply radd_chord; auto. }
    unfold chord in HPQ, HQR; cbv zeta in HPQ, HQR.
    apply EC_ext.
    change (radd (pt (ecadd P Q)) (pt R) = radd (pt P) (pt (ecadd Q R))).
    pose proof (neq_x _ _ _ _ _ _ HPQ HR N5 N6) as Xa.
    pose proof (neq_x _ _ _ _ _ _ HP HQR N7 N8) as Xb.
    rewrite HPQ, HQR, HP, HR. rewrite !radd_chord by auto.
    apply assoc_generic; auto.
  Qed.

  Lemma assoc_dbl_gen (P R : EC) :
    P <> ec0 -> R <> ec0 -> P <> ecopp P -> P <> R -> P <> ecopp R ->
    ecadd P P <> R -> ecadd P P <> ecopp R -> P <> ecadd P R -> P <> ecopp (ecadd P R) ->
    ecadd (ecadd P P) R = ecadd P (ecadd P R).
  Proof.
    intros P0 R0 N1 N3 N4 N5 N6 N7 N8.
    destruct (aff_cases P) as [?|[x1 [y1 HP]]]; [contradiction|].
    destruct (aff_cases R) as [?|[x3 [y3 HR]]]; [contradiction|].
    assert (X13 : x1 <> x3) by (eapply neq_x; eauto).
    pose proof (pt_ok P) as OP; pose proof (pt_ok R) as OR.
    rewrite HP in OP. rewrite HR in OR. apply on_aff in OP, OR.
    assert (Ny : y1 <> 0).
    { intros E. apply N1. apply EC_ext. cbn. rewrite HP, E. cbn. f_equal. ring. }
    assert (HPP : pt (ecadd P P) = chord ((three * (x1 * x1)) / (two * y1)) x1 y1 x1).
    { cbn [ecadd pt]. rewrite HP. apply radd_tangent; auto. }
    assert (HPR : pt (ecadd P R) = chord ((y3 - y1) / (x3 - x1)) x1 y1 x3).
    { cbn [ecadd pt]. rewrite HP, HR. apply radd_chord; auto. }
    unfold chord in HPP, HPR; cbv zeta in HPP, HPR.
    apply EC_ext.
    change (radd (pt (ecadd P P)) (pt R) = radd (pt P) (pt (ecadd P R))).
    pose proof (neq_x _ _ _ _ _ _ HPP HR N5 N6) as Xa.
    pose proof (neq_x _ _ _ _ _ _ HP HPR N7 N8) as Xb.
    rewrite HPP, HPR, HP, HR. rewrite !radd_chord by auto.
    apply assoc_double; auto.
  Qed.

  Local Infix "+++" := ecadd (at level 50, left associativity).
  Local Notation "~~ P" := (ecopp P) (at level 35, right associativity).

  Lemma ecadd_cancel' P Q : ~~ Q +++ (P +++ Q) = P.
  Proof. rewrite ecadd_comm. apply ecadd_cancel. Qed.
  Lemma ecadd_inj_l P Q Q' : P +++ Q = P +++ Q' -> Q = Q'.
  Proof. rewrite !(ecadd_comm P). apply ecadd_inj_r. Qed.
  Lemma ecopp_inj P Q : ~~ P = ~~ Q -> P = Q.
  Proof. intros H. rewrite <- (ecopp_inv P), H. apply ecopp_inv. Qed.

  (** the easy degenerate cases of associativity *)
  Lemma assoc_negs P Q R :
    P = ec0 \/ Q = ec0 \/ R = ec0 \/ P = ~~ Q \/ Q = ~~ R \/ P +++ Q = ~~ R \/ P = ~~ (Q +++ R) ->
    (P +++ Q) +++ R = P +++ (Q +++ R).
  Proof.
    intros [E|[E|[E|[E|[E|[E|E]]]]]].
    - subst. rewrite !ecadd_0_l; auto.
    - subst. rewrite ecadd_0_l, ecadd_0_r; auto.
    - subst. rewrite !ecadd_0_r; auto.
    - subst. rewrite ecadd_opp_l, ecadd_0_l, (ecadd_comm Q R), ecadd_cancel'. auto.
    - subst. rewrite ecadd_opp_l, ecadd_0_r. apply ecadd_cancel_opp.
    - rewrite E, ecadd_opp_l.
      assert (R = ~~ P +++ ~~ Q) as -> by (rewrite <- ecopp_add, E, ecopp_inv; auto).
      assert (Q +++ (~~ P +++ ~~ Q) = ~~ P) as ->.
      { rewrite ecadd_comm. apply ecadd_cancel_opp. }
      rewrite ecadd_opp_r; auto.
    - rewrite E at 2. rewrite ecadd_opp_l.
      subst P. rewrite ecopp_add, ecadd_comm.
      assert ((~~ Q +++ ~~ R) +++ Q = ~~ R) as ->.
      { rewrite (ecadd_comm (~~ Q)). apply ecadd_cancel_opp. }
      apply ecadd_opp_r.
  Qed.

  (** (P+P)+R = P+(P+R), except when P+P = R *)
  Lemma assoc_dbl_pre P R : P +++ P <> R -> (P +++ P) +++ R = P +++ (P +++ R).
  Proof.
    intros NR.
    destruct (ec_eq_dec P ec0) as [?|P0]; [apply assoc_negs; tauto|].
    destruct (ec_eq_dec R ec0) as [?|R0]; [apply assoc_negs; tauto|].
    destruct (ec_eq_dec P (~~ P)) as [?|N1]; [apply assoc_negs; tauto|].
    destruct (ec_eq_dec P (~~ R)) as [?|N2]; [apply assoc_negs; tauto|].
    destruct (ec_eq_dec (P +++ P) (~~ R)) as [?|N3]; [apply assoc_negs; tauto|].
    destruct (ec_eq_dec P (~~ (P +++ R))) as [?|N4]; [apply assoc_negs; tauto|].
    destruct (ec_eq_dec P R) as [E|N5]; [subst R; apply ecadd_comm|].
    assert (N6 : P <> P +++ R).
    { intros E. apply R0. apply (ecadd_inj_l P). rewrite ecadd_0_r. auto. }
    apply assoc_dbl_gen; auto.
  Qed.

  Lemma assoc_dbl P R : (P +++ P) +++ R = P +++ (P +++ R).
  Proof.
    destruct (ec_eq_dec (P +++ P) R) as [E|N]; [|apply assoc_dbl_pre; auto].
    subst R. set (D := P +++ P).
    (* D + D = P + (P + D) *)
    apply (ecadd_inj_r _ _ (~~ P)).
    rewrite (ecadd_comm P (P +++ D)), ecadd_cancel.
    destruct (ec_eq_dec (D +++ D) (~~ P)) as [E|N].
    - assert (E2 : P +++ D = ~~ D).
      { apply ecopp_inj. rewrite ecopp_inv, ecopp_add.
        rewrite <- E. apply ecadd_cancel. }
      rewrite E, E2. unfold D. rewrite <- ecopp_add; auto.
    - rewrite assoc_dbl_pre by auto.
      unfold D at 2. rewrite ecadd_cancel. apply ecadd_comm.
  Qed.

  Lemma assoc_dbl_r P Q : (P +++ Q) +++ Q = P +++ (Q +++ Q).
  Proof. rewrite (ecadd_comm P (Q +++ Q)), assoc_dbl, (ecadd_comm P Q), ecadd_comm; auto. Qed.

  Lemma double_add P Q : (P +++ Q) +++ (P +++ Q) = (P +++ P) +++ (Q +++ Q).
  Proof.
    set (A := P +++ Q).
    apply (ecadd_inj_r _ _ (~~ (Q +++ Q))). rewrite ecadd_cancel, ecopp_add, <- assoc_dbl_r.
    rewrite assoc_dbl. unfold A at 2. rewrite ecadd_cancel.
    unfold A. rewrite (ecadd_comm P Q), assoc_dbl_r, ecadd_comm.
    rewrite (ecadd_comm Q). apply ecadd_cancel'.
  Qed.

  Lemma assoc_mid P Q R : P +++ Q = R -> (P +++ Q) +++ R = P +++ (Q +++ R).
  Proof.
    intros <-. rewrite double_add, assoc_dbl. f_equal.
    rewrite <- assoc_dbl_r. apply ecadd_comm.
  Qed.

  Theorem ecadd_assoc P Q R : (P +++ Q) +++ R = P +++ (Q +++ R).
  Proof.
    destruct (ec_eq_dec P ec0) as [?|P0]; [apply assoc_negs; tauto|].
    destruct (ec_eq_dec Q ec0) as [?|Q0]; [apply assoc_negs; tauto|].
    destruct (ec_eq_dec R ec0) as [?|R0]; [apply assoc_negs; tauto|].
    destruct (ec_eq_dec P (~~ Q)) as [?|N1]; [apply assoc_negs; tauto|].
    destruct (ec_eq_dec Q (~~ R)) as [?|N2]; [apply assoc_negs; tauto|].
    destruct (ec_eq_dec (P +++ Q) (~~ R)) as [?|N3]; [apply assoc_negs; tauto|].
    destruct (ec_eq_dec P (~~ (Q +++ R))) as [?|N4]; [apply assoc_negs; tauto|].
    destruct (ec_eq_dec P Q) as [E|N5]; [subst; apply assoc_dbl|].
    destruct (ec_eq_dec Q R) as [E|N6]; [subst; apply assoc_dbl_r|].
    destruct (ec_eq_dec (P +++ Q) R) as [E|N7]; [apply assoc_mid; auto|].
    destruct (ec_eq_dec P (Q +++ R)) as [E|N8].
    - rewrite (ecadd_comm (P +++ Q)), (ecadd_comm P Q), (ecadd_comm P (Q +++ R)), (ecadd_comm Q R).
      symmetry. apply assoc_mid. rewrite ecadd_comm; auto.
    - apply assoc_gen; auto.
  Qed.

End Curve.
