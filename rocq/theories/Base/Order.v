(** Counting points: a curve over Z/p with a point of prime order n, 2p+1 < 3n, and no 2-torsion is
    cyclic of order n (mathematics). *)
From Coq Require Import ZArith Znumtheory List Lia Bool Permutation Ring Field.
From Verif.Base Require Import Fermat Pocklington Fld Fp EC Group.
Import ListNotations.
Open Scope Z_scope.

Lemma find_collision {A B} (decB : forall x y : B, {x = y} + {x <> y}) (f : A -> B) (l : list A) :
  NoDup l -> NoDup (map f l) \/ exists x y, In x l /\ In y l /\ x <> y /\ f x = f y.
Proof.
  induction l as [|a l IH]; intros Hnd; [left; constructor|].
  inversion Hnd as [|a' l' Hnin Hnd']; subst.
  destruct (IH Hnd') as [H|[x [y [Hx [Hy [N E]]]]]].
  - destruct (in_dec decB (f a) (map f l)) as [Y|No].
    + apply in_map_iff in Y as [y [E Hy]]. right. exists a, y. repeat split; auto; [left; auto|right; auto|].
      intros ->; contradiction.
    + left. cbn. constructor; auto.
  - right. exists x, y. repeat split; auto; right; auto.
Qed.

Definition ECgrp (K : Fld) (b : K) (two_neq0 : two K <> f0) (three_neq0 : three K <> f0) (b_neq0 : b <> f0) : Grp := {|
    gcar := EC K b; g0 := ec0 K b; gadd := ecadd K b two_neq0; gopp := ecopp K b; geq_dec := ec_eq_dec K b;
    gassoc := ecadd_assoc K b two_neq0 three_neq0 b_neq0; gcomm := ecadd_comm K b two_neq0;
    g0_l := ecadd_0_l K b two_neq0; gopp_l := ecadd_opp_l K b two_neq0 |}.

Section Count.
  Variable p : Z.
  Hypothesis Hp : prime p.
  Hypothesis p_odd : p mod 2 = 1.
  Let K := FpFld p Hp.
  Variable b : K.
  Hypothesis two_neq0 : two K <> f0.
  Hypothesis three_neq0 : three K <> f0.
  Hypothesis b_neq0 : b <> f0.

  Let ECg : Grp := ECgrp K b two_neq0 three_neq0 b_neq0.

  Definition code (P : EC K b) : Z :=
    match pt K b P with
    | Inf _ => 0
    | Aff _ x y => 1 + 2 * fval (x : Fp p) + (if p <? 2 * fval (y : Fp p) then 1 else 0)
    end.

  Lemma p_gt1 : 1 < p. Proof. destruct Hp; auto. Qed.

  Lemma code_range P : 0 <= code P <= 2 * p.
  Proof.
    unfold code. pose proof p_gt1. destruct (pt K b P) as [|x y]; [lia|].
    pose proof (fval_range p x ltac:(lia)). destruct (p <? _); lia.
  Qed.

  Lemma code_inj P Q : code P = code Q -> P = Q.
  Proof.
    intros H. apply EC_ext. unfold code in H. pose proof p_gt1.
    pose proof (pt_ok K b P) as OP. pose proof (pt_ok K b Q) as OQ.
    destruct (pt K b P) as [|x y], (pt K b Q) as [|x' y']; auto.
    - pose proof (fval_range p x' ltac:(lia)). destruct (p <? _) in H; lia.
    - pose proof (fval_range p x ltac:(lia)). destruct (p <? _) in H; lia.
    - assert (Ex : fval (x : Fp p) = fval (x' : Fp p)).
      { destruct (p <? 2 * fval y) in H; destruct (p <? 2 * fval y') in H; lia. }
      apply Fp_ext in Ex. subst x'. f_equal.
      apply (on_aff K b) in OP, OQ. rewrite <- OQ in OP. apply fsq_eq in OP as [E|E]; auto.
      rewrite E in H. apply Fp_ext.
      assert (Hy : fval (y : Fp p) = (- fval (y' : Fp p)) mod p) by (rewrite E; reflexivity).
      rewrite <- E in H. clear E.
      pose proof (fval_range p y' ltac:(lia)).
      destruct (Z.eq_dec (fval (y' : Fp p)) 0) as [E0|N0]; [rewrite E0 in *; rewrite Hy; apply Zmod_0_l|].
      rewrite Z_mod_nz_opp_full in Hy by (rewrite Z.mod_small; lia).
      rewrite Z.mod_small in Hy by lia.
      assert (Hsame : (p <? 2 * fval (y : Fp p)) = (p <? 2 * fval (y' : Fp p))).
      { destruct (p <? 2 * fval y), (p <? 2 * fval y'); auto; lia. }
      pose proof (Z.div_mod p 2 ltac:(lia)).
      destruct (Z.ltb_spec p (2 * fval (y : Fp p))), (Z.ltb_spec p (2 * fval (y' : Fp p))); try discriminate; lia.
  Qed.

  Lemma NoDup_points_bound (l : list (EC K b)) : NoDup l -> Z.of_nat (length l) <= 2 * p + 1.
  Proof.
    intros Hnd. pose proof p_gt1.
    assert (H1 : NoDup (map (fun P => 1 + code P) l)).
    { apply NoDup_map_inj; auto. intros x y _ _ E. apply code_inj. lia. }
    pose proof (NoDup_incl_length H1 (l' := zseq (Z.to_nat (2 * p + 1)))) as H2.
    rewrite map_length, length_zseq in H2.
    enough (length l <= Z.to_nat (2 * p + 1))%nat by lia. apply H2.
    intros z Hz. apply in_map_iff in Hz as [P [<- _]]. apply in_zseq. pose proof (code_range P). lia.
  Qed.

  Variable n : Z.
  Hypothesis Hn : prime n.
  Hypothesis n_odd : n mod 2 = 1.
  Hypothesis count : 2 * p + 1 < 3 * n.
  Variable g : ECg.
  Hypothesis g_neq0 : g <> g0.
  Hypothesis g_order : zmul n g = g0.
  Hypothesis no_2_torsion : forall P : ECg, (P ⊕ P)%grp = g0 -> P = g0.

  Lemma half_ok k : exists h, zmul k g = (zmul h g ⊕ zmul h g)%grp.
  Proof.
    destruct (Z.eq_dec (k mod 2) 0) as [E|N].
    - exists (k / 2). rewrite <- zmul_add. f_equal. pose proof (Z.div_mod k 2 ltac:(lia)). lia.
    - exists ((k + n) / 2). rewrite <- zmul_add.
      assert (E : (k + n) / 2 + (k + n) / 2 = k + n).
      { pose proof (Z.mod_pos_bound k 2 ltac:(lia)).
        assert ((k + n) mod 2 = 0).
        { rewrite Zplus_mod, n_odd. replace (k mod 2) with 1 by lia. reflexivity. }
        pose proof (Z.div_mod (k + n) 2 ltac:(lia)). lia. }
      rewrite E, zmul_add, g_order, g0_r. auto.
  Qed.

  Theorem cyclic (P : ECg) : exists k, 0 <= k < n /\ P = zmul k g.
  Proof.
    pose proof Hn as [Hn1 _].
    enough (exists k, P = zmul k g) as [k Hk].
    { exists (k mod n). split; [apply Z.mod_pos_bound; lia|]. rewrite zmul_mod by (auto; lia). auto. }
    set (idx := zseq (Z.to_nat (3 * n))).
    set (f := fun i => (zmul ((i - 1) mod n) g ⊕ zmul ((i - 1) / n) P)%grp : ECg).
    assert (Hidx : NoDup idx) by apply NoDup_zseq.
    destruct (find_collision (@geq_dec ECg) f idx Hidx) as [Hnd|[x [y [Hx [Hy [N E]]]]]].
    - exfalso. pose proof (NoDup_points_bound _ Hnd) as B.
      unfold idx in B. rewrite map_length, length_zseq in B. lia.
    - apply in_zseq in Hx, Hy. unfold f in E.
      pose proof (Z.mod_pos_bound (x - 1) n ltac:(lia)) as Ha. pose proof (Z.mod_pos_bound (y - 1) n ltac:(lia)) as Ha'.
      pose proof (Z.div_mod (x - 1) n ltac:(lia)) as Dx. pose proof (Z.div_mod (y - 1) n ltac:(lia)) as Dy.
      set (a := (x - 1) mod n) in *. set (a' := (y - 1) mod n) in *.
      set (j := (x - 1) / n) in *. set (j' := (y - 1) / n) in *.
      assert (Hj : 0 <= j <= 2) by nia. assert (Hj' : 0 <= j' <= 2) by nia.
      assert (E2 : zmul (a - a') g = zmul (j' - j) P).
      { rewrite !zmul_sub. apply (gadd_inj_r ECg (zmul a' g ⊕ zmul j P)%grp).
        rewrite (gcomm ECg (zmul a' g)) at 1. rewrite gassoc, <- (gassoc _ (⊖ _)%grp (zmul j P)), (gcomm ECg (⊖ _)%grp (zmul j P)), !gassoc, gopp_l, g0_r.
        rewrite E. rewrite (gcomm ECg (zmul a' g) (zmul j P)), <- (gassoc _ (⊖ _)%grp), gopp_l, g0_l, gcomm. auto. }
      assert (Hd : j' - j = 0 \/ j' - j = 1 \/ j' - j = -1 \/ j' - j = 2 \/ j' - j = -2).
      { lia. }
      destruct Hd as [Hd|[Hd|[Hd|[Hd|Hd]]]]; rewrite Hd in E2.
      + exfalso. rewrite zmul_0 in E2.
        pose proof (zmul_order ECg n g (a - a') Hn g_neq0 g_order E2) as [k Hk].
        assert (k = 0) by nia. apply N. nia.
      + exists (a - a'). rewrite E2. reflexivity.
      + exists (a' - a). replace (a' - a) with (- (a - a')) by lia. rewrite zmul_opp, E2, <- zmul_opp. reflexivity.
      + destruct (half_ok (a - a')) as [h Hh]. exists h.
        apply (gsub_eq0 ECg), no_2_torsion. rewrite gswap, <- gopp_add, <- Hh, E2. rewrite <- zmul_opp.
        change (P ⊕ P)%grp with (zmul 2 P). rewrite <- zmul_add. reflexivity.
      + destruct (half_ok (a' - a)) as [h Hh]. exists h.
        apply (gsub_eq0 ECg), no_2_torsion. rewrite gswap, <- gopp_add, <- Hh.
        replace (a' - a) with (- (a - a')) by lia. rewrite zmul_opp, E2, gopp_inv.
        change (P ⊕ P)%grp with (zmul 2 P). rewrite <- zmul_add. reflexivity.
  Qed.

  Theorem exponent_n (P : ECg) : zmul n P = g0.
  Proof. destruct (cyclic P) as [k [_ ->]]. rewrite zmul_comm, g_order, zmul_g0. auto. Qed.
End Count.

(** Certified double-and-add: each step carries the slope, so that no inversion is needed. *)
Section Chain.
  Variable K : Fld.
  Variable b : K.
  Hypothesis two_neq0 : two K <> f0.
  Hypothesis three_neq0 : three K <> f0.
  Hypothesis b_neq0 : b <> f0.
  Let E : Grp := ECgrp K b two_neq0 three_neq0 b_neq0.
  Open Scope fld_scope.
  Add Field KfC : (flaw K).

  (** a step is (double? , slope) *)
  Fixpoint chain (gx gy x y : K) (steps : list (bool * K)) : option (K * K) :=
    match steps with
    | [] => Some (x, y)
    | (true, l) :: t =>
        if feq_dec y 0 then None
        else if feq_dec (l * (two K * y)) (three K * (x * x)) then
          let x3 := l * l - x - x in let y3 := l * (x - x3) - y in chain gx gy x3 y3 t
        else None
    | (false, l) :: t =>
        if feq_dec x gx then None
        else if feq_dec (l * (gx - x)) (gy - y) then
          let x3 := l * l - x - gx in let y3 := l * (x - x3) - y in chain gx gy x3 y3 t
        else None
    end.

  Fixpoint chain_val (n : Z) (steps : list (bool * K)) : Z :=
    match steps with
    | [] => n
    | (true, _) :: t => chain_val (2 * n)%Z t
    | (false, _) :: t => chain_val (n + 1)%Z t
    end.

  Lemma chain_ok gx gy (g : E) : pt K b g = Aff K gx gy ->
    forall steps x y X Y n, pt K b (zmul n g : E) = Aff K x y -> chain gx gy x y steps = Some (X, Y) ->
      pt K b (zmul (chain_val n steps) g : E) = Aff K X Y.
  Proof.
    intros Hg. induction steps as [|[[|] l] t IH]; intros x y X Y n Hn H; cbn [chain chain_val] in *.
    - congruence.
    - destruct (feq_dec y 0) as [|Ny]; [discriminate|].
      destruct (feq_dec (l * (two K * y)) (three K * (x * x))) as [El|]; [|discriminate].
      cbv zeta in H. revert H. apply IH.
      replace (2 * n)%Z with (n + n)%Z by lia. rewrite zmul_add.
      change (radd K (pt K b (zmul n g : E)) (pt K b (zmul n g : E)) = Aff K (l * l - x - x) (l * (x - (l * l - x - x)) - y)).
      rewrite Hn, radd_tangent; auto. rewrite <- El.
      assert (E1 : l * (two K * y) / (two K * y) = l).
      { field. split; auto. }
      rewrite E1. reflexivity.
    - destruct (feq_dec x gx) as [|Nx]; [discriminate|].
      destruct (feq_dec (l * (gx - x)) (gy - y)) as [El|]; [|discriminate].
      cbv zeta in H. revert H. apply IH.
      rewrite zmul_add, zmul_1.
      change (radd K (pt K b (zmul n g : E)) (pt K b g) = Aff K (l * l - x - gx) (l * (x - (l * l - x - gx)) - y)).
      rewrite Hn, Hg, radd_chord; auto. rewrite <- El.
      assert (D : gx - x <> 0) by (apply fsub_neq0; auto).
      assert (E1 : l * (gx - x) / (gx - x) = l) by (field; auto).
      rewrite E1. reflexivity.
  Qed.

  Lemma chain_order gx gy (g : E) steps n : pt K b g = Aff K gx gy ->
    chain gx gy gx gy steps = Some (gx, - gy) -> chain_val 1 steps = (n - 1)%Z -> zmul n g = g0.
  Proof.
    intros Hg H Hv. pose proof (chain_ok gx gy g Hg steps gx gy gx (- gy) 1%Z Hg H) as H1.
    rewrite Hv in H1. replace n with ((n - 1) + 1)%Z by lia. rewrite zmul_add, zmul_1.
    assert (E1 : zmul (n - 1) g = gopp g).
    { apply EC_ext. rewrite H1. cbn. rewrite Hg. reflexivity. }
    rewrite E1. apply gopp_l.
  Qed.
End Chain.
