(** Integer checkers for the double-and-add certificates of CurveCerts.v (mathematics). A step (d, l, x3, y3, k1, k2, k3) claims the
    tangent/chord slope l and the next point (x3, y3) by integer equations; the k's are the multiples of the modulus. *)
From Coq Require Import ZArith Znumtheory List Lia Bool Ring Field.
From Verif.Base Require Import Fermat Bignum Pocklington Primes Fld Fp EC Group Order Fq2.
Import ListNotations.
Open Scope Z_scope.

Lemma of_Z_shift p a b k : a = b + k * p -> of_Z p a = of_Z p b.
Proof. intros ->. apply of_Z_eq. apply Z_mod_plus_full. Qed.
Lemma of_Z_neq p a b : 0 <= a < p -> 0 <= b < p -> a <> b -> of_Z p a <> of_Z p b.
Proof. intros Ha Hb N E. apply of_Z_inj_mod in E. rewrite !Z.mod_small in E by lia. auto. Qed.

Section Prime.
  Variable p : Z.
  Hypothesis Hp : prime p.
  Let K := FpFld p Hp.
  Notation "[ a ]" := (of_Z p a : K).

  Definition zstep := (bool * Z * Z * Z * Z * Z * Z)%type.
  Fixpoint zchain (gx gy x y : Z) (st : list zstep) : option (Z * Z) :=
    match st with
    | [] => Some (x, y)
    | (d, l, x3, y3, k1, k2, k3) :: t =>
      if (if d : bool then (0 <? y) && (y <? p) && (zmulw l (2 * y) =? 3 * zmulw x x + zmulw k1 p)
          else (0 <=? x) && (x <? p) && negb (x =? gx) && (zmulw l (gx - x) =? gy - y + zmulw k1 p))
         && (zmulw l l - x - (if d then x else gx) =? x3 + zmulw k2 p) && (zmulw l (x - x3) - y =? y3 + zmulw k3 p)
      then zchain gx gy x3 y3 t else None
    end.
  Definition zslopes (st : list zstep) : list (bool * K) := map (fun '(d, l, _, _, _, _, _) => (d, [l])) st.
  Fixpoint zval (n : Z) (st : list zstep) : Z :=
    match st with [] => n | (d, _, _, _, _, _, _) :: t => zval (if d : bool then 2 * n else n + 1) t end.
  Lemma zval_ok st : forall n, chain_val K n (zslopes st) = zval n st.
  Proof. induction st as [|[[[[[[[|] l] x3] y3] k1] k2] k3] t IH]; intros n; cbn; auto. Qed.

  Lemma zchain_ok gx gy : 0 <= gx < p -> forall st x y X Y, zchain gx gy x y st = Some (X, Y) ->
    chain K [gx] [gy] [x] [y] (zslopes st) = Some ([X], [Y]).
  Proof.
    intros Hg. induction st as [|[[[[[[d l] x3] y3] k1] k2] k3] t IH]; intros x y X Y H; cbn [zchain zslopes map chain] in *.
    - congruence.
    - destruct (_ && _) eqn:Q in H; [|discriminate]. apply IH in H. clear IH. fold (zslopes t).
      apply andb_prop in Q as [Q Q3]. apply andb_prop in Q as [Q Q2].
      apply Z.eqb_eq in Q2, Q3. rewrite !zmulw_ok in Q2, Q3. apply of_Z_shift in Q2, Q3.
      destruct d.
      + apply andb_prop in Q as [Q Q1]. apply andb_prop in Q as [Qa Qb]. apply Z.ltb_lt in Qa, Qb. apply Z.eqb_eq in Q1.
        rewrite !zmulw_ok in Q1. apply of_Z_shift in Q1.
        destruct (feq_dec _ _) as [E|_]; [exfalso; revert E; apply of_Z_neq; lia|].
        destruct (feq_dec _ _) as [_|N].
        2: { exfalso. apply N. rewrite !of_Z_mul in Q1.
             assert (E2 : two K = [2]) by (symmetry; apply (of_Z_add p 1 1)).
             assert (E3 : three K = [3]) by (unfold three; change (1 + 1)%fld with (two K); rewrite E2; symmetry; apply (of_Z_add p 1 2)).
             rewrite E2, E3.
             exact Q1. }
        rewrite <- H. rewrite <- Q2, <- Q3, !of_Z_sub, !of_Z_mul, !of_Z_sub, <- Q2, !of_Z_sub, !of_Z_mul. reflexivity.
      + apply andb_prop in Q as [Q Q1]. apply andb_prop in Q as [Q Qc]. apply andb_prop in Q as [Qa Qb].
        apply Z.leb_le in Qa. apply Z.ltb_lt in Qb. apply negb_true_iff, Z.eqb_neq in Qc. apply Z.eqb_eq in Q1.
        rewrite !zmulw_ok in Q1. apply of_Z_shift in Q1.
        destruct (feq_dec _ _) as [E|_]; [exfalso; revert E; apply of_Z_neq; lia|].
        destruct (feq_dec _ _) as [_|N].
        2: { exfalso. apply N. rewrite !of_Z_mul, !of_Z_sub in Q1. exact Q1. }
        rewrite <- H. rewrite <- Q2, <- Q3, !of_Z_sub, !of_Z_mul, !of_Z_sub, <- Q2, !of_Z_sub, !of_Z_mul. reflexivity.
  Qed.
End Prime.

(** the same over the quadratic extension, elements are pairs (c0, c1) = c0 + c1 u *)
Section Ext2.
  Variable p : Z.
  Hypothesis Hp : prime p.
  Variable no_i : forall x : FpFld p Hp, (x * x <> - (1))%fld.
  Let K := Ext (FpFld p Hp) no_i.
  Definition z2 := (Z * Z)%type.
  Definition emb (a : z2) : K := (of_Z p (fst a), of_Z p (snd a)).
  Definition z2mul (a b : z2) : z2 :=
    let m0 := zmulw (fst a) (fst b) in let m1 := zmulw (snd a) (snd b) in
    (m0 - m1, zmulw (fst a + snd a) (fst b + snd b) - m0 - m1).
  Definition z2sq (a : z2) : z2 := (zmulw (fst a - snd a) (fst a + snd a), 2 * zmulw (fst a) (snd a)).
  Definition z2sub (a b : z2) : z2 := (fst a - fst b, snd a - snd b).
  Definition z2scale (k : Z) (a : z2) : z2 := (k * fst a, k * snd a).
  Definition z2cong (a b k : z2) : bool := (fst a =? fst b + zmulw (fst k) p) && (snd a =? snd b + zmulw (snd k) p).

  Lemma emb_ext (a b c d : FpFld p Hp) : a = b -> c = d -> (a, c) = (b, d) :> K.
  Proof. intros -> ->. reflexivity. Qed.
  Lemma emb_mul a b : emb (z2mul a b) = (emb a * emb b)%fld.
  Proof.
    unfold emb, z2mul; cbn [fst snd]. rewrite !zmulw_ok. apply emb_ext.
    - rewrite of_Z_sub, !of_Z_mul. reflexivity.
    - transitivity (of_Z p (fst a * snd b + snd a * fst b)); [f_equal; ring|]. rewrite of_Z_add, !of_Z_mul. reflexivity.
  Qed.
  Lemma emb_sq a : emb (z2sq a) = (emb a * emb a)%fld.
  Proof.
    rewrite <- emb_mul. unfold emb, z2sq, z2mul; cbn [fst snd]. rewrite !zmulw_ok. apply emb_ext; f_equal; ring.
  Qed.
  Lemma emb_sub a b : emb (z2sub a b) = (emb a - emb b)%fld.
  Proof. unfold emb, z2sub; cbn [fst snd]. apply emb_ext; rewrite of_Z_sub; reflexivity. Qed.
  Lemma emb_two a : emb (z2scale 2 a) = (two K * emb a)%fld.
  Proof.
    transitivity (emb (z2mul (2, 0) a)).
    - unfold emb, z2scale, z2mul; cbn [fst snd]. rewrite !zmulw_ok. apply emb_ext; f_equal; ring.
    - rewrite emb_mul. f_equal. apply emb_ext; [exact (of_Z_add p 1 1)|exact (of_Z_add p 0 0)].
  Qed.
  Lemma emb_three a : emb (z2scale 3 a) = (three K * emb a)%fld.
  Proof.
    transitivity (emb (z2mul (3, 0) a)).
    - unfold emb, z2scale, z2mul; cbn [fst snd]. rewrite !zmulw_ok. apply emb_ext; f_equal; ring.
    - rewrite emb_mul. f_equal. apply emb_ext; cbn [fst snd].
      + etransitivity; [exact (of_Z_add p 1 2)|]. change (Fp_add (of_Z p 1) (of_Z p 2) = Fp_add (of_Z p 1) (Fp_add (of_Z p 1) (of_Z p 1))).
        rewrite <- (of_Z_add p 1 1). reflexivity.
      + etransitivity; [exact (of_Z_add p 0 0)|]. change (Fp_add (of_Z p 0) (of_Z p 0) = Fp_add (of_Z p 0) (Fp_add (of_Z p 0) (of_Z p 0))).
        rewrite <- (of_Z_add p 0 0). reflexivity.
  Qed.
  Lemma emb_cong a b k : z2cong a b k = true -> emb a = emb b.
  Proof.
    unfold z2cong, emb. intros H. apply andb_prop in H as [H1 H2]. apply Z.eqb_eq in H1, H2. rewrite zmulw_ok in H1, H2.
    apply of_Z_shift in H1, H2. rewrite H1, H2. reflexivity.
  Qed.
  Definition inr (a : z2) : bool := (0 <=? fst a) && (fst a <? p) && (0 <=? snd a) && (snd a <? p).
  Definition z2eqb (a b : z2) : bool := (fst a =? fst b) && (snd a =? snd b).
  Lemma emb_neq a b : inr a = true -> inr b = true -> z2eqb a b = false -> emb a <> emb b.
  Proof.
    unfold inr, z2eqb, emb. destruct a as [a0 a1], b as [c0 c1]; cbn [fst snd]. intros Ha Hb N E.
    repeat (apply andb_prop in Ha as [Ha ?]). repeat (apply andb_prop in Hb as [Hb ?]).
    repeat match goal with H : (_ <=? _) = true |- _ => apply Z.leb_le in H | H : (_ <? _) = true |- _ => apply Z.ltb_lt in H end.
    injection E as E0 E1. rewrite !Z.mod_small in E0, E1 by lia. subst. rewrite !Z.eqb_refl in N. discriminate.
  Qed.

  Definition z2step := (bool * z2 * z2 * z2 * z2 * z2 * z2)%type.
  Fixpoint z2chain (gx gy x y : z2) (st : list z2step) : option (z2 * z2) :=
    match st with
    | [] => Some (x, y)
    | (d, l, x3, y3, k1, k2, k3) :: t =>
      if (if d : bool then inr y && negb (z2eqb y (0, 0)) && z2cong (z2mul l (z2scale 2 y)) (z2scale 3 (z2sq x)) k1
          else inr x && negb (z2eqb x gx) && z2cong (z2mul l (z2sub gx x)) (z2sub gy y) k1)
         && z2cong (z2sub (z2sub (z2sq l) x) (if d then x else gx)) x3 k2 && z2cong (z2sub (z2mul l (z2sub x x3)) y) y3 k3
      then z2chain gx gy x3 y3 t else None
    end.
  Definition z2slopes (st : list z2step) : list (bool * K) := map (fun '(d, l, _, _, _, _, _) => (d, emb l)) st.
  Fixpoint z2val (n : Z) (st : list z2step) : Z :=
    match st with [] => n | (d, _, _, _, _, _, _) :: t => z2val (if d : bool then 2 * n else n + 1) t end.
  Lemma z2val_ok st : forall n, chain_val K n (z2slopes st) = z2val n st.
  Proof. induction st as [|[[[[[[[|] l] x3] y3] k1] k2] k3] t IH]; intros n; cbn; auto. Qed.

  Lemma z2chain_ok gx gy : inr gx = true -> inr (0, 0) = true -> forall st x y X Y, z2chain gx gy x y st = Some (X, Y) ->
    chain K (emb gx) (emb gy) (emb x) (emb y) (z2slopes st) = Some (emb X, emb Y).
  Proof.
    intros Hg H0. induction st as [|[[[[[[d l] x3] y3] k1] k2] k3] t IH]; intros x y X Y H; cbn [z2chain z2slopes map chain] in *.
    - congruence.
    - destruct (_ && _) eqn:Q in H; [|discriminate]. apply IH in H. clear IH. fold (z2slopes t).
      apply andb_prop in Q as [Q Q3]. apply andb_prop in Q as [Q Q2].
      apply emb_cong in Q2, Q3. rewrite !emb_sub, !emb_sq in Q2. rewrite !emb_sub, !emb_mul, emb_sub in Q3.
      destruct d.
      + apply andb_prop in Q as [Q Q1]. apply andb_prop in Q as [Qa Qb]. apply negb_true_iff in Qb.
        apply emb_cong in Q1. rewrite emb_mul, emb_two, emb_three, emb_sq in Q1.
        destruct (feq_dec _ _) as [E|_]; [exfalso; revert E; apply (emb_neq y (0, 0)); auto|].
        destruct (feq_dec _ _) as [_|N]; [|exfalso; apply N; exact Q1].
        rewrite <- H. rewrite <- Q3, <- Q2. reflexivity.
      + apply andb_prop in Q as [Q Q1]. apply andb_prop in Q as [Qa Qb]. apply negb_true_iff in Qb.
        apply emb_cong in Q1. rewrite emb_mul, !emb_sub in Q1.
        destruct (feq_dec _ _) as [E|_]; [exfalso; revert E; apply (emb_neq x gx); auto|].
        destruct (feq_dec _ _) as [_|N]; [|exfalso; apply N; exact Q1].
        rewrite <- H. rewrite <- Q3, <- Q2. reflexivity.
  Qed.
End Ext2.
