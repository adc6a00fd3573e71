(** Commutative groups as a record, integer multiples, prime-order facts (mathematics). *)
From Coq Require Import ZArith Znumtheory List Lia Permutation Bool.
From Verif.Base Require Import Fermat Primes Fld Fp.
Import ListNotations.
Open Scope Z_scope.

Record Grp := {
  gcar :> Type;
  g0 : gcar;
  gadd : gcar -> gcar -> gcar;
  gopp : gcar -> gcar;
  geq_dec : forall x y : gcar, {x = y} + {x <> y};
  gassoc : forall x y z, gadd (gadd x y) z = gadd x (gadd y z);
  gcomm : forall x y, gadd x y = gadd y x;
  g0_l : forall x, gadd g0 x = x;
  gopp_l : forall x, gadd (gopp x) x = g0
}.
Arguments g0 {_}. Arguments gadd {_}. Arguments gopp {_}. Arguments geq_dec {_}.

Declare Scope grp_scope.
Delimit Scope grp_scope with grp.
Infix "⊕" := gadd (at level 50, left associativity) : grp_scope.
Notation "⊖ x" := (gopp x) (at level 35, right associativity) : grp_scope.
Open Scope grp_scope.

Section GroupFacts.
  Variable G : Grp.
  Implicit Types x y z : G.

  Definition geqb x y : bool := if geq_dec x y then true else false.
  Lemma geqb_eq x y : geqb x y = true <-> x = y.
  Proof. unfold geqb; destruct (geq_dec x y); split; congruence. Qed.

  Lemma g0_r x : x ⊕ g0 = x.
  Proof. rewrite gcomm; apply g0_l. Qed.
  Lemma gopp_r x : x ⊕ ⊖ x = g0.
  Proof. rewrite gcomm; apply gopp_l. Qed.
  Lemma gadd_inj_l x y z : x ⊕ y = x ⊕ z -> y = z.
  Proof.
    intros H. rewrite <- (g0_l _ y), <- (g0_l _ z), <- (gopp_l _ x), !gassoc, H. auto.
  Qed.
  Lemma gadd_inj_r x y z : y ⊕ x = z ⊕ x -> y = z.
  Proof. rewrite !(gcomm _ _ x). apply gadd_inj_l. Qed.
  Lemma gopp_unique x y : x ⊕ y = g0 -> y = ⊖ x.
  Proof. intros H. apply (gadd_inj_l x). rewrite H, gopp_r; auto. Qed.
  Lemma gopp_inv x : ⊖ ⊖ x = x.
  Proof. symmetry. apply gopp_unique, gopp_l. Qed.
  Lemma gopp_0 : ⊖ (g0 : G) = g0.
  Proof. symmetry. apply gopp_unique, g0_l. Qed.
  Lemma gswap x y z w : (x ⊕ y) ⊕ (z ⊕ w) = (x ⊕ z) ⊕ (y ⊕ w).
  Proof. rewrite !gassoc. f_equal. rewrite <- !gassoc. f_equal. apply gcomm. Qed.
  Lemma gopp_add x y : ⊖ (x ⊕ y) = ⊖ x ⊕ ⊖ y.
  Proof. symmetry. apply gopp_unique. rewrite gswap, !gopp_r, g0_l; auto. Qed.
  Lemma gsub_eq0 x y : x ⊕ ⊖ y = g0 -> x = y.
  Proof. intros H. apply (gadd_inj_r (⊖ y)). rewrite H, gopp_r; auto. Qed.
  Lemma gsub_add x y : (x ⊕ ⊖ y) ⊕ y = x.
  Proof. rewrite gassoc, gopp_l, g0_r; auto. Qed.

  (** integer multiples, by double-and-add *)
  Fixpoint pmul (n : positive) (x : G) : G :=
    match n with
    | xH => x
    | xO n' => let t := pmul n' x in t ⊕ t
    | xI n' => let t := pmul n' x in x ⊕ (t ⊕ t)
    end.
  Definition zmul (n : Z) (x : G) : G :=
    match n with Z0 => g0 | Zpos p => pmul p x | Zneg p => ⊖ (pmul p x) end.

  Lemma pmul_succ n x : pmul (Pos.succ n) x = x ⊕ pmul n x.
  Proof.
    induction n as [n IH|n IH|]; cbn [Pos.succ pmul]; cbv zeta; auto.
    rewrite IH, !gassoc. f_equal. rewrite gcomm, !gassoc. auto.
  Qed.
  Lemma zmul_0 x : zmul 0 x = g0. Proof. reflexivity. Qed.
  Lemma zmul_1 x : zmul 1 x = x. Proof. reflexivity. Qed.
  Lemma zmul_succ n x : zmul (Z.succ n) x = x ⊕ zmul n x.
  Proof.
    destruct n as [|p|p].
    - cbn. rewrite g0_r; auto.
    - rewrite <- Pos2Z.inj_succ. cbn [zmul]. apply pmul_succ.
    - destruct (Pos.eq_dec p 1) as [->|N]; [cbn; rewrite gopp_r; auto|].
      rewrite <- (Pos.succ_pred p) by auto. set (m := Pos.pred p).
      replace (Z.succ (Z.neg (Pos.succ m))) with (Z.neg m) by lia.
      cbn [zmul]. rewrite pmul_succ, gopp_add, <- gassoc, gopp_r, g0_l. auto.
  Qed.
  Lemma zmul_pred n x : zmul (Z.pred n) x = ⊖ x ⊕ zmul n x.
  Proof.
    rewrite <- (Z.succ_pred n) at 2. rewrite zmul_succ, <- gassoc, gopp_l, g0_l; auto.
  Qed.
  Lemma zmul_add m n x : zmul (m + n) x = zmul m x ⊕ zmul n x.
  Proof.
    induction m as [|m IH|m IH] using Z.peano_ind.
    - rewrite Z.add_0_l, zmul_0, g0_l; auto.
    - rewrite Z.add_succ_l, !zmul_succ, IH, gassoc; auto.
    - rewrite Z.add_pred_l, !zmul_pred, IH, gassoc; auto.
  Qed.
  Lemma zmul_opp n x : zmul (- n) x = ⊖ zmul n x.
  Proof.
    apply gopp_unique. rewrite <- zmul_add. replace (n + - n) with 0 by lia. apply zmul_0.
  Qed.
  Lemma zmul_sub m n x : zmul (m - n) x = zmul m x ⊕ ⊖ zmul n x.
  Proof. rewrite <- Z.add_opp_r, zmul_add, zmul_opp; auto. Qed.
  Lemma zmul_g0 n : zmul n g0 = g0.
  Proof.
    induction n as [|n IH|n IH] using Z.peano_ind; auto.
    - rewrite zmul_succ, IH, g0_l; auto.
    - rewrite zmul_pred, IH, g0_r. apply gopp_0.
  Qed.
  Lemma zmul_gadd n x y : zmul n (x ⊕ y) = zmul n x ⊕ zmul n y.
  Proof.
    induction n as [|n IH|n IH] using Z.peano_ind.
    - rewrite !zmul_0, g0_l; auto.
    - rewrite !zmul_succ, IH. apply gswap.
    - rewrite !zmul_pred, IH, gopp_add. apply gswap.
  Qed.
  Lemma zmul_gopp n x : zmul n (⊖ x) = ⊖ zmul n x.
  Proof. apply gopp_unique. rewrite <- zmul_gadd, gopp_r, zmul_g0; auto. Qed.
  Lemma zmul_mul m n x : zmul (m * n) x = zmul m (zmul n x).
  Proof.
    induction m as [|m IH|m IH] using Z.peano_ind.
    - rewrite Z.mul_0_l, !zmul_0; auto.
    - rewrite Z.mul_succ_l, zmul_succ, zmul_add, IH, gcomm; auto.
    - rewrite Z.mul_pred_l, zmul_pred, zmul_sub, IH, gcomm; auto.
  Qed.
  Lemma zmul_comm m n x : zmul m (zmul n x) = zmul n (zmul m x).
  Proof. rewrite <- !zmul_mul, Z.mul_comm; auto. Qed.

  Lemma zmul_mod m k x : m <> 0 -> zmul m x = g0 -> zmul (k mod m) x = zmul k x.
  Proof.
    intros Hm H. rewrite (Z.div_mod k m) at 2 by auto.
    rewrite zmul_add, Z.mul_comm, zmul_mul, H, zmul_g0, g0_l. auto.
  Qed.

  Lemma zmul_order n x k : prime n -> x <> g0 -> zmul n x = g0 -> zmul k x = g0 -> (n | k).
  Proof.
    intros Hn Hx Hnx Hk. destruct (Zdivide_dec n k) as [D|D]; auto. exfalso. apply Hx.
    destruct (rel_prime_bezout n k (prime_rel_prime n Hn k D)) as [u v E].
    rewrite <- (zmul_1 x), <- E, zmul_add, !zmul_mul, Hnx, Hk, !zmul_g0, g0_l. auto.
  Qed.

  (** sums *)
  Definition gsum (l : list G) : G := fold_right gadd g0 l.
  Lemma gsum_nil : gsum [] = g0. Proof. reflexivity. Qed.
  Lemma gsum_cons a l : gsum (a :: l) = a ⊕ gsum l. Proof. reflexivity. Qed.
  Lemma gsum_app l l' : gsum (l ++ l') = gsum l ⊕ gsum l'.
  Proof. induction l as [|a l IH]; cbn [app]; [rewrite gsum_nil, g0_l; auto|]. rewrite !gsum_cons, IH, gassoc; auto. Qed.
  Lemma gsum_perm l l' : Permutation l l' -> gsum l = gsum l'.
  Proof.
    induction 1 as [|x l l' _ IH|x y l|l l' l'' _ IH1 _ IH2]; rewrite ?gsum_cons; try congruence.
    rewrite <- !gassoc, (gcomm _ y x); auto.
  Qed.
  Lemma fold_left_gadd l a : fold_left gadd l a = a ⊕ gsum l.
  Proof. revert a; induction l as [|b l IH]; intros a; cbn [fold_left]; [rewrite gsum_nil, g0_r; auto|]. rewrite IH, gsum_cons, gassoc; auto. Qed.
  Lemma gsum_map_add {A} (f g : A -> G) l : gsum (map (fun a => f a ⊕ g a) l) = gsum (map f l) ⊕ gsum (map g l).
  Proof.
    induction l as [|a l IH]; cbn [map]; [rewrite !gsum_nil, g0_l; auto|].
    rewrite !gsum_cons, IH. apply gswap.
  Qed.
  Lemma zmul_gsum k l : zmul k (gsum l) = gsum (map (zmul k) l).
  Proof. induction l as [|a l IH]; cbn [map]; [apply zmul_g0|]. rewrite !gsum_cons, zmul_gadd, IH; auto. Qed.
End GroupFacts.

Arguments zmul {_}. Arguments pmul {_}. Arguments gsum {_}. Arguments geqb {_}.

(** A group of prime exponent p is a module over Z/p. *)
Section Scalars.
  Variable G : Grp.
  Variable p : Z.
  Hypothesis Hp : prime p.
  Hypothesis exponent : forall x : G, zmul p x = g0.
  Let K := FpFld p Hp.

  Definition smul (k : Fp p) (x : G) : G := zmul (fval k) x.

  Lemma p_neq0 : p <> 0. Proof. destruct Hp; lia. Qed.

  Lemma zmul_smul k x : zmul k x = smul (of_Z p k) x.
  Proof. unfold smul. rewrite fval_of_Z, zmul_mod; auto using p_neq0. Qed.
  Lemma smul_add (a b : K) x : smul (fadd a b) x = smul a x ⊕ smul b x.
  Proof. unfold smul. cbn. rewrite zmul_mod by auto using p_neq0. apply zmul_add. Qed.
  Lemma smul_mul (a b : K) x : smul (fmul a b) x = smul a (smul b x).
  Proof. unfold smul. cbn. rewrite zmul_mod by auto using p_neq0. apply zmul_mul. Qed.
  Lemma smul_sub (a b : K) x : smul (fsub a b) x = smul a x ⊕ ⊖ smul b x.
  Proof. unfold smul. cbn. rewrite zmul_mod by auto using p_neq0. apply zmul_sub. Qed.
  Lemma smul_opp (a : K) x : smul (fopp a) x = ⊖ smul a x.
  Proof. unfold smul. change (fval (fopp a)) with ((- fval a) mod p). rewrite zmul_mod by auto using p_neq0. apply zmul_opp. Qed.
  Lemma smul_0 x : smul (f0 : K) x = g0.
  Proof. unfold smul. change (fval (f0 : K)) with (0 mod p). rewrite zmul_mod by auto using p_neq0. apply zmul_0. Qed.
  Lemma smul_1 x : smul (f1 : K) x = x.
  Proof. unfold smul. change (fval (f1 : K)) with (1 mod p). rewrite zmul_mod by auto using p_neq0. apply zmul_1. Qed.
  Lemma smul_gadd (a : K) x y : smul a (x ⊕ y) = smul a x ⊕ smul a y.
  Proof. apply zmul_gadd. Qed.
  Lemma smul_gopp (a : K) x : smul a (⊖ x) = ⊖ smul a x.
  Proof. apply zmul_gopp. Qed.
  Lemma smul_g0 (a : K) : smul a g0 = g0.
  Proof. apply zmul_g0. Qed.
  Lemma smul_comm (a b : K) x : smul a (smul b x) = smul b (smul a x).
  Proof. apply zmul_comm. Qed.
  Lemma smul_gsum (a : K) l : smul a (gsum l) = gsum (map (smul a) l).
  Proof. apply zmul_gsum. Qed.
  Lemma gsum_smul {A} (f : A -> K) l x : gsum (map (fun a => smul (f a) x) l) = smul (fsum (map f l)) x.
  Proof.
    induction l as [|a l IH]; cbn [map]; [rewrite gsum_nil; symmetry; apply smul_0|].
    rewrite gsum_cons, fsum_cons, IH, <- smul_add. auto.
  Qed.
  Lemma smul_eq0 (a : K) x : x <> g0 -> smul a x = g0 -> a = f0.
  Proof.
    intros Hx H. apply Fp_ext. pose proof (zmul_order G p x (fval a) Hp Hx (exponent x) H) as D.
    change (fval (f0 : K)) with (0 mod p). rewrite Zmod_0_l, <- fval_mod. apply Z.mod_divide; auto using p_neq0.
  Qed.
  Lemma smul_inj (a b : K) x : x <> g0 -> smul a x = smul b x -> a = b.
  Proof.
    intros Hx H. apply fsub_eq0. apply (smul_eq0 _ x); auto. rewrite smul_sub, H, gopp_r. auto.
  Qed.
  Lemma smul_inj_pt (a : K) x y : a <> f0 -> smul a x = smul a y -> x = y.
  Proof.
    intros Ha H. rewrite <- (smul_1 x), <- (smul_1 y), <- (finv_l K a Ha), !smul_mul, H. auto.
  Qed.
End Scalars.
Arguments smul {_ _}.
