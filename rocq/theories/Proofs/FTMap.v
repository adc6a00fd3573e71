(** Fouque-Tibouchi / Wahby-Boneh map for y^2 = x^3 + 3: the algebraic identity behind it. *)
From Coq Require Import Ring Field.
From Verif.Base Require Import Fld EC.

Section FT.
  Variable K : Fld.
  Open Scope fld_scope.
  Add Field KfFT : (flaw K).
  Notation n2 := (1 + 1)%fld.
  Notation n3 := (1 + (1 + 1))%fld.
  Notation n4 := ((1 + 1) * (1 + 1))%fld.
  Variables w c1 t : K.
  Hypothesis H2 : (n2 : K) <> 0.
  Hypothesis H3 : (n3 : K) <> 0.
  Hypothesis Hw : w * w = - n3.
  Hypothesis Hc : c1 + c1 + 1 = w.
  Hypothesis Ht : t <> 0.
  Hypothesis Hr : t * t + n4 <> 0.

  Let r := t * t + n4.
  Let x1 := c1 - w * (t * t / r).
  Let x2 := - (x1 + 1).
  Let m := (n2 * t / r) * (n2 * t / r).
  Let x3 := 1 - r * r / (n3 * (t * t)).
  Definition g (x : K) := x * x * x + n3.

  Lemma c1_root : c1 * c1 + c1 + 1 = 0.
  Proof.
    assert (E : n4 * (c1 * c1 + c1 + 1) = 0).
    { replace (n4 * (c1 * c1 + c1 + 1)) with ((c1 + c1 + 1) * (c1 + c1 + 1) + n3) by ring. rewrite Hc, Hw. ring. }
    apply fmul_eq0 in E as [E|E]; auto. apply fmul_eq0 in E as [E|E]; contradiction.
  Qed.
  Lemma x12 : x1 * x2 = 1 - n3 * m.
  Proof.
    set (tau := t * t / r).
    assert (Em : m = tau * (1 - tau)) by (unfold m, tau, r; field; exact Hr).
    rewrite Em. unfold x2, x1. fold tau.
    transitivity (- (c1 * c1 + c1 + 1) + 1 + w * (c1 + c1 + 1) * tau - w * w * (tau * tau)); [ring|].
    rewrite c1_root, Hc, Hw. ring.
  Qed.
  Lemma g12 : g x1 * g x2 = (1 - n3 * m) * (1 - n3 * m) * (1 - n3 * m) + n3 * n3 * (1 - n3 * m) + n3 * n2.
  Proof. rewrite <- x12. unfold g, x2. ring. Qed.
  Lemma m_neq0 : m <> 0.
  Proof.
    unfold m. assert (n2 * t / r <> 0).
    { rewrite fdiv_def. apply fmul_neq0; [apply fmul_neq0; auto|apply finv_neq0; auto]. }
    apply fmul_neq0; auto.
  Qed.
  Lemma x3_m : x3 = 1 - n4 / (n3 * m).
  Proof.
    unfold x3, m. fold r in Hr. field. repeat split; auto.
  Qed.
  Theorem product_square : exists h : K, h * h = g x1 * g x2 * g x3.
  Proof.
    assert (Hd : n3 * m <> 0) by (apply fmul_neq0; [exact H3|exact m_neq0]).
    exists (n2 * w * (g x1 * g x2) / (n3 * m * (n3 * m)) * (n2 * t / r)).
    assert (Em : (n2 * t / r) * (n2 * t / r) = m) by reflexivity. revert Em. generalize (n2 * t / r). intros q Eq.
    rewrite x3_m, g12. revert Hd. assert (E3 : n3 * (q * q) = n3 * m) by (rewrite Eq; auto). revert E3. generalize (n3 * m). intros d Ed Hd.
    unfold g. set (G := (1 - d) * (1 - d) * (1 - d) + n3 * n3 * (1 - d) + n3 * n2).
    transitivity (- n4 * G * G * (n3 * (q * q)) / (d * d * (d * d))).
    { transitivity (n4 * (w * w) * (G * G) * (q * q) / (d * d * (d * d))); [field; exact Hd|]. rewrite Hw. field; exact Hd. }
    rewrite Ed. unfold G. field. exact Hd.
  Qed.
End FT.

(** small identities, over an arbitrary field *)
Section Ids.
  Variable K : Fld.
  Open Scope fld_scope.
  Add Field KfIds : (flaw K).
  Lemma div_sq (x y : K) : y <> 0 -> (x / y) * (x / y) = (x * x) / (y * y).
  Proof. intros. field. auto. Qed.
  Lemma div_self (x y : K) : y <> 0 -> y * x / y = x.
  Proof. intros. field. auto. Qed.
  Lemma plus4 (t : K) : (1 + 1 : K) <> 0 -> t * t + (1 + 1) * (1 + 1) = 0 -> (t / (1 + 1)) * (t / (1 + 1)) = - (1).
  Proof.
    intros H2 E. rewrite div_sq by auto. assert (E' : t * t = - ((1 + 1) * (1 + 1))) by (apply fsub_eq0; rewrite <- E; ring).
    rewrite E'. revert H2. generalize (1 + 1 : K). intros k Hk. field. auto.
  Qed.
  Lemma inv_unique (a c : K) : a * c = 1 -> c = finv a.
  Proof.
    intros E. assert (a <> 0) by (intros ->; apply (f1_neq_0 K); rewrite <- E; ring).
    apply (fmul_cancel_l K a); auto. rewrite E. symmetry. field. auto.
  Qed.
  Lemma x3_id (t r k c : K) : t <> 0 -> r <> 0 -> k <> 0 -> c = finv k -> 1 - r * (r * r) * finv (t * t * r) * c = 1 - r * r / (k * (t * t)).
  Proof. intros N R Hk ->. field. repeat split; auto. Qed.
  Lemma x1_id (t r c1 c2 : K) : t <> 0 -> r <> 0 -> c1 - c2 * (t * t * (t * t)) * finv (t * t * r) = c1 - c2 * (t * t / r).
  Proof. intros N R. field. split; auto. Qed.
  Lemma cube1 (c : K) : c * c + c + 1 = 0 -> c * c * c = 1.
  Proof. intros R. apply fsub_eq0. transitivity ((c - 1) * (c * c + c + 1)); [ring|]. rewrite R. ring. Qed.
  Lemma x1_0 (c c2 t4 : K) : c * c * c = 1 -> (1 + 1) * (1 + 1) = (c - c2 * t4 * 0) * (c - c2 * t4 * 0) * (c - c2 * t4 * 0) + (1 + (1 + 1)).
  Proof. intros E. transitivity (c * c * c + (1 + (1 + 1))); [rewrite E; ring|ring]. Qed.
  Lemma quot_sq (h y a : K) : y <> 0 -> h * h = y * y * a -> (h / y) * (h / y) = a.
  Proof. intros N E. rewrite div_sq, E by auto. field. auto. Qed.
  Lemma scaled_root (y s a : K) : s * s = 1 -> y * y = a -> (y * s) * (y * s) = a.
  Proof. intros E E'. transitivity ((y * y) * (s * s)); [ring|]. rewrite E, E'. ring. Qed.
  Lemma mul_zero_l (x : K) : 0 * x = 0. Proof. ring. Qed.
  Lemma mul_m1 (y : K) : y * - (1) = - y. Proof. ring. Qed.
  Lemma mul_one_r (y : K) : y * 1 = y. Proof. ring. Qed.
  Lemma m1_sq : (- (1) : K) * - (1) = 1. Proof. ring. Qed.
  Lemma one_sq : (1 : K) * 1 = 1. Proof. ring. Qed.
End Ids.
