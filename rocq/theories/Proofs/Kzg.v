(** The pairing check of the opening. *)
From Coq Require Import ZArith List Bool Field.
From Verif.Base Require Import Fld Fp EC Primes Curves Group.
From Verif.Model Require Import Points.
From Verif.Spec Require Import Dvrf.
From Verif.Proofs Require Import DkgProofs.
Import ListNotations.

Section F.
  Variable K : Fld.
  Add Field kf : (flaw K).
  Open Scope fld_scope.
  Lemma kzg_id (a w s : K) : a * 1 + (w * - s + 0) = 0 <-> a = s * w.
  Proof.
    split; intros H.
    - apply (fsub_eq0 K). transitivity (a * 1 + (w * - s + 0)); [ring|exact H].
    - rewrite H. ring.
  Qed.
  Lemma opp_opp (a : K) : - - a = a. Proof. ring. Qed.
  Lemma inv_unique (a b : K) : a * b = 1 -> finv b = a.
  Proof.
    intros H. assert (B : b <> 0) by (intros ->; apply (f1_neq_0 K); rewrite <- H; ring).
    apply (fmul_cancel_l K b _ _ B). rewrite (mul_comm K b (finv b)), (finv_l K b B), <- H. ring.
  Qed.
End F.

Section Pairing.
  Variable pairing : list (G1 * G2c) -> bool.
  Hypothesis HP : pairing_ok pairing.
  (** e(L, g2) e(W, -s g2) = 1 *)
  Lemma kzg_check (L W : G1) (s : Fr) : pairing [(L, g2); (W, g2mul g2 (fopp s))] = true <-> L = g1mul W s.
  Proof.
    destruct (G1_dlog L) as [a ->]. destruct (G1_dlog W) as [w ->].
    assert (E2 : g2 = g2mul g2 (f1 : Fr)) by reflexivity.
    assert (E : [(g1mul g1 a, g2); (g1mul g1 w, g2mul g2 (fopp s))]
              = map (fun '(a, b) => (g1mul g1 a, g2mul g2 b)) [(a, f1 : Fr); (w, fopp s)]).
    { cbn [map]. rewrite <- E2. reflexivity. }
    rewrite E, HP, feqb_eq. cbn [map]. rewrite !fsum_cons, fsum_nil, <- g1mul_mul. split.
    - intros H. apply -> (kzg_id Fr a w s) in H. rewrite H. reflexivity.
    - intros H. apply g1mul_inj in H; [|exact g1_neq0]. apply (kzg_id Fr a w s). exact H.
  Qed.
End Pairing.
