(** Decimal rendering is injective. *)
From Coq Require Import ZArith List Bool Lia.
From Verif.Model Require Import Evm Strings.
Import ListNotations.
Open Scope Z_scope.

Definition dec (l : bytes) : Z := fold_left (fun a d => a * 10 + (d - 48)) l 0.
Lemma dec_acc l : forall a, fold_left (fun a d => a * 10 + (d - 48)) l a = a * 10 ^ Z.of_nat (length l) + dec l.
Proof.
  unfold dec. induction l as [|d l IH]; intros a; cbn [fold_left length]; [cbn; lia|].
  rewrite IH, (IH (0 * 10 + (d - 48))). rewrite Nat2Z.inj_succ, Z.pow_succ_r by lia. ring.
Qed.
Lemma dec_digits f : forall v acc, 0 <= v < 10 ^ Z.of_nat f -> (f <> 0)%nat ->
  dec (digits f v acc) = v * 10 ^ Z.of_nat (length acc) + dec acc.
Proof.
  induction f as [|f IH]; intros v acc Hv Hf; [congruence|]. cbn [digits].
  assert (Step : dec ((48 + v mod 10) :: acc) = (v mod 10) * 10 ^ Z.of_nat (length acc) + dec acc).
  { unfold dec. cbn [fold_left]. rewrite dec_acc. f_equal. ring_simplify. f_equal. }
  pose proof (Z.div_mod v 10 ltac:(lia)) as D. pose proof (Z.mod_pos_bound v 10 ltac:(lia)) as B.
  destruct (Z.eqb_spec (v / 10) 0) as [Z0|N0].
  - rewrite Step. f_equal. f_equal. lia.
  - rewrite Nat2Z.inj_succ, Z.pow_succ_r in Hv by lia.
    assert (0 <= v / 10 < 10 ^ Z.of_nat f) by (split; [apply Z.div_pos; lia|apply Z.div_lt_upper_bound; lia]).
    assert (f <> 0%nat) by (intros ->; cbn in *; lia).
    rewrite IH by auto. cbn [length]. rewrite Nat2Z.inj_succ, Z.pow_succ_r, Step by lia.
    rewrite D at 3. ring.
Qed.
Lemma to_dec_inj a b : 0 <= a < M256 -> 0 <= b < M256 -> to_dec a = to_dec b -> a = b.
Proof.
  intros Ha Hb H. assert (M256 < 10 ^ Z.of_nat 78) by (unfold M256; reflexivity).
  apply (f_equal dec) in H. unfold to_dec in H. rewrite !dec_digits in H by (try lia; discriminate).
  cbn in H. lia.
Qed.
