(** Numbers as the services print and compare them. *)
From Coq Require Import ZArith List Bool Lia Arith.
From Verif.Base Require Import Fld Fp EC Primes Curves Group Fermat.
From Verif.Model Require Import Monad Evm Strings Points HashEvm Dkg Lib Serialise Files Cache Client Zkdvrf PairingSol Services.
From Verif.Spec Require Import Serial.
From Verif.Proofs Require Import BytesProofs SerialProofs DecimalProofs.
Import ListNotations.
Open Scope Z_scope.

Lemma be_range n x : Forall (fun b => 0 <= b < 256) (be_bytes n x).
Proof.
  revert x. induction n as [|n IH]; intros x; cbn [be_bytes]; [constructor|]. apply Forall_app. split; [apply IH|]. constructor; [|constructor]. apply Z.mod_pos_bound. lia.
Qed.
Lemma log_bytes x : 0 <= x -> x < 256 ^ Z.of_nat (Z.to_nat (Z.log2 x / 8 + 1)).
Proof.
  intros H. destruct (Z.eq_dec x 0) as [->|N]; [vm_compute; reflexivity|]. pose proof (Z.log2_spec x ltac:(lia)) as [_ L]. pose proof (Z.log2_nonneg x) as G.
  assert (0 <= Z.log2 x / 8) by (apply Z.div_pos; lia). rewrite Z2Nat.id by lia. eapply Z.lt_le_trans; [exact L|].
  change 256 with (2 ^ 8). rewrite <- Z.pow_mul_r by lia. apply Z.pow_le_mono_r; [lia|]. pose proof (Z.div_mod (Z.log2 x) 8 ltac:(lia)). pose proof (Z.mod_pos_bound (Z.log2 x) 8 ltac:(lia)). lia.
Qed.
Lemma hex_text_denotes x : 0 <= x < 2 ^ 256 -> denotes (to_hex_string x) x.
Proof.
  intros H. unfold to_hex_string. set (n := Z.to_nat (Z.log2 x / 8 + 1)).
  assert (Ln : (n <= 32)%nat).
  { unfold n. destruct (Z.eq_dec x 0) as [->|N]; [vm_compute; lia|]. assert (Z.log2 x < 256) by (apply Z.log2_lt_pow2; lia). assert (Z.log2 x / 8 < 32) by (apply Z.div_lt_upper_bound; lia). lia. }
  pose proof (hex_encode_decode (be_bytes n x) (be_range n x)) as D. destruct (hex_decode_sound _ _ D) as (ds & F & L & N & _). rewrite length_be in L.
  exists (hex_encode (be_bytes n x)). split; [right; reflexivity|]. split; [exists n; exact L|]. split; [lia|]. exists ds. split; [exact F|].
  rewrite N, of_be_be by lia. symmetry. apply Z.mod_small. split; [lia|]. apply log_bytes. lia.
Qed.
Lemma read_text p x : 0 < p -> 0 <= x < p -> p <= 2 ^ 256 -> read_field p (to_hex_string x) = Ok (of_Z p x).
Proof.
  intros Hp H Hb. apply read_field_spec; [exact Hp|]. rewrite fval_of_Z, Z.mod_small by lia. apply hex_text_denotes. lia.
Qed.
Lemma read_text_fail p x : 0 < p -> p <= x < 2 ^ 256 -> exists m, read_field p (to_hex_string x) = Panic m.
Proof.
  intros Hp H. destruct (read_field_total p (to_hex_string x)) as [[a A]|?]; [|assumption]. apply read_field_spec in A; [|exact Hp].
  pose proof (denotes_fun _ _ _ A (hex_text_denotes x ltac:(lia))) as X. pose proof (fval_range p a Hp). lia.
Qed.

Lemma hex_digits_number s ds : Forall2 digit_of s ds -> forall a, hex_digits a s = Some (a * 16 ^ Z.of_nat (length ds) + number 16 ds).
Proof.
  induction 1 as [|d x s ds D F IH]; intros a; [cbn [hex_digits length]; f_equal; unfold number; cbn; lia|].
  cbn [hex_digits]. apply hex_val_spec in D. rewrite D, IH. f_equal. rewrite number_cons. cbn [length]. rewrite Nat2Z.inj_succ, Z.pow_succ_r by lia. ring.
Qed.
Lemma hex_num_field p (x : Fp p) : 0 < p -> p <= 2 ^ 256 -> hex_num (write_field x) = Ok (fval x).
Proof.
  intros Hp Hb. pose proof (field_round p x Hp Hb) as R. apply read_field_spec in R; [|exact Hp]. unfold write_field, le_bytes_to_hex in *.
  set (t := to_lowercase (hex_encode (rev (to_bytes x)))) in *.
  assert (NE : t <> []).
  { unfold t. intros X. apply (f_equal (@length Z)) in X. revert X. unfold to_lowercase. rewrite map_length. unfold to_bytes. intros X.
    assert (Y : hex_encode (rev (le_bytes 32 (fval x))) = []) by (destruct (hex_encode (rev (le_bytes 32 (fval x)))); [reflexivity|discriminate]).
    assert (length (rev (le_bytes 32 (fval x))) = 32%nat) by (rewrite rev_length; reflexivity). destruct (rev (le_bytes 32 (fval x))); [discriminate|discriminate Y]. }
  destruct R as (t' & S & _ & _ & ds & F & N). assert (T : t' = t).
  { destruct S as [S|S]; [|apply app_inv_head in S; congruence]. exfalso. subst t'. cbn [app] in F. inversion F as [|? ? ? ? _ F1]. subst. inversion F1 as [|? y0 ? ? D _]. subst. unfold digit_of in D. lia. }
  subst t'. cbn [app]. unfold hex_num. destruct t as [|a t]; [congruence|]. rewrite (hex_digits_number _ _ F). rewrite Z.mul_0_l, Z.add_0_l, <- N. reflexivity.
Qed.

(** ** decimal texts compared as strings *)
Lemma digits_range f : forall v acc, 0 <= v -> Forall (fun d => 48 <= d <= 57) acc -> Forall (fun d => 48 <= d <= 57) (digits f v acc).
Proof.
  induction f as [|f IH]; intros v acc Hv F; cbn [digits]; [exact F|]. pose proof (Z.mod_pos_bound v 10 ltac:(lia)).
  destruct (v / 10 =? 0); [constructor; [lia|exact F]|]. apply IH; [apply Z.div_pos; lia|constructor; [lia|exact F]].
Qed.
Lemma str_lt_dec a : forall b, length a = length b -> Forall (fun d => 48 <= d <= 57) a -> Forall (fun d => 48 <= d <= 57) b -> str_lt a b = (DecimalProofs.dec a <? DecimalProofs.dec b).
Proof.
  assert (B : forall l, Forall (fun d => 48 <= d <= 57) l -> 0 <= DecimalProofs.dec l < 10 ^ Z.of_nat (length l)).
  { induction 1 as [|d l D F IH]; [cbn; lia|]. unfold DecimalProofs.dec. cbn [fold_left]. rewrite dec_acc. cbn [length]. rewrite Nat2Z.inj_succ, Z.pow_succ_r by lia. nia. }
  induction a as [|x a IH]; intros [|y b] L Fa Fb; try discriminate; [reflexivity|]. inversion Fa as [|? ? Hx Fa']. inversion Fb as [|? ? Hy Fb']. subst. cbn [length] in L.
  cbn [str_lt]. rewrite IH by (try assumption; congruence). unfold DecimalProofs.dec at 3 4. cbn [fold_left]. rewrite !dec_acc.
  pose proof (B a Fa') as Ba. pose proof (B b Fb') as Bb. replace (length b) with (length a) in * by congruence. set (P := 10 ^ Z.of_nat (length a)) in *.
  destruct (Z.ltb_spec x y), (Z.eqb_spec x y), (Z.ltb_spec (DecimalProofs.dec a) (DecimalProofs.dec b)), (Z.ltb_spec ((0 * 10 + (x - 48)) * P + DecimalProofs.dec a) ((0 * 10 + (y - 48)) * P + DecimalProofs.dec b)); cbn [orb andb]; try reflexivity; exfalso; nia.
Qed.
Lemma to_dec_value a : 0 <= a < M256 -> DecimalProofs.dec (to_dec a) = a.
Proof.
  intros Ha. assert (M256 < 10 ^ Z.of_nat 78) by (unfold M256; reflexivity). unfold to_dec. rewrite dec_digits by (try lia; discriminate). cbn. lia.
Qed.
Lemma bn_gt_same a b : 0 <= a < M256 -> 0 <= b < M256 -> length (to_dec a) = length (to_dec b) -> bn_gt a b = (b <? a).
Proof.
  intros Ha Hb L. unfold bn_gt. rewrite str_lt_dec; [|congruence|apply digits_range; [lia|constructor]|apply digits_range; [lia|constructor]].
  rewrite !to_dec_value by assumption. reflexivity.
Qed.
Lemma dec_lengths k : forall f v acc, (k <= f)%nat -> (0 < k)%nat -> 10 ^ Z.of_nat (k - 1) <= v < 10 ^ Z.of_nat k -> length (digits f v acc) = (k + length acc)%nat.
Proof.
  induction k as [|k IH]; intros f v acc Lf K H; [lia|]. destruct f as [|f]; [lia|]. cbn [digits]. replace (S k - 1)%nat with k in H by lia.
  rewrite Nat2Z.inj_succ, Z.pow_succ_r in H by lia. destruct (Z.eqb_spec (v / 10) 0) as [Z0|N].
  - assert (k = 0%nat). { destruct k; [reflexivity|]. exfalso. rewrite Nat2Z.inj_succ, Z.pow_succ_r in H by lia. assert (0 < 10 ^ Z.of_nat k) by (apply Z.pow_pos_nonneg; lia). pose proof (Z.div_mod v 10 ltac:(lia)). pose proof (Z.mod_pos_bound v 10 ltac:(lia)). lia. }
    subst. cbn [length]. lia.
  - destruct k as [|k]; [cbn in H; exfalso; apply N; apply Z.div_small; lia|]. rewrite IH; cbn [length]; try lia.
    replace (S k - 1)%nat with k by lia. rewrite Nat2Z.inj_succ, Z.pow_succ_r in * by lia. split; [apply Z.div_le_lower_bound; lia|apply Z.div_lt_upper_bound; lia].
Qed.
Lemma one_digit a : 0 <= a <= 9 -> length (to_dec a) = 1%nat.
Proof.
  intros H. unfold to_dec. change (digits 78 a []) with (if a / 10 =? 0 then [48 + a mod 10] else digits 77 (a / 10) [48 + a mod 10]).
  rewrite Z.div_small by lia. reflexivity.
Qed.
Lemma bn_gt_small a b : 0 <= a <= 9 -> 0 <= b <= 9 -> bn_gt a b = (b <? a).
Proof. intros Ha Hb. assert (10 < M256) by reflexivity. apply bn_gt_same; try lia. rewrite !one_digit by assumption. reflexivity. Qed.
Lemma bn_gt_ten b : 2 <= b <= 9 -> bn_gt 10 b = false.
Proof.
  intros H. unfold bn_gt. change (to_dec 10) with [49; 48]. unfold to_dec. change (digits 78 b []) with (if b / 10 =? 0 then [48 + b mod 10] else digits 77 (b / 10) [48 + b mod 10]).
  rewrite Z.div_small, Z.mod_small by lia. cbn [Z.eqb str_lt]. destruct (Z.ltb_spec (48 + b) 49), (Z.eqb_spec (48 + b) 49); cbn [orb andb]; try reflexivity; lia.
Qed.
Lemma to_dec_len d a : (S d <= 78)%nat -> 10 ^ Z.of_nat d <= a < 10 ^ Z.of_nat (S d) -> length (to_dec a) = S d.
Proof. intros H R. unfold to_dec. rewrite (dec_lengths (S d)); cbn [length]; try lia. replace (S d - 1)%nat with d by lia. exact R. Qed.
