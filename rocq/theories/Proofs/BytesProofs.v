(** Big-endian and little-endian byte strings, and limbs. *)
From Coq Require Import ZArith List Lia Bool.
From Verif.Base Require Import Fermat Primes Fld Fp.
From Verif.Model Require Import Monad Evm Points HashEvm.
Import ListNotations.
Open Scope Z_scope.

Lemma length_be n x : length (be_bytes n x) = n.
Proof. revert x. induction n; intros; cbn [be_bytes]; rewrite ?app_length, ?IHn; cbn; lia. Qed.
Lemma length_le n x : length (le_bytes n x) = n.
Proof. revert x. induction n; intros; cbn; rewrite ?IHn; auto. Qed.
Lemma rev_le n x : rev (le_bytes n x) = be_bytes n x.
Proof. revert x. induction n; intros; cbn; rewrite ?IHn; auto. Qed.
Lemma of_be_app a b : of_be (a ++ b) = of_be a * 256 ^ Z.of_nat (length b) + of_be b.
Proof.
  unfold of_be. rewrite fold_left_app. generalize (fold_left (fun x c => x * 256 + c) a 0). intros z.
  assert (G : forall l z w, fold_left (fun x c => x * 256 + c) l (z + w) = z * 256 ^ Z.of_nat (length l) + fold_left (fun x c => x * 256 + c) l w).
  { clear. induction l as [|c l IH]; intros; cbn [fold_left length]; [rewrite Z.pow_0_r; lia|].
    replace ((z + w) * 256 + c) with (z * 256 + (w * 256 + c)) by lia. rewrite IH. rewrite Nat2Z.inj_succ, Z.pow_succ_r by lia. lia. }
  rewrite <- (Z.add_0_r z) at 1. rewrite G. reflexivity.
Qed.
Lemma of_be_be n x : 0 <= x -> of_be (be_bytes n x) = x mod 256 ^ Z.of_nat n.
Proof.
  revert x. induction n; intros x H; cbn [be_bytes].
  - rewrite Z.pow_0_r, Z.mod_1_r. reflexivity.
  - rewrite of_be_app, IHn by (apply Z.div_pos; lia). change (256 ^ Z.of_nat (length [x mod 256])) with 256. change (of_be [x mod 256]) with (0 * 256 + x mod 256).
    rewrite Nat2Z.inj_succ, Z.pow_succ_r by lia. rewrite Z.rem_mul_r by (try lia; apply Z.pow_nonzero; lia). lia.
Qed.
Lemma be_app a b x : be_bytes (a + b) x = be_bytes a (x / 256 ^ Z.of_nat b) ++ be_bytes b x.
Proof.
  revert x. induction b; intros; cbn [be_bytes].
  - rewrite Nat.add_0_r, Z.pow_0_r, Z.div_1_r, app_nil_r. reflexivity.
  - rewrite Nat.add_succ_r. cbn [be_bytes]. rewrite IHb, <- app_assoc. rewrite Nat2Z.inj_succ, Z.pow_succ_r, Z.div_div by lia. reflexivity.
Qed.
Lemma be_0 n : be_bytes n 0 = repeat 0 n.
Proof. induction n; cbn [be_bytes]; auto. change (0 / 256) with 0. rewrite IHn. change [0 mod 256] with (repeat 0 1). rewrite <- repeat_app, Nat.add_comm. reflexivity. Qed.

Lemma be_inj n x y : 0 <= x < 256 ^ Z.of_nat n -> 0 <= y < 256 ^ Z.of_nat n -> be_bytes n x = be_bytes n y -> x = y.
Proof. intros X Y E. apply (f_equal of_be) in E. rewrite !of_be_be, !Z.mod_small in E; lia. Qed.
Lemma le_inj n x y : 0 <= x < 256 ^ Z.of_nat n -> 0 <= y < 256 ^ Z.of_nat n -> le_bytes n x = le_bytes n y -> x = y.
Proof. intros X Y E. apply (f_equal (@rev Z)) in E. rewrite !rev_le in E. exact (be_inj n x y X Y E). Qed.

(** [from_be_bytes] then [from_raw]: the integer mod p *)
Lemma firstn_len {A} (l l' : list A) n : length l = n -> firstn n (l ++ l') = l.
Proof. intros <-. rewrite firstn_app, Nat.sub_diag, firstn_all, firstn_O, app_nil_r. reflexivity. Qed.
Lemma skipn_len {A} (l l' : list A) n : length l = n -> skipn n (l ++ l') = l'.
Proof. intros <-. rewrite skipn_app, Nat.sub_diag, skipn_all. reflexivity. Qed.
Lemma raw_be x : 0 <= x < 2 ^ 256 -> raw_value (from_be_bytes (be_bytes 32 x)) = x.
Proof.
  intros H. pose (L := fun k => Z.pow 2 64 ^ k).
  assert (E : be_bytes 32 x = be_bytes 8 (x / 2 ^ 192) ++ be_bytes 8 (x / 2 ^ 128) ++ be_bytes 8 (x / 2 ^ 64) ++ be_bytes 8 x).
  { change 32%nat with (8 + (8 + (8 + 8)))%nat. rewrite !be_app. change (256 ^ Z.of_nat (8 + (8 + 8))) with (2 ^ 192).
    change (256 ^ Z.of_nat (8 + 8)) with (2 ^ 128). change (256 ^ Z.of_nat 8) with (2 ^ 64). reflexivity. }
  rewrite E. unfold from_be_bytes, slice.
  assert (E0 : forall a b c d : bytes, length a = 8%nat -> length b = 8%nat -> length c = 8%nat -> length d = 8%nat ->
     firstn 8 (skipn 24 (a ++ b ++ c ++ d)) = d /\ firstn 8 (skipn 16 (a ++ b ++ c ++ d)) = c /\
     firstn 8 (skipn 8 (a ++ b ++ c ++ d)) = b /\ firstn 8 (skipn 0 (a ++ b ++ c ++ d)) = a).
  { intros a b c d La Lb Lc Ld. repeat split.
    - replace (a ++ b ++ c ++ d) with ((a ++ b ++ c) ++ d ++ []) by (rewrite !app_nil_r, <- !app_assoc; auto). rewrite skipn_len by (rewrite !app_length; lia). apply firstn_len; auto.
    - replace (a ++ b ++ c ++ d) with ((a ++ b) ++ c ++ d) by (rewrite <- !app_assoc; auto). rewrite skipn_len by (rewrite !app_length; lia). apply firstn_len; auto.
    - rewrite skipn_len by auto. apply firstn_len; auto.
    - cbn [skipn]. apply firstn_len; auto. }
  destruct (E0 (be_bytes 8 (x / 2 ^ 192)) (be_bytes 8 (x / 2 ^ 128)) (be_bytes 8 (x / 2 ^ 64)) (be_bytes 8 x)) as (-> & -> & -> & ->); try apply length_be.
  rewrite !of_be_be by (try apply Z.div_pos; lia). change (256 ^ Z.of_nat 8) with (2 ^ 64). unfold raw_value. cbn [fold_right].
  rewrite (Z.mod_small (x / 2 ^ 192)) by (split; [apply Z.div_pos; lia|apply Z.div_lt_upper_bound; lia]).
  change (2 ^ 192) with (2 ^ 128 * 2 ^ 64). rewrite <- Z.div_div by lia. change (2 ^ 128) with (2 ^ 64 * 2 ^ 64). rewrite <- Z.div_div by lia.
  pose proof (Z.div_mod x (2 ^ 64)). pose proof (Z.div_mod (x / 2 ^ 64) (2 ^ 64)). pose proof (Z.div_mod (x / 2 ^ 64 / 2 ^ 64) (2 ^ 64)). lia.
Qed.
Lemma from_raw_be p x : 0 <= x < 2 ^ 256 -> from_raw p (from_be_bytes (be_bytes 32 x)) = of_Z p x.
Proof. intros H. unfold from_raw. rewrite raw_be; auto. Qed.

Lemma len32_word l : Z.of_nat (length l) < 2 ^ 64 -> len32 l = word (Z.of_nat (length l)).
Proof.
  intros H. unfold len32, word. cbv zeta. rewrite length_be. change 32%nat with (24 + 8)%nat. rewrite be_app.
  change (256 ^ Z.of_nat 8) with (2 ^ 64). rewrite Z.div_small by lia. rewrite be_0. reflexivity.
Qed.
Lemma rev_to_bytes {p} (x : Fp p) : rev (to_bytes x) = word (fval x).
Proof. apply rev_le. Qed.
