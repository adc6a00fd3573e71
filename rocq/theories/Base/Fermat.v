(** Fermat's little theorem over Z (mathematics, no code modelled here). *)
From Coq Require Import ZArith Znumtheory List Lia Permutation.
Import ListNotations.
Open Scope Z_scope.

(** [zseq n] = [1; 2; ...; n] in Z *)
Definition zseq (n : nat) : list Z := map Z.of_nat (seq 1 n).

Lemma in_zseq n x : In x (zseq n) <-> 1 <= x <= Z.of_nat n.
Proof.
  unfold zseq; rewrite in_map_iff; split.
  - intros [k [<- Hk]]; apply in_seq in Hk; lia.
  - intros H; exists (Z.to_nat x); split; [lia|]; apply in_seq; lia.
Qed.

Lemma NoDup_map_inj {A B} (f : A -> B) l :
  (forall x y, In x l -> In y l -> f x = f y -> x = y) -> NoDup l -> NoDup (map f l).
Proof.
  induction l as [|a l IH]; simpl; intros Hinj Hnd; [constructor|].
  inversion Hnd as [|a' l' Hnin Hnd']; subst; constructor.
  - rewrite in_map_iff; intros [y [Hy Hin]].
    assert (y = a) by (apply Hinj; auto). subst; contradiction.
  - apply IH; auto.
Qed.

Lemma NoDup_zseq n : NoDup (zseq n).
Proof. apply NoDup_map_inj; [intros; lia | apply seq_NoDup]. Qed.

Lemma length_zseq n : length (zseq n) = n.
Proof. unfold zseq; rewrite map_length, seq_length; auto. Qed.

Definition zprod (l : list Z) : Z := fold_right Z.mul 1 l.

Lemma zprod_perm l l' : Permutation l l' -> zprod l = zprod l'.
Proof. induction 1; simpl; try ring; congruence. Qed.

Lemma mod_mul_l a b p : ((a mod p) * b) mod p = (a * b) mod p.
Proof. destruct (Z.eq_dec p 0) as [->|H]; [rewrite !Zmod_0_r; auto | apply Z.mul_mod_idemp_l; auto]. Qed.
Lemma mod_mul_r a b p : (a * (b mod p)) mod p = (a * b) mod p.
Proof. rewrite Z.mul_comm, mod_mul_l, Z.mul_comm; auto. Qed.

Lemma zprod_map_mulmod a p l :
  zprod (map (fun x => (a * x) mod p) l) mod p = (a ^ Z.of_nat (length l) * zprod l) mod p.
Proof.
  induction l as [|x l IH].
  - cbn. reflexivity.
  - cbn [map zprod fold_right length]. fold (zprod (map (fun x => (a * x) mod p) l)). fold (zprod l).
    rewrite mod_mul_l, <- mod_mul_r, IH, mod_mul_r.
    f_equal. rewrite Nat2Z.inj_succ, Z.pow_succ_r by lia. ring.
Qed.

Lemma prime_mod_nonzero p a : prime p -> ~ (p | a) -> 1 <= a mod p <= p - 1.
Proof.
  intros Hp Ha. destruct Hp as [Hp _].
  pose proof (Z.mod_pos_bound a p ltac:(lia)).
  assert (a mod p <> 0) by (intros E; apply Ha, Z.mod_divide; lia). lia.
Qed.

Lemma zprod_not_div p l : prime p -> (forall x, In x l -> ~ (p | x)) -> ~ (p | zprod l).
Proof.
  intros Hp; induction l as [|x l IH]; cbn; intros H Hd.
  - destruct Hp as [Hp _]. destruct Hd as [k Hk]. assert (p * k = 1) by lia.
    assert (0 < k) by nia. nia.
  - apply prime_mult in Hd; auto. destruct Hd as [Hd|Hd].
    + apply (H x); auto.
    + apply IH; auto.
Qed.

Theorem fermat p a : prime p -> ~ (p | a) -> a ^ (p - 1) mod p = 1.
Proof.
  intros Hp Ha. pose proof Hp as [Hp1 _].
  set (n := Z.to_nat (p - 1)).
  assert (Hn : Z.of_nat n = p - 1) by (unfold n; lia).
  set (l := zseq n).
  assert (Hin : forall x, In x l -> ~ (p | x)).
  { intros x Hx [k Hk]. apply in_zseq in Hx. assert (0 < k) by nia. nia. }
  assert (Hperm : Permutation (map (fun x => (a * x) mod p) l) l).
  { apply NoDup_Permutation_bis.
    - apply NoDup_map_inj; [|apply NoDup_zseq].
      intros x y Hx Hy E. apply in_zseq in Hx, Hy.
      assert (D : (p | a * (x - y))).
      { replace (a * (x - y)) with (a * x - a * y) by ring.
        apply Z.mod_divide; [lia|]. rewrite Zminus_mod, E, Z.sub_diag, Zmod_0_l; auto. }
      apply prime_mult in D; auto. destruct D as [D|D]; [contradiction|].
      destruct D as [k Hk]. assert (k = 0) by nia. lia.
    - rewrite map_length; lia.
    - intros y Hy. apply in_map_iff in Hy. destruct Hy as [x [<- Hx]].
      apply in_zseq. rewrite Hn. apply prime_mod_nonzero; auto.
      intros D. apply prime_mult in D; auto. destruct D; [contradiction| apply (Hin x); auto]. }
  pose proof (zprod_map_mulmod a p l) as E.
  rewrite (zprod_perm _ _ Hperm) in E.
  assert (Hlen : Z.of_nat (length l) = p - 1) by (unfold l; rewrite length_zseq; auto).
  rewrite Hlen in E.
  assert (D : (p | (a ^ (p - 1) - 1) * zprod l)).
  { apply Z.mod_divide; [lia|].
    replace ((a ^ (p - 1) - 1) * zprod l) with (a ^ (p - 1) * zprod l - zprod l) by ring.
    rewrite Zminus_mod, <- E, Z.sub_diag, Zmod_0_l; auto. }
  apply prime_mult in D; auto. destruct D as [D|D].
  - apply Z.mod_divide in D; [|lia].
    assert (H1 : a ^ (p - 1) mod p = 1 mod p).
    { replace (a ^ (p - 1)) with ((a ^ (p - 1) - 1) + 1) by ring.
      rewrite Zplus_mod, D, Z.add_0_l, Zmod_mod; auto. }
    rewrite H1, Z.mod_1_l; lia.
  - exfalso; apply (zprod_not_div p l); auto.
Qed.
