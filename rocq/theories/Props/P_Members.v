(** C56: finding oneself in the list of member keys (MemberKey::index, lib.rs:90-95).
    Every key, every list of keys, with or without repetitions. *)
From Coq Require Import ZArith List Bool Lia.
From Verif.Base Require Import Fld Fp EC Primes Curves Group.
From Verif.Model Require Import Monad Points Dkg Lib.
Import ListNotations.
Open Scope Z_scope.

Lemma position_some pk l : forall k i, position pk l k = Some i ->
  exists j, i = k + Z.of_nat j /\ nth_error l j = Some pk /\ forall j' pk', (j' < j)%nat -> nth_error l j' = Some pk' -> pk' <> pk.
Proof.
  induction l as [|a l IH]; intros k i H; cbn [position] in H; [discriminate|]. destruct (geqb a pk) eqn:B.
  - apply (proj1 (geqb_eq Gk a pk)) in B. exists 0%nat. assert (k = i) by congruence. subst. split; [lia|]. split; [reflexivity|]. intros j' pk' L. lia.
  - destruct (IH _ _ H) as (j & -> & E & F). exists (S j). split; [lia|]. split; [exact E|]. intros [|j'] pk' L N; cbn [nth_error] in N.
    + intros ->. assert (a = pk) by congruence. subst a. rewrite (proj2 (geqb_eq Gk pk pk) eq_refl) in B. discriminate.
    + apply (F j'); [lia|exact N].
Qed.
Lemma position_none pk l : forall k, position pk l k = None <-> ~ In pk l.
Proof.
  induction l as [|a l IH]; intros k; cbn [position]; [split; [intros _ []|reflexivity]|]. destruct (geqb a pk) eqn:B.
  - apply (proj1 (geqb_eq Gk a pk)) in B. subst a. split; [discriminate|]. intros N. destruct N. left. reflexivity.
  - rewrite IH. split; [intros N [->|I]; [|exact (N I)]|intros N I; apply N; right; exact I].
    rewrite (proj2 (geqb_eq Gk pk pk) eq_refl) in B. discriminate.
Qed.
(** the index found is 1 + the first place where the member's public key stands *)
Theorem C56_index_iff k pks i : member_index k pks = Some i <->
  1 <= i /\ nth_error pks (Z.to_nat (i - 1)) = Some (mk_pk k) /\ forall j, (j < Z.to_nat (i - 1))%nat -> nth_error pks j <> Some (mk_pk k).
Proof.
  unfold member_index. split.
  - destruct (position (mk_pk k) pks 0) as [p|] eqn:P; [|discriminate]. intros H. assert (E : i = p + 1) by congruence. subst i.
    destruct (position_some _ _ _ _ P) as (j & -> & N & F). replace (0 + Z.of_nat j + 1 - 1) with (Z.of_nat j) by lia. rewrite Nat2Z.id. split; [lia|]. split; [exact N|].
    intros j' L X. exact (F j' _ L X eq_refl).
  - intros (L & N & F). destruct (position (mk_pk k) pks 0) as [p|] eqn:P.
    + destruct (position_some _ _ _ _ P) as (j & -> & N' & F'). destruct (Nat.lt_total j (Z.to_nat (i - 1))) as [X|[X|X]].
      * destruct (F j X N').
      * f_equal. lia.
      * destruct (F' _ _ X N eq_refl).
    + apply position_none in P. destruct P. exact (nth_error_In _ _ N).
Qed.
Theorem C56_index_none k pks : member_index k pks = None <-> ~ In (mk_pk k) pks.
Proof. unfold member_index. rewrite <- (position_none (mk_pk k) pks 0). destruct (position _ _ _); split; congruence. Qed.
(** members with different keys find different indices, between 1 and the number of members; with the same key, the same one *)
Theorem C56_index_range k pks i : member_index k pks = Some i -> 1 <= i <= Z.of_nat (length pks).
Proof. intros H. apply C56_index_iff in H as (L & N & _). assert ((Z.to_nat (i - 1) < length pks)%nat) by (apply nth_error_Some; rewrite N; discriminate). lia. Qed.
Theorem C56_index_inj k k' pks i : member_index k pks = Some i -> member_index k' pks = Some i -> mk_pk k = mk_pk k'.
Proof. intros H H'. apply C56_index_iff in H as (_ & N & _). apply C56_index_iff in H' as (_ & N' & _). congruence. Qed.
(** when the keys on the list are distinct every member finds the place of its own key *)
Theorem C56_index_distinct k pks j : NoDup pks -> nth_error pks j = Some (mk_pk k) -> member_index k pks = Some (Z.of_nat j + 1).
Proof.
  intros ND N. apply C56_index_iff. replace (Z.of_nat j + 1 - 1) with (Z.of_nat j) by lia. rewrite Nat2Z.id. split; [lia|]. split; [exact N|].
  intros j' L X. assert (j' < length pks)%nat by (apply nth_error_Some; rewrite X; discriminate). pose proof (proj1 (NoDup_nth_error pks) ND j' j H) as Y. rewrite X, N in Y. specialize (Y eq_refl). lia.
Qed.
(** ... and with a repeated key only the first holder does: the second finds the first one's index *)
Example C56_repeated s : member_index (member_random s) [gkmul gk s; gkmul gk s] = Some 1.
Proof. apply C56_index_iff. split; [lia|]. split; [reflexivity|]. intros j L. cbn in L. lia. Qed.
Print Assumptions C56_index_iff.
Print Assumptions C56_index_none.
Print Assumptions C56_index_distinct.
