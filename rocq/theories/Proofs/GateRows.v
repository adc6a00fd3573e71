(** The gates of the verifier, row by row, are those of the Poseidon chip. *)
From Coq Require Import ZArith NArith List Lia Arith Field Bool.
From Verif.Base Require Import Fld.
From Verif.Model Require Import Circ MainGate Poseidon.
From Verif.Spec Require Import Plonk PlonkCircuit PlonkRegions.
From Verif.Proofs Require Import PoseidonProofs.
Import ListNotations.

Section Rows.
  Variable K : Fld.
  Open Scope fld_scope.
  Add Field kf : (flaw K).
  Variables m mi : arr3 (arr3 K).
  Variables mds minv : nat -> nat -> K.
  Hypothesis Hm : forall i j, (i < 3)%nat -> (j < 3)%nat -> mds i j = at3 (at3 m i) j.
  Hypothesis Hmi : forall i j, (i < 3)%nat -> (j < 3)%nat -> minv i j = at3 (at3 mi i) j.
  Hypothesis Hinv : mds_inv K m = Some mi.
  Variable e : col -> rot -> K.
  Definition cur : arr3 K := tab3 (fun j => e (Adv j) Cur).
  Definition next : arr3 K := tab3 (fun j => e (Adv j) Next).
  Definition prev : arr3 K := tab3 (fun j => e (Adv j) Prev).
  Definition rc_a : arr3 K := tab3 (fun j => e (Fix_ (12 + j)) Cur).
  Definition rc_b : arr3 K := tab3 (fun j => e (Fix_ (15 + j)) Cur).
  Lemma full_rounds_gate : e (Fix_ 20) Cur = 1 ->
    (Forall (fun v => v = 0) (map (Plonk.full_round K mds e) (seq 0 3)) <-> full_gate K m rc_a cur next).
  Proof.
    intros S. unfold full_gate.
    assert (E : forall i, (i < 3)%nat -> Plonk.full_round K mds e i =
      (pow_5 K (at3 cur 0 + at3 rc_a 0) * at3 (at3 m i) 0 + pow_5 K (at3 cur 1 + at3 rc_a 1) * at3 (at3 m i) 1
       + pow_5 K (at3 cur 2 + at3 rc_a 2) * at3 (at3 m i) 2) - at3 next i).
    { intros i Li. unfold Plonk.full_round, f, a, pow5, pow_5, next. rewrite S, at3_tab3 by exact Li.
      cbn [map seq fold_right]. rewrite !Hm by (exact Li || lia). unfold cur, rc_a. cbn [at3 tab3 Nat.add]. cbv zeta. ring. }
    split.
    - intros H i Li. rewrite <- (E i Li). apply (proj1 (Forall_forall _ _) H). apply in_map_iff. exists i. split; [reflexivity|]. apply in_seq. lia.
    - intros H. apply Forall_forall. intros v Hv. apply in_map_iff in Hv as (i & <- & Hi). apply in_seq in Hi. rewrite E by lia. apply H. lia.
  Qed.
  Lemma partial_rounds_gate : e (Fix_ 21) Cur = 1 ->
    (Forall (fun v => v = 0) (Plonk.partial_rounds K mds minv e) <-> partial_gate K m mi rc_a rc_b cur (e (Adv 3) Cur) next).
  Proof.
    intros S. unfold partial_gate, Plonk.partial_rounds.
    assert (M : forall i, (i < 3)%nat -> middle K mds e i = mid K m rc_a cur (e (Adv 3) Cur) i).
    { intros i Li. unfold middle, mid, a, f. rewrite !Hm by (exact Li || lia). reflexivity. }
    assert (U : forall i, (i < 3)%nat -> unmixed K minv e i = unmix K mi next i).
    { intros i Li. unfold unmixed, unmix. cbn [map seq fold_right]. rewrite !Hmi by (exact Li || lia). unfold next. cbn [at3 tab3]. ring. }
    rewrite !M, !U by lia. unfold f. rewrite S. unfold a, rc_a, rc_b.
    assert (C0 : at3 cur 0 = e (Adv 0) Cur) by reflexivity. rewrite C0. cbn [at3 tab3 Nat.add].
    fold rc_a. set (m0 := mid K m rc_a cur (e (Adv 3) Cur)). set (u := unmix K mi next).
    assert (one : forall v : K, 1 * v = v) by (intros; ring). rewrite !one.
    split.
    - intros H. apply Forall_cons_iff in H as [H0 H]. apply Forall_cons_iff in H as [H1 H]. apply Forall_cons_iff in H as [H2 H]. apply Forall_cons_iff in H as [H3 _].
      split; [exact H0|]. split; [exact H1|]. intros [|[|[|i]]] Li; [exfalso; lia|exact H2|exact H3|exfalso; lia].
    - intros (H0 & H1 & H). repeat constructor; [exact H0|exact H1|exact (H 1%nat ltac:(lia))|exact (H 2%nat ltac:(lia))].
  Qed.
  Lemma addition_gate : e (Fix_ 22) Cur = 1 ->
    (Forall (fun v => v = 0) (pad_and_add K e) <->
     next = (at3 prev 0 + at3 cur 0, at3 prev 1 + at3 cur 1, at3 prev 2)).
  Proof.
    intros S. unfold pad_and_add, f, a. rewrite S. unfold next, prev, cur. cbn [at3 tab3].
    assert (one : forall v : K, 1 * v = v) by (intros; ring). rewrite !one. split.
    - intros H. apply Forall_cons_iff in H as [H0 H]. apply Forall_cons_iff in H as [H1 H]. apply Forall_cons_iff in H as [H2 _].
      apply fsub_eq0 in H0, H1, H2. unfold tab3. rewrite <- H0, <- H1, <- H2. reflexivity.
    - intros H. unfold tab3 in H. apply pair_equal_spec in H as [H H2]. apply pair_equal_spec in H as [H0 H1]. rewrite H0, H1, H2.
      repeat constructor; ring.
  Qed.
  (** selectors off *)
  Lemma full_rounds_off : e (Fix_ 20) Cur = 0 -> Forall (fun v => v = 0) (map (Plonk.full_round K mds e) (seq 0 3)).
  Proof. intros S. apply Forall_forall. intros v Hv. apply in_map_iff in Hv as (i & <- & _). unfold Plonk.full_round, f. rewrite S. ring. Qed.
  Lemma partial_rounds_off : e (Fix_ 21) Cur = 0 -> Forall (fun v => v = 0) (Plonk.partial_rounds K mds minv e).
  Proof. intros S. unfold Plonk.partial_rounds, f. rewrite S. repeat constructor; ring. Qed.
  Lemma addition_off : e (Fix_ 22) Cur = 0 -> Forall (fun v => v = 0) (pad_and_add K e).
  Proof. intros S. unfold pad_and_add, f. rewrite S. repeat constructor; ring. Qed.
  Lemma main_off : (forall j, (j <= 8)%nat -> e (Fix_ j) Cur = 0) -> main_gate K e = 0.
  Proof. intros S. unfold main_gate, f. rewrite !S by lia. ring. Qed.
End Rows.
