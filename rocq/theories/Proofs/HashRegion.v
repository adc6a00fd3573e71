(** A hash region of a satisfied circuit holds the hash; and a circuit that is one hash region. *)
From Coq Require Import ZArith NArith List Lia Arith Field Bool.
From Verif.Base Require Import Fld.
From Verif.Model Require Import Circ MainGate Poseidon.
From Verif.Spec Require Import Plonk PlonkCircuit PlonkRegions.
From Verif.Proofs Require Import PoseidonProofs GateRows.
Import ListNotations.

Section Hash.
  Variable K : Fld.
  Open Scope fld_scope.
  Add Field kf : (flaw K).
  Variable sp : pspec K.
  Hypothesis H8 : full_rounds sp = 8%nat.
  Hypothesis H56 : Poseidon.partial_rounds sp = 56%nat.
  Hypothesis Hinv : mds_inv K (m_reg sp) = Some (m_inv sp).
  Variables mds minv : nat -> nat -> K.
  Hypothesis Hm : forall i j, (i < 3)%nat -> (j < 3)%nat -> mds i j = at3 (at3 (m_reg sp) i) j.
  Hypothesis Hmi : forall i j, (i < 3)%nat -> (j < 3)%nat -> minv i j = at3 (at3 (m_inv sp) i) j.
  Variable rc : nat -> nat -> K.
  Hypothesis Hrc : forall r, (r < 64)%nat -> nth_error (rcs sp) r = Some (tab3 (rc r)).
  Let m := m_reg sp.
  Definition rnd (r : nat) : arr3 K -> arr3 K :=
    fun s => (if ((r <? 4) || (60 <=? r))%nat then Poseidon.full_round K m else part_round K m) s (tab3 (rc r)).
  Fixpoint steps (r k : nat) (s : arr3 K) : arr3 K := match k with O => s | S k => steps (S r) k (rnd r s) end.
  Lemma steps_app r k k' s : steps r (k + k') s = steps (r + k) k' (steps r k s).
  Proof. revert r s. induction k as [|k IH]; intros r s; cbn [Nat.add steps]; [rewrite Nat.add_0_r; reflexivity|]. rewrite IH. f_equal. lia. Qed.
  Lemma steps_S r k s : steps r (S k) s = rnd (r + k) (steps r k s).
  Proof. replace (S k) with (k + 1)%nat by lia. rewrite steps_app. reflexivity. Qed.
  Lemma run_steps (f : arr3 K -> arr3 K -> arr3 K) : forall k r s, (r + k <= 64)%nat ->
    (forall i, (r <= i < r + k)%nat -> forall s, rnd i s = f s (tab3 (rc i))) -> run K f (slice K sp r k) s = steps r k s.
  Proof.
    induction k as [|k IH]; intros r s L H; [reflexivity|].
    rewrite (slice_S K sp r k (tab3 (rc r))) by (apply Hrc; lia). cbn [run steps].
    rewrite (H r ltac:(lia)). apply IH; [lia|]. intros i Li. apply H. lia.
  Qed.
  Lemma len : (64 <= length (rcs sp))%nat.
  Proof. assert (H : nth_error (rcs sp) 63 <> None) by (rewrite (Hrc 63 ltac:(lia)); discriminate). apply nth_error_Some in H. lia. Qed.
  Lemma rnd_full r : (r < 4 \/ 60 <= r)%nat -> forall s, rnd r s = Poseidon.full_round K m s (tab3 (rc r)).
  Proof.
    intros L s. unfold rnd. destruct (Nat.ltb_spec r 4); [reflexivity|]. destruct (Nat.leb_spec 60 r); [reflexivity|]. exfalso. lia.
  Qed.
  Lemma rnd_part r : (4 <= r < 60)%nat -> forall s, rnd r s = part_round K m s (tab3 (rc r)).
  Proof.
    intros L s. unfold rnd. destruct (Nat.ltb_spec r 4); [exfalso; lia|]. destruct (Nat.leb_spec 60 r); [exfalso; lia|]. reflexivity.
  Qed.
  Lemma permute_steps (s : arr3 K) : permute K sp s = steps 0 64 s.
  Proof.
    pose proof len as L. rewrite (permute_runs K sp) by (rewrite H8, H56; exact L). rewrite H8, H56. change (8 / 2)%nat with 4%nat. change (4 + 56)%nat with 60%nat.
    rewrite (run_steps (Poseidon.full_round K (m_reg sp)) 4 0) by (try lia; intros; apply rnd_full; lia).
    rewrite (run_steps (part_round K (m_reg sp)) 56 4) by (try lia; intros; apply rnd_part; lia).
    rewrite (run_steps (Poseidon.full_round K (m_reg sp)) 4 60) by (try lia; intros; apply rnd_full; lia).
    change 64%nat with (4 + (56 + 4))%nat. rewrite steps_app, steps_app. reflexivity.
  Qed.

  (** ** rows *)
  Variable n : nat.
  Variable tag : K.
  Variable c : circuit K.
  Variable insts : list K.
  Variable advice : nat -> nat -> K.
  Definition state (i : nat) : arr3 K := tab3 (fun j => advice j i).
  Lemma row_next i : (i + 1 < n)%nat -> row_at n i Next = (i + 1)%nat.
  Proof. intros L. cbn [row_at]. apply Nat.mod_small. exact L. Qed.
  Lemma row_prev i : (0 < i < n)%nat -> row_at n i Prev = (i - 1)%nat.
  Proof. intros L. cbn [row_at]. replace (i + (n - 1))%nat with (i - 1 + 1 * n)%nat by lia. rewrite Nat.mod_add by lia. apply Nat.mod_small. lia. Qed.
  Lemma cell_next i : (i + 1 < n)%nat -> next K (cell K n c advice i) = state (i + 1).
  Proof. intros L. unfold next, state, tab3. cbn [cell]. rewrite (row_next i L). reflexivity. Qed.
  Lemma cell_prev i : (0 < i < n)%nat -> prev K (cell K n c advice i) = state (i - 1).
  Proof. intros L. unfold prev, state, tab3. cbn [cell]. rewrite (row_prev i L). reflexivity. Qed.
  Lemma cell_cur i : cur K (cell K n c advice i) = state i.
  Proof. reflexivity. Qed.
  Lemma Forall_app4 (P : K -> Prop) a b d e : Forall P (a ++ b ++ d ++ e) <-> Forall P a /\ Forall P b /\ Forall P d /\ Forall P e.
  Proof. rewrite !Forall_app. reflexivity. Qed.

  Lemma full_row i r : (i + 1 < n)%nat -> fixed K c 20 i = 1 -> (forall j, (j < 3)%nat -> fixed K c (12 + j) i = rc r j) -> (r < 4 \/ 60 <= r)%nat ->
    (Forall (fun v => v = 0) (map (Plonk.full_round K mds (cell K n c advice i)) (seq 0 3)) <-> state (i + 1) = rnd r (state i)).
  Proof.
    intros L S R Lr. rewrite (full_rounds_gate K m mds Hm) by exact S. rewrite full_gate_iff, (rnd_full r Lr), (cell_next i L), cell_cur.
    replace (rc_a K (cell K n c advice i)) with (tab3 (rc r)); [reflexivity|].
    unfold rc_a, tab3. cbn [cell row_at]. rewrite !R by lia. reflexivity.
  Qed.
  Lemma partial_row i r : (i + 1 < n)%nat -> fixed K c 21 i = 1 ->
    (forall j, (j < 3)%nat -> fixed K c (12 + j) i = rc r j /\ fixed K c (15 + j) i = rc (r + 1) j) -> (4 <= r < 59)%nat ->
    (Forall (fun v => v = 0) (Plonk.partial_rounds K mds minv (cell K n c advice i)) <->
     advice 3%nat i = sbox K (advice 0%nat i + rc r 0) /\ state (i + 1) = rnd (r + 1) (rnd r (state i))).
  Proof.
    intros L S R Lr. rewrite (partial_rounds_gate K m (m_inv sp) mds minv Hm Hmi) by exact S. rewrite (partial_gate_iff K m (m_inv sp)) by exact Hinv.
    rewrite (rnd_part r), (rnd_part (r + 1)) by lia. rewrite (cell_next i L), cell_cur.
    replace (rc_a K (cell K n c advice i)) with (tab3 (rc r)) by (unfold rc_a, tab3; cbn [cell row_at]; rewrite !(fun j H => proj1 (R j H)) by lia; reflexivity).
    replace (rc_b K (cell K n c advice i)) with (tab3 (rc (r + 1))) by (unfold rc_b, tab3; cbn [cell row_at]; rewrite !(fun j H => proj2 (R j H)) by lia; reflexivity).
    reflexivity.
  Qed.
  Lemma addition_row i : (i + 2 < n)%nat -> fixed K c 22 (i + 1) = 1 ->
    (Forall (fun v => v = 0) (pad_and_add K (cell K n c advice (i + 1))) <->
     state (i + 2) = (advice 0%nat i + advice 0%nat (i + 1)%nat, advice 1%nat i + advice 1%nat (i + 1)%nat, advice 2%nat i)).
  Proof.
    intros L S. rewrite (addition_gate K) by exact S. rewrite cell_next by lia. rewrite cell_prev by lia.
    rewrite cell_cur. replace (i + 1 - 1)%nat with i by lia. replace (i + 1 + 1)%nat with (i + 2)%nat by lia. reflexivity.
  Qed.

  (** ** the region in a satisfied circuit *)
  Hypothesis SAT : satisfied K mds minv tag n c insts advice.
  Lemma sat_gates i : (i < n)%nat -> Forall (fun v => v = 0) (map (Plonk.full_round K mds (cell K n c advice i)) (seq 0 3)) /\
    Forall (fun v => v = 0) (Plonk.partial_rounds K mds minv (cell K n c advice i)) /\ Forall (fun v => v = 0) (pad_and_add K (cell K n c advice i)).
  Proof. intros L. destruct SAT as (G & _). specialize (G i L). unfold gates in G. apply Forall_app4 in G. tauto. Qed.
  Lemma linked_value p q : linked K n c p q -> value K n c insts advice p = value K n c insts advice q.
  Proof.
    intros H. induction H as [|p q H IH Lj Li]; [reflexivity|]. rewrite IH. unfold value. destruct SAT as (_ & C & _). exact (C (fst q) (snd q) Lj Li).
  Qed.
  Lemma full_rows_run b first : full_rows K c rc b first -> (b + 4 < n)%nat -> (first + 4 <= 4 \/ 60 <= first)%nat -> state (b + 4) = steps first 4 (state b).
  Proof.
    intros H L F.
    assert (G : forall k, (k <= 4)%nat -> state (b + k) = steps first k (state b)).
    { induction k as [|k IH]; intros Lk; [rewrite Nat.add_0_r; reflexivity|]. rewrite steps_S, <- (IH ltac:(lia)).
      destruct (H k ltac:(lia)) as [Sl R]. replace (b + S k)%nat with (b + k + 1)%nat by lia.
      apply (proj1 (full_row (b + k) (first + k) ltac:(lia) Sl R ltac:(lia))). apply sat_gates. lia. }
    apply G. lia.
  Qed.
  Lemma partial_rows_run b : partial_rows K c rc b 4 -> (b + 28 < n)%nat -> state (b + 28) = steps 4 56 (state b).
  Proof.
    intros H L.
    assert (G : forall k, (k <= 28)%nat -> state (b + k) = steps 4 (2 * k) (state b)).
    { induction k as [|k IH]; intros Lk; [rewrite Nat.add_0_r; reflexivity|]. replace (2 * S k)%nat with (S (S (2 * k))) by lia. rewrite !steps_S, <- (IH ltac:(lia)).
      destruct (H k ltac:(lia)) as [Sl R]. replace (b + S k)%nat with (b + k + 1)%nat by lia. replace (4 + S (2 * k))%nat with (4 + 2 * k + 1)%nat by lia.
      apply (proj1 (partial_row (b + k) (4 + 2 * k) ltac:(lia) Sl R ltac:(lia))). apply sat_gates. lia. }
    exact (G 28%nat (le_n _)).
  Qed.
  Lemma permutation_run b : permutation_region K n c rc b -> state (b + 36) = permute K sp (state b).
  Proof.
    intros (L & F1 & P & F2). rewrite permute_steps. change 64%nat with (4 + (56 + 4))%nat. rewrite steps_app, steps_app. change (0 + 4)%nat with 4%nat. change (4 + 56)%nat with 60%nat.
    rewrite <- (full_rows_run b 0 F1) by lia. rewrite <- (partial_rows_run (b + 4) P) by lia.
    replace (b + 36)%nat with (b + 32 + 4)%nat by lia. replace (b + 4 + 28)%nat with (b + 32)%nat by lia. apply full_rows_run; [exact F2|lia|lia].
  Qed.
  Variable cap : K.
  Lemma hash_run x y i a b : hash_region K n c rc cap x y i a b ->
    value K n c insts advice (hash_output b) = hash_2 K sp cap (value K n c insts advice x) (value K n c insts advice y).
  Proof.
    intros ((La & Sa) & P & I & A & X & Y & B). pose proof (permutation_run b P) as R.
    apply linked_value in X, Y.
    assert (I' : forall j, (j < 3)%nat -> value K n c insts advice (j, i) = if (j =? 2)%nat then cap else 0).
    { intros j Lj. destruct (I j Lj) as (k & Ek & Hk). rewrite (linked_value _ _ Hk). exact Ek. }
    assert (A' : forall j, (j < 3)%nat -> value K n c insts advice (j, a) = if (j =? 2)%nat then cap else 0).
    { intros j Lj. rewrite (linked_value _ _ (A j Lj)). apply I'. exact Lj. }
    assert (B' : forall j, (j < 3)%nat -> value K n c insts advice (j, b) = value K n c insts advice (j, a + 2)%nat).
    { intros j Lj. apply linked_value. exact (B j Lj). }
    pose proof (proj1 (addition_row a La Sa) (proj2 (proj2 (sat_gates (a + 1) ltac:(lia))))) as E.
    assert (E' : state b = (0 + value K n c insts advice x, 0 + value K n c insts advice y, cap)).
    { transitivity (state (a + 2)).
      - unfold state, tab3. f_equal; [f_equal|]; [exact (B' 0%nat ltac:(lia))|exact (B' 1%nat ltac:(lia))|exact (B' 2%nat ltac:(lia))].
      - rewrite E. rewrite <- X, <- Y. f_equal; [f_equal; f_equal|]; [exact (A' 0%nat ltac:(lia))|exact (A' 1%nat ltac:(lia))|exact (A' 2%nat ltac:(lia))]. }
    rewrite E' in R. unfold hash_2. rewrite <- R. reflexivity.
  Qed.
End Hash.
