(** A circuit that is one hash: the first two instances hashed are the third. *)
From Coq Require Import ZArith NArith List Lia Arith Field Bool.
From Verif.Base Require Import Fld.
From Verif.Model Require Import Circ MainGate Poseidon.
From Verif.Spec Require Import Plonk PlonkCircuit PlonkRegions.
From Verif.Proofs Require Import PoseidonProofs GateRows HashRegion.
Import ListNotations.

(** copies given by a list *)
Definition cell_eqb (p q : nat * nat) : bool := ((fst p =? fst q) && (snd p =? snd q))%nat.
Lemma cell_eqb_eq p q : cell_eqb p q = true <-> p = q.
Proof. unfold cell_eqb. rewrite andb_true_iff, !Nat.eqb_eq. destruct p, q. cbn. split; [intros [-> ->]; reflexivity|intros E; injection E; auto]. Qed.
Definition to_next (l : list ((nat * nat) * (nat * nat))) (p : nat * nat) : nat * nat :=
  match find (fun pq => cell_eqb (fst pq) p) l with Some pq => snd pq | None => p end.
Definition flip (l : list ((nat * nat) * (nat * nat))) : list ((nat * nat) * (nat * nat)) := map (fun pq => (snd pq, fst pq)) l.
Definition cyclic (l : list ((nat * nat) * (nat * nat))) : bool :=
  forallb (fun pq => cell_eqb (to_next (flip l) (snd pq)) (fst pq)) l &&
  forallb (fun pq => existsb (fun pq' => cell_eqb (fst pq') (snd pq)) l) l.
Lemma to_next_cases l p : (exists q, In (p, q) l /\ to_next l p = q) \/ ((forall q, ~ In (p, q) l) /\ to_next l p = p).
Proof.
  unfold to_next. destruct (find (fun pq => cell_eqb (fst pq) p) l) as [[p' q]|] eqn:E.
  - apply find_some in E as [I E]. cbn in E. apply cell_eqb_eq in E. subst p'. left. exists q. auto.
  - right. split; [|reflexivity]. intros q I. pose proof (find_none _ _ E _ I) as F. cbn in F. rewrite (proj2 (cell_eqb_eq p p) eq_refl) in F. discriminate F.
Qed.
Lemma to_next_back l p : cyclic l = true -> to_next (flip l) (to_next l p) = p.
Proof.
  intros C. apply andb_true_iff in C as [C1 C2]. rewrite forallb_forall in C1, C2.
  destruct (to_next_cases l p) as [(q & I & ->)|[N ->]].
  - apply cell_eqb_eq. exact (C1 (p, q) I).
  - destruct (to_next_cases (flip l) p) as [(q & I & _)|[_ ->]]; [|reflexivity].
    exfalso. unfold flip in I. apply in_map_iff in I as ([p' q'] & E & I). cbn in E. injection E as -> ->.
    specialize (C2 _ I). cbn in C2. apply existsb_exists in C2 as ([p1 q1] & I1 & E1). cbn in E1. apply cell_eqb_eq in E1. subst p1. exact (N _ I1).
Qed.
Definition hash_copies : list ((nat * nat) * (nat * nat)) :=
  [((0, 0), (6, 41)); ((6, 41), (0, 1)); ((0, 1), (0, 0));
   ((1, 0), (6, 42)); ((6, 42), (1, 1)); ((1, 1), (1, 0));
   ((2, 0), (6, 43)); ((6, 43), (2, 1)); ((2, 1), (2, 0));
   ((0, 2), (5, 0)); ((5, 0), (0, 2)); ((1, 2), (5, 1)); ((5, 1), (1, 2));
   ((0, 4), (0, 3)); ((0, 3), (0, 4)); ((1, 4), (1, 3)); ((1, 3), (1, 4)); ((2, 4), (2, 3)); ((2, 3), (2, 4));
   ((0, 40), (5, 2)); ((5, 2), (0, 40))]%nat.
Definition round_of (r : nat) : nat := if (r <=? 4)%nat then r else if (r <=? 32)%nat then (4 + 2 * (r - 4))%nat else (60 + (r - 32))%nat.
Definition between (a i b : nat) : bool := ((a <=? i) && (i <? b))%nat.
Lemma between_true a i b : (a <= i < b)%nat -> between a i b = true.
Proof. intros L. unfold between. apply andb_true_iff. rewrite Nat.leb_le, Nat.ltb_lt. exact L. Qed.
Lemma between_false a i b : ~ (a <= i < b)%nat -> between a i b = false.
Proof. intros L. unfold between. apply andb_false_iff. rewrite Nat.leb_gt, Nat.ltb_ge. lia. Qed.

Section HashCircuit.
  Variable K : Fld.
  Open Scope fld_scope.
  Add Field kf : (flaw K).
  Variable rc : nat -> nat -> K.
  Variable cap : K.
  Definition hash_fixed (j i : nat) : K :=
    match j with
    | 20 => if between 4 i 8 || between 36 i 40 then f1 else f0
    | 21 => if between 8 i 36 then f1 else f0
    | 22 => if (i =? 2)%nat then f1 else f0
    | 12 | 13 | 14 => if between 4 i 40 then rc (round_of (i - 4)) (j - 12)%nat else f0
    | 15 | 16 | 17 => if between 8 i 36 then rc (round_of (i - 4) + 1)%nat (j - 15)%nat else if (i =? 43)%nat && (j =? 15)%nat then cap else f0
    | _ => f0
    end%nat.
  Definition hash_circuit : circuit K := Circuit K hash_fixed (fun j i => to_next hash_copies (j, i)).
  Variable n : nat.
  Hypothesis Ln : (50 <= n)%nat.
  Lemma hash_usable i : (i < 44)%nat -> (i < usable n)%nat.
  Proof. unfold usable, blinding. lia. Qed.
  Lemma hash_ok : circuit_ok K n hash_circuit.
  Proof.
    intros j i Lj Li. cbn [partner hash_circuit].
    destruct (to_next_cases hash_copies (j, i)) as [(q & I & ->)|[_ ->]]; [|split; assumption].
    assert (B : forallb (fun pq : (nat * nat) * (nat * nat) => (fst (snd pq) <? 9) && (snd (snd pq) <? 44))%nat hash_copies = true) by reflexivity.
    rewrite forallb_forall in B. specialize (B _ I). cbn [fst snd] in B. apply andb_true_iff in B as [B1 B2].
    apply Nat.ltb_lt in B1, B2. split; [exact B1|]. apply hash_usable. exact B2.
  Qed.
  Lemma hash_cycles : cycles K n hash_circuit.
  Proof.
    intros j i j' i' _ _ _ _ E. cbn [partner hash_circuit] in E.
    assert (E' : (j, i) = (j', i')).
    { rewrite <- (to_next_back hash_copies (j, i) eq_refl), <- (to_next_back hash_copies (j', i') eq_refl). rewrite E. reflexivity. }
    split; [exact (f_equal fst E')|exact (f_equal snd E')].
  Qed.
  Lemma step p q : In (p, q) hash_copies -> to_next hash_copies p = q -> (fst p < 9)%nat -> (snd p < 44)%nat -> linked K n hash_circuit p q.
  Proof.
    intros _ E L1 L2. pose proof (linked_next K n hash_circuit p p (linked_refl K n hash_circuit p) L1 (hash_usable _ L2)) as H.
    cbn [partner hash_circuit] in H. rewrite <- surjective_pairing, E in H. exact H.
  Qed.
  Lemma hash_layout : hash_region K n hash_circuit rc cap (5, 0)%nat (5, 1)%nat 0 1 4.
  Proof.
    split; [split; [lia|reflexivity]|]. split.
    - split; [lia|]. split; [|split].
      + intros r Lr. do 4 (destruct r as [|r]; [split; [reflexivity|intros [|[|[|j]]] Lj; [reflexivity..|exfalso; lia]]|]). exfalso. lia.
      + intros r Lr. cbn [fixed hash_circuit].
        assert (R : round_of (4 + 4 + r - 4) = (4 + 2 * r)%nat).
        { unfold round_of. destruct (Nat.leb_spec (4 + 4 + r - 4) 4); [lia|]. destruct (Nat.leb_spec (4 + 4 + r - 4) 32); lia. }
        split; [unfold hash_fixed; rewrite between_true by lia; reflexivity|].
        intros j Lj. destruct j as [|[|[|j]]]; [..|exfalso; lia]; cbn [Nat.add]; unfold hash_fixed; rewrite !between_true by lia; cbn [Nat.add] in R; rewrite R; split; reflexivity.
      + intros r Lr. do 4 (destruct r as [|r]; [split; [reflexivity|intros [|[|[|j]]] Lj; [reflexivity..|exfalso; lia]]|]). exfalso. lia.
    - split; [|split; [|split; [|split]]].
      + intros j Lj. exists (41 + j)%nat. do 3 (destruct j as [|j]; [split; [reflexivity|apply step; [cbn; tauto|reflexivity|cbn; lia|cbn; lia]]|]). exfalso. lia.
      + intros j Lj. do 3 (destruct j as [|j]; [apply step; [cbn; tauto|reflexivity|cbn; lia|cbn; lia]|]). exfalso. lia.
      + apply step; [cbn; tauto|reflexivity|cbn; lia|cbn; lia].
      + apply step; [cbn; tauto|reflexivity|cbn; lia|cbn; lia].
      + intros j Lj. do 3 (destruct j as [|j]; [apply step; [cbn; tauto|reflexivity|cbn; lia|cbn; lia]|]). exfalso. lia.
  Qed.
  Lemma hash_out : linked K n hash_circuit (hash_output 4) (5, 2)%nat.
  Proof. apply step; [cbn; tauto|reflexivity|cbn; lia|cbn; lia]. Qed.

  (** ** the assignment *)
  Variable sp : pspec K.
  Hypothesis H8 : full_rounds sp = 8%nat.
  Hypothesis H56 : Poseidon.partial_rounds sp = 56%nat.
  Hypothesis Hinv : mds_inv K (m_reg sp) = Some (m_inv sp).
  Variables mds minv : nat -> nat -> K.
  Hypothesis Hm : forall i j, (i < 3)%nat -> (j < 3)%nat -> mds i j = at3 (at3 (m_reg sp) i) j.
  Hypothesis Hmi : forall i j, (i < 3)%nat -> (j < 3)%nat -> minv i j = at3 (at3 (m_inv sp) i) j.
  Hypothesis Hrc : forall r, (r < 64)%nat -> nth_error (rcs sp) r = Some (tab3 (rc r)).
  Variables x y : K.
  Definition st (r : nat) : arr3 K := steps K sp rc 0 (round_of r) (0 + x, 0 + y, cap).
  Definition row_state (i : nat) : arr3 K :=
    match i with 0 | 1 => (f0, f0, cap) | 2 => (x, y, f0) | 3 => (f0 + x, f0 + y, cap)%fld | _ => st (i - 4) end%nat.
  Definition hash_advice (j i : nat) : K :=
    match j with
    | 0 | 1 | 2 => at3 (row_state i) j
    | 3 => if between 8 i 36 then sbox K (at3 (row_state i) 0 + rc (round_of (i - 4)) 0%nat)%fld else f0
    | _ => f0
    end%nat.
  Lemma state_row i : state K hash_advice i = row_state i.
  Proof. unfold state, tab3, hash_advice. exact (tab3_at3 (row_state i)). Qed.
  Lemma rows_step i k : (4 <= i)%nat -> round_of (i + 1 - 4) = S k -> round_of (i - 4) = k -> row_state (i + 1) = rnd K sp rc k (row_state i).
  Proof.
    intros L E1 E2. destruct i as [|[|[|[|i]]]]; [exfalso; lia..|]. change (row_state (S (S (S (S i))))) with (st (S (S (S (S i))) - 4)).
    change (row_state (S (S (S (S i))) + 1)) with (st (S (S (S (S i))) + 1 - 4)). unfold st. rewrite E1, E2.
    rewrite (steps_S K sp H8 H56 rc 0). reflexivity.
  Qed.
  Lemma rows_step2 i k : (4 <= i)%nat -> round_of (i + 1 - 4) = S (S k) -> round_of (i - 4) = k -> row_state (i + 1) = rnd K sp rc (k + 1) (rnd K sp rc k (row_state i)).
  Proof.
    intros L E1 E2. destruct i as [|[|[|[|i]]]]; [exfalso; lia..|]. change (row_state (S (S (S (S i))))) with (st (S (S (S (S i))) - 4)).
    change (row_state (S (S (S (S i))) + 1)) with (st (S (S (S (S i))) + 1 - 4)). unfold st. rewrite E1, E2.
    rewrite !(steps_S K sp H8 H56 rc 0). replace (0 + S k)%nat with (k + 1)%nat by lia. reflexivity.
  Qed.
  Lemma hash_gates i : (i < n)%nat -> Forall (fun v => v = 0) (gates K mds minv n hash_circuit hash_advice i).
  Proof.
    intros Li. unfold gates. apply Forall_app4. split; [|split; [|split]].
    - constructor; [|constructor]. apply main_off. intros j Lj. do 9 (destruct j as [|j]; [reflexivity|]). exfalso. lia.
    - destruct (between 4 i 8 || between 36 i 40) eqn:E.
      + assert (L : (4 <= i < 8 \/ 36 <= i < 40)%nat).
        { apply orb_true_iff in E. unfold between in E. rewrite !andb_true_iff, !Nat.leb_le, !Nat.ltb_lt in E. lia. }
        set (r := round_of (i - 4)).
        assert (R : (r < 4 /\ round_of (i + 1 - 4) = S r \/ 60 <= r /\ round_of (i + 1 - 4) = S r)%nat).
        { subst r. unfold round_of. destruct (Nat.leb_spec (i - 4) 4), (Nat.leb_spec (i - 4) 32), (Nat.leb_spec (i + 1 - 4) 4), (Nat.leb_spec (i + 1 - 4) 32); lia. }
        apply (full_row K sp H8 H56 mds Hm rc n hash_circuit hash_advice i r); [lia|cbn [fixed hash_circuit hash_fixed]; rewrite E; reflexivity| |lia|].
        * intros j Lj. cbn [fixed hash_circuit]. destruct j as [|[|[|j]]]; [..|exfalso; lia]; cbn [Nat.add hash_fixed]; rewrite between_true by lia; reflexivity.
        * rewrite !state_row. apply rows_step; [lia|lia|reflexivity].
      + apply full_rounds_off. cbn [cell row_at fixed hash_circuit hash_fixed]. rewrite E. reflexivity.
    - destruct (between 8 i 36) eqn:E.
      + assert (L : (8 <= i < 36)%nat).
        { unfold between in E. rewrite andb_true_iff, Nat.leb_le, Nat.ltb_lt in E. exact E. }
        set (r := round_of (i - 4)).
        assert (R : (4 <= r < 59 /\ round_of (i + 1 - 4) = S (S r))%nat).
        { subst r. unfold round_of. destruct (Nat.leb_spec (i - 4) 4), (Nat.leb_spec (i - 4) 32), (Nat.leb_spec (i + 1 - 4) 4), (Nat.leb_spec (i + 1 - 4) 32); lia. }
        apply (partial_row K sp H8 H56 Hinv mds minv Hm Hmi rc n hash_circuit hash_advice i r); [lia|cbn [fixed hash_circuit hash_fixed]; rewrite E; reflexivity| |lia|].
        * intros j Lj. cbn [fixed hash_circuit]. destruct j as [|[|[|j]]]; [..|exfalso; lia]; cbn [Nat.add hash_fixed]; rewrite !between_true by lia; split; reflexivity.
        * split; [|rewrite !state_row; apply rows_step2; [lia|lia|reflexivity]].
          cbn [hash_advice]. rewrite E. reflexivity.
      + apply partial_rounds_off. cbn [cell row_at fixed hash_circuit hash_fixed]. rewrite E. reflexivity.
    - destruct (i =? 2)%nat eqn:E.
      + apply Nat.eqb_eq in E. subst i. change 2%nat with (1 + 1)%nat. apply (addition_row K sp H8 H56); [lia|reflexivity|]. rewrite state_row. reflexivity.
      + apply addition_off. cbn [cell row_at fixed hash_circuit hash_fixed]. rewrite E. reflexivity.
  Qed.
  Variable tag : K.
  Lemma hash_sat insts : nth 0 insts 0 = x -> nth 1 insts 0 = y -> nth 2 insts 0 = hash_2 K sp cap x y ->
    satisfied K mds minv tag n hash_circuit insts hash_advice.
  Proof.
    intros E0 E1 E2. split; [intros i Li; apply hash_gates; exact Li|]. split.
    - assert (C : Forall (fun pq => copied K n hash_circuit insts hash_advice (fst (fst pq)) (snd (fst pq)) =
                                    copied K n hash_circuit insts hash_advice (fst (snd pq)) (snd (snd pq))) hash_copies).
      { assert (O : at3 (row_state 40) 0 = nth 2 insts 0).
        { rewrite E2. unfold hash_2. rewrite (permute_steps K sp H8 H56 rc Hrc). reflexivity. }
        unfold hash_copies. repeat (apply Forall_cons; [cbn [fst snd]; first [reflexivity|exact (eq_sym E0)|exact E0|exact (eq_sym E1)|exact E1|exact O|exact (eq_sym O)]|]).
        constructor. }
      intros j i Lj Li. cbn [partner hash_circuit].
      destruct (to_next_cases hash_copies (j, i)) as [(q & I & ->)|[_ ->]]; [|reflexivity].
      exact (proj1 (Forall_forall _ _) C _ I).
    - intros k i Lk Li. exists 0%nat. split; [apply hash_usable; lia|]. unfold looked_up, table_row. cbn [hash_circuit fixed hash_fixed].
      do 5 (destruct k as [|k]; [f_equal; ring|]). exfalso. lia.
  Qed.
  Lemma hash_sat_iff insts : nth 0 insts 0 = x -> nth 1 insts 0 = y ->
    ((exists advice, satisfied K mds minv tag n hash_circuit insts advice) <-> nth 2 insts 0 = hash_2 K sp cap x y).
  Proof.
    intros E0 E1. split.
    - intros (advice & S). pose proof (hash_run K sp H8 H56 Hinv mds minv Hm Hmi rc Hrc n tag hash_circuit insts advice S cap _ _ _ _ _ hash_layout) as R.
      rewrite (linked_value K mds minv n tag hash_circuit insts advice S _ _ hash_out) in R.
      change (nth 2 insts 0 = hash_2 K sp cap (nth 0 insts 0) (nth 1 insts 0)) in R. rewrite R, E0, E1. reflexivity.
    - intros E2. exists hash_advice. apply hash_sat; assumption.
  Qed.
End HashCircuit.
