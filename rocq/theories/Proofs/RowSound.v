(** A circuit that is not satisfied: whatever is committed, for all but few theta, beta and gamma some constraint fails on some row. *)
From Coq Require Import ZArith NArith Nnat List Lia Field Bool.
From Verif.Base Require Import Fld Fp Poly.
From Verif.Spec Require Import Few Plonk PlonkCircuit.
From Verif.Proofs Require Import FewProofs GrandProduct RowLagrange ConstraintSound.
Import ListNotations.

Lemma all_dec m (P : nat -> Prop) : (forall i, (i < m)%nat -> {P i} + {~ P i}) -> {forall i, (i < m)%nat -> P i} + {exists i, (i < m)%nat /\ ~ P i}.
Proof.
  induction m as [|m IH]; intros D; [left; intros i L; exfalso; lia|].
  destruct IH as [H|H]; [intros i L; apply D; lia| |right; destruct H as (i & L & N); exists i; split; [lia|exact N]].
  destruct (D m ltac:(lia)) as [Hm|Hm]; [left|right; exists m; split; [lia|exact Hm]].
  intros i L. destruct (Nat.eq_dec i m) as [->|N]; [exact Hm|]. apply H. lia.
Qed.

Section Row.
  Variable K : Fld.
  Open Scope fld_scope.
  Add Field kf : (flaw K).
  Hypothesis finite : exists all : list K, NoDup all /\ forall x, In x all.
  Variables mds mds_inv : nat -> nat -> K.
  Variables delta tag : K.
  Variable n : nat.
  Variables omega n_inv : K.
  Hypothesis n7 : (6 < n)%nat.
  Hypothesis omega_n : fpow omega (N.of_nat n) = 1.
  Hypothesis omega_inj : forall i j, (i < n)%nat -> (j < n)%nat -> fpow omega (N.of_nat i) = fpow omega (N.of_nat j) -> i = j.
  Hypothesis n_inv_ok : n_inv * fsum (map (fun _ => 1 : K) (seq 0 n)) = 1.
  Notation w i := (fpow omega (N.of_nat i)).
  Notation u := (usable n).
  Hypothesis labels : forall j j' i i', (j < 9)%nat -> (j' < 9)%nat -> (i < n)%nat -> (i' < n)%nat ->
    fpow delta (N.of_nat j) * w i = fpow delta (N.of_nat j') * w i' -> j = j' /\ i = i'.
  Lemma u_n : (u < n)%nat. Proof. unfold usable, blinding. lia. Qed.
  Lemma u_pos : (0 < u)%nat. Proof. unfold usable, blinding. lia. Qed.

  Section Values.
    Variable F : col -> list K.
    Variable insts : list K.
    Hypothesis Hinsts : (length insts <= n)%nat.
    Variables theta beta gamma : K.
    Notation E i := (ev K omega F (w i)).
    Definition val (cl : col) (i : nat) : K := peval (F cl) (w i).
    Lemma ev_row i cl r : E i cl r = val cl (row_at n i r).
    Proof. unfold ev, val. rewrite (point_row K n omega n7 omega_n). reflexivity. Qed.
    Lemma row_at_lt i r : (i < n)%nat -> (row_at n i r < n)%nat.
    Proof. intros L. destruct r; cbn [row_at]; [apply Nat.mod_upper_bound; lia|exact L|apply Nat.mod_upper_bound; lia|apply Nat.mod_upper_bound; lia]. Qed.
    Definition b2f (b : bool) : K := if b then 1 else 0.
    (** constraints of a row *)
    Definition row_cons (i : nat) : list K :=
      constraints K mds mds_inv delta tag (E i) (nth i insts 0) (b2f (Nat.eqb i 0)) (b2f (Nat.eqb i u)) (b2f (Nat.ltb u i)) theta beta gamma (w i).
    Lemma cons_row i : (i < n)%nat -> cons K mds mds_inv delta tag n omega n_inv F insts theta beta gamma (w i) = row_cons i.
    Proof.
      intros L. unfold cons, row_cons. rewrite (row_inst K n omega n_inv n7 omega_n omega_inj n_inv_ok insts i L Hinsts),
        !(Lp_row K n omega n_inv n7 omega_n omega_inj n_inv_ok) by (try exact L; try exact u_n; lia).
      rewrite (row_blind K n omega n_inv n7 omega_n omega_inj n_inv_ok i L). reflexivity.
    Qed.
    Definition some_bad : Prop := bad_row K mds mds_inv delta tag n omega n_inv F insts theta beta gamma.
    Lemma bad_in i v : (i < n)%nat -> In v (row_cons i) -> v <> 0 -> some_bad.
    Proof. intros L I N. exists i. split; [exact L|]. exists v. rewrite (cons_row i L). split; [exact I|exact N]. Qed.
    Lemma row_dec : (forall i, (i < n)%nat -> forall v, In v (row_cons i) -> v = 0) \/ some_bad.
    Proof.
      destruct (all_dec n (fun i => Forall (fun v => v = 0) (row_cons i))) as [H|H].
      - intros i L. apply Forall_dec. intros v. apply feq_dec.
      - left. intros i L v Hv. specialize (H i L). rewrite Forall_forall in H. exact (H v Hv).
      - right. destruct H as (i & L & N).
        destruct (Exists_dec (fun v => v <> 0) (row_cons i)) as [X|X].
        + intros v. destruct (feq_dec v 0) as [->|D]; [right; intros D; apply D; reflexivity|left; exact D].
        + apply Exists_exists in X as (v & Hv & D). exact (bad_in i v L Hv D).
        + exfalso. apply N. apply Forall_forall. intros v Hv. destruct (feq_dec v 0) as [E|D]; [exact E|]. exfalso. apply X.
          apply Exists_exists. exists v. split; assumption.
    Qed.
    Lemma in_gates i v : In v ([main_gate K (E i)] ++ map (full_round K mds (E i)) (seq 0 3) ++ partial_rounds K mds mds_inv (E i) ++ pad_and_add K (E i)) ->
      In v (row_cons i).
    Proof. unfold row_cons, constraints. rewrite !in_app_iff. tauto. Qed.
    Lemma in_perm i v : In v (permutation K delta (E i) (nth i insts 0) (b2f (Nat.eqb i 0)) (b2f (Nat.eqb i u)) (b2f (Nat.ltb u i)) beta gamma (w i)) ->
      In v (row_cons i).
    Proof. unfold row_cons, constraints. rewrite !in_app_iff. tauto. Qed.
    Lemma in_look k i v : (k < 5)%nat -> In v (lookup K tag (E i) (b2f (Nat.eqb i 0)) (b2f (Nat.eqb i u)) (b2f (Nat.ltb u i)) theta beta gamma k) -> In v (row_cons i).
    Proof.
      intros Lk H. unfold row_cons, constraints. rewrite !in_app_iff. do 5 right. apply in_flat_map. exists k. split; [apply in_seq; lia|exact H].
    Qed.
    Lemma active_1 i : (i < u)%nat -> active K (b2f (Nat.eqb i u)) (b2f (Nat.ltb u i)) = 1.
    Proof. intros L. unfold active. destruct (Nat.eqb_spec i u); [lia|]. destruct (Nat.ltb_spec u i); [lia|]. cbn [b2f]. ring. Qed.
    Lemma next_row i : (i < u)%nat -> row_at n i Next = S i.
    Proof. intros L. cbn [row_at]. rewrite Nat.mod_small; [lia|]. pose proof u_n. lia. Qed.
    Lemma last_row : row_at n 0 Last = u.
    Proof. cbn [row_at]. rewrite Nat.add_0_l. apply Nat.mod_small. exact u_n. Qed.
    Lemma prev_row i : (S i < u)%nat -> row_at n (S i) Prev = i.
    Proof.
      intros L. cbn [row_at]. replace (S i + (n - 1))%nat with (i + 1 * n)%nat by lia. rewrite Nat.mod_add by lia. apply Nat.mod_small. pose proof u_n. lia.
    Qed.
    Lemma b2f_same m : b2f (Nat.eqb m m) = 1. Proof. rewrite Nat.eqb_refl. reflexivity. Qed.
    Lemma one_mul (v : K) : 1 * v = 0 -> v = 0. Proof. intros <-. ring. Qed.

    Section Zero.
      Hypothesis Hz : forall i, (i < n)%nat -> forall v, In v (row_cons i) -> v = 0.
      Section Look.
        Variable k : nat.
        Hypothesis Lk : (k < 5)%nat.
        Lemma look_0 : val (LookZ k) 0 = 1.
        Proof.
          pose proof (Hz 0 ltac:(lia) _ (in_look k 0 _ Lk (or_introl eq_refl))) as H. rewrite b2f_same, ev_row in H. apply one_mul in H.
          symmetry. apply (fsub_eq0 K). exact H.
        Qed.
        Lemma look_u : val (LookZ k) u * val (LookZ k) u - val (LookZ k) u = 0.
        Proof.
          pose proof (Hz u u_n _ (in_look k u _ Lk (or_intror (or_introl eq_refl)))) as H. rewrite b2f_same, ev_row in H. apply one_mul in H. exact H.
        Qed.
        Lemma look_step i : (i < u)%nat -> val (LookZ k) (S i) * ((val (LookA k) i + beta) * (val (LookS k) i + gamma)) -
            val (LookZ k) i * ((look_input K tag (E i) theta k + beta) * (look_table K (E i) theta + gamma)) = 0.
        Proof.
          intros L. assert (Ln : (i < n)%nat) by (pose proof u_n; lia).
          pose proof (Hz i Ln _ (in_look k i _ Lk (or_intror (or_intror (or_introl eq_refl))))) as H.
          rewrite (active_1 i L), !ev_row, (next_row i L) in H. apply one_mul in H. exact H.
        Qed.
      End Look.
      Notation num j i := (permuted K (E i) (nth i insts 0) j + beta * (fpow delta (N.of_nat j) * w i) + gamma).
      Notation den j i := (permuted K (E i) (nth i insts 0) j + beta * val (Sig j) i + gamma).
      Lemma perm_in i k : (i < n)%nat -> (k < 7)%nat ->
        nth k (permutation K delta (E i) (nth i insts 0) (b2f (Nat.eqb i 0)) (b2f (Nat.eqb i u)) (b2f (Nat.ltb u i)) beta gamma (w i)) 0 = 0.
      Proof. intros L Lk. apply (Hz i L). apply in_perm. apply nth_In. exact Lk. Qed.
      Lemma perm_0 : val (PermZ 0) 0 = 1.
      Proof. pose proof (perm_in 0 0 ltac:(lia) ltac:(lia)) as H. cbn [nth permutation] in H. rewrite b2f_same, ev_row in H. apply one_mul in H. symmetry. apply (fsub_eq0 K). exact H. Qed.
      Lemma perm_u : val (PermZ 2) u * val (PermZ 2) u - val (PermZ 2) u = 0.
      Proof. pose proof (perm_in u 1 u_n ltac:(lia)) as H. cbn [nth permutation] in H. rewrite b2f_same, ev_row in H. apply one_mul in H. exact H. Qed.
      Lemma perm_1 : val (PermZ 1) 0 = val (PermZ 0) u.
      Proof. pose proof (perm_in 0 2 ltac:(lia) ltac:(lia)) as H. cbn [nth permutation] in H. rewrite b2f_same, !ev_row, last_row in H. apply one_mul in H. apply (fsub_eq0 K). exact H. Qed.
      Lemma perm_2 : val (PermZ 2) 0 = val (PermZ 1) u.
      Proof. pose proof (perm_in 0 3 ltac:(lia) ltac:(lia)) as H. cbn [nth permutation] in H. rewrite b2f_same, !ev_row, last_row in H. apply one_mul in H. apply (fsub_eq0 K). exact H. Qed.
      Lemma step_gen z js i : (i < u)%nat ->
        permutation_step K delta (E i) (nth i insts 0) (b2f (Nat.eqb i u)) (b2f (Nat.ltb u i)) beta gamma (w i) z js = 0 ->
        val (PermZ z) (S i) * fprod (map (fun j => den j i) js) = val (PermZ z) i * fprod (map (fun j => num j i) js).
      Proof.
        intros L H. unfold permutation_step in H. rewrite (active_1 i L), !ev_row, (next_row i L) in H. apply one_mul in H. apply (fsub_eq0 K) in H.
        transitivity (val (PermZ z) (S i) * fold_right fmul 1 (map (fun j => permuted K (E i) (nth i insts 0) j + beta * E i (Sig j) Cur + gamma) js)).
        - unfold fprod. do 2 apply f_equal. apply map_ext. intros j. rewrite ev_row. reflexivity.
        - refine (eq_trans H _). unfold fprod. do 2 apply f_equal. apply map_ext. intros j. ring.
      Qed.
      Lemma perm_step z js k : nth k [[0; 1; 2; 3]; [4; 5; 6; 7]; [8]]%nat [] = js -> (k < 3)%nat -> z = k -> forall i, (i < u)%nat ->
        val (PermZ z) (S i) * fprod (map (fun j => den j i) js) = val (PermZ z) i * fprod (map (fun j => num j i) js).
      Proof.
        intros Hjs Lk -> i L. apply step_gen; [exact L|]. assert (Ln : (i < n)%nat) by (pose proof u_n; lia).
        destruct k as [|[|[|k]]]; [| | |exfalso; lia]; cbn [nth] in Hjs; subst js;
          [exact (perm_in i 4 Ln ltac:(lia))|exact (perm_in i 5 Ln ltac:(lia))|exact (perm_in i 6 Ln ltac:(lia))].
      Qed.
      Lemma pr_split a b (f : nat -> K) : pr K (a + b) f = pr K a f * pr K b (fun i => f (a + i)%nat).
      Proof.
        induction b as [|b IH]; [rewrite Nat.add_0_r; unfold pr at 3; cbn; ring|]. rewrite Nat.add_succ_r, !(pr_S K), IH. ring.
      Qed.
      Lemma pr_nest m v (f : nat -> K) : pr K (m * v) f = pr K v (fun i => pr K m (fun j => f (m * i + j)%nat)).
      Proof.
        induction v as [|v IH]; [rewrite Nat.mul_0_r; reflexivity|]. rewrite Nat.mul_succ_r, pr_split, IH, (pr_S K). reflexivity.
      Qed.
      Lemma idx i j : (j < 9)%nat -> ((9 * i + j) mod 9 = j /\ (9 * i + j) / 9 = i)%nat.
      Proof.
        intros L. replace (9 * i + j)%nat with (j + i * 9)%nat by lia. rewrite Nat.mod_add, Nat.div_add by lia. rewrite Nat.mod_small, Nat.div_small by exact L. split; reflexivity.
      Qed.
      Lemma nine (f : nat -> nat -> K) : pr K (9 * u) (fun c => f (c mod 9)%nat (c / 9)%nat) = pr K u (fun i => fprod (map (fun j => f j i) [0; 1; 2; 3; 4; 5; 6; 7; 8]%nat)).
      Proof.
        rewrite pr_nest. apply pr_ext. intros i _. change [0; 1; 2; 3; 4; 5; 6; 7; 8]%nat with (seq 0 9).
        change (pr K 9 (fun j => f ((9 * i + j) mod 9)%nat ((9 * i + j) / 9)%nat) = pr K 9 (fun j => f j i)).
        apply pr_ext. intros j Lj. destruct (idx i j Lj) as (-> & ->). reflexivity.
      Qed.
      Lemma perm_total : val (PermZ 2) u * pr K (9 * u) (fun c => den (c mod 9)%nat (c / 9)%nat) = pr K (9 * u) (fun c => num (c mod 9)%nat (c / 9)%nat).
      Proof.
        rewrite (nine (fun j i => den j i)), (nine (fun j i => num j i)).
        pose proof (telescope K u _ _ _ (perm_step 0 [0; 1; 2; 3]%nat 0 eq_refl ltac:(lia) eq_refl)) as T0.
        pose proof (telescope K u _ _ _ (perm_step 1 [4; 5; 6; 7]%nat 1 eq_refl ltac:(lia) eq_refl)) as T1.
        pose proof (telescope K u _ _ _ (perm_step 2 [8]%nat 2 eq_refl ltac:(lia) eq_refl)) as T2.
        rewrite perm_0 in T0. rewrite perm_1 in T1. rewrite perm_2 in T2.
        assert (S9 : forall f : nat -> nat -> K, pr K u (fun i => fprod (map (fun j => f j i) [0; 1; 2; 3; 4; 5; 6; 7; 8]%nat)) =
            pr K u (fun i => fprod (map (fun j => f j i) [0; 1; 2; 3]%nat)) * pr K u (fun i => fprod (map (fun j => f j i) [4; 5; 6; 7]%nat)) *
            pr K u (fun i => fprod (map (fun j => f j i) [8]%nat))).
        { intros f. rewrite <- !(pr_mul K). apply pr_ext. intros i _. change [0; 1; 2; 3; 4; 5; 6; 7; 8]%nat with ([0; 1; 2; 3] ++ [4; 5; 6; 7] ++ [8])%nat.
          rewrite !map_app, !fprod_app. ring. }
        rewrite (S9 (fun j i => den j i)), (S9 (fun j i => num j i)).
        set (D0 := pr K u (fun i => fprod (map (fun j => den j i) [0; 1; 2; 3]%nat))) in *.
        set (D1 := pr K u (fun i => fprod (map (fun j => den j i) [4; 5; 6; 7]%nat))) in *.
        set (D2 := pr K u (fun i => fprod (map (fun j => den j i) [8]%nat))) in *.
        set (N0 := pr K u (fun i => fprod (map (fun j => num j i) [0; 1; 2; 3]%nat))) in *.
        set (N1 := pr K u (fun i => fprod (map (fun j => num j i) [4; 5; 6; 7]%nat))) in *.
        set (N2 := pr K u (fun i => fprod (map (fun j => num j i) [8]%nat))) in *.
        transitivity (D0 * D1 * (val (PermZ 2) u * D2)); [ring|]. rewrite T2. transitivity (D0 * N2 * (val (PermZ 1) u * D1)); [ring|]. rewrite T1.
        transitivity (N2 * N1 * (val (PermZ 0) u * D0)); [ring|]. rewrite T0. ring.
      Qed.
    End Zero.
  End Values.

  (** *** the circuit *)
  Variable c : circuit K.
  Hypothesis Hc : circuit_ok K n c.
  Variables fx sg : nat -> list K.
  Hypothesis Hd : describes K n omega delta c fx sg.
  Variable insts : list K.
  Hypothesis Hinsts : (length insts <= n)%nat.
  Variable adv : nat -> list K.
  Notation advice := (fun j i => in_row K omega (adv j) i).
  Notation bad theta A' S' beta gamma Z L R := (some_bad (column K fx sg (Messages K adv A' S' Z L R)) insts theta beta gamma).

  Lemma e_cell m i cl r : (i < n)%nat -> m_advice K m = adv -> match cl with Adv _ | Fix_ _ => True | _ => False end ->
    ev K omega (column K fx sg m) (w i) cl r = cell K n c advice i cl r.
  Proof.
    intros L Hm H. rewrite ev_row. unfold val. destruct cl; try contradiction; cbn [column cell].
    - rewrite Hm. reflexivity.
    - refine (proj2 (proj1 Hd _) _ _). apply (row_at_lt insts Hinsts). exact L.
  Qed.
  Lemma gates_ext e e' : (forall j r, e (Adv j) r = e' (Adv j) r) -> (forall j r, e (Fix_ j) r = e' (Fix_ j) r) ->
    [main_gate K e] ++ map (full_round K mds e) (seq 0 3) ++ partial_rounds K mds mds_inv e ++ pad_and_add K e =
    [main_gate K e'] ++ map (full_round K mds e') (seq 0 3) ++ partial_rounds K mds mds_inv e' ++ pad_and_add K e'.
  Proof.
    intros Ha Hf. cbn [app map seq]. unfold main_gate, full_round, partial_rounds, pad_and_add, middle, unmixed, a, f. cbn [map seq fold_right app].
    rewrite !Ha, !Hf. reflexivity.
  Qed.
  Lemma gates_row m i : (i < n)%nat -> m_advice K m = adv -> forall e, e = ev K omega (column K fx sg m) (w i) ->
    [main_gate K e] ++ map (full_round K mds e) (seq 0 3) ++ partial_rounds K mds mds_inv e ++ pad_and_add K e = gates K mds mds_inv n c advice i.
  Proof.
    intros L Hm e ->. apply gates_ext; intros j r; apply e_cell; try assumption; exact I.
  Qed.
  Lemma permuted_ext e e' v j : (forall j r, e (Adv j) r = e' (Adv j) r) -> (forall j r, e (Fix_ j) r = e' (Fix_ j) r) -> permuted K e v j = permuted K e' v j.
  Proof. intros Ha Hf. unfold permuted, a, f. do 8 (destruct j as [|j]; [auto|]). auto. Qed.
  Lemma copied_row m i j : (i < n)%nat -> m_advice K m = adv ->
    permuted K (ev K omega (column K fx sg m) (w i)) (nth i insts 0) j = copied K n c insts advice j i.
  Proof. intros L Hm. apply permuted_ext; intros j' r; apply e_cell; try assumption; exact I. Qed.
  Lemma input_row m i k theta : (i < n)%nat -> m_advice K m = adv -> (k < 5)%nat ->
    look_input K tag (ev K omega (column K fx sg m) (w i)) theta k = fst (looked_up K tag c advice k i) * theta + snd (looked_up K tag c advice k i).
  Proof.
    intros L Hm Lk.
    do 5 (destruct k as [|k]; [cbn [look_input looked_up fst snd]; unfold a, f; rewrite !e_cell by (try assumption; exact I); reflexivity|]). exfalso. lia.
  Qed.
  Lemma table_row_eq m i theta : (i < n)%nat -> m_advice K m = adv ->
    look_table K (ev K omega (column K fx sg m) (w i)) theta = fst (table_row K c i) * theta + snd (table_row K c i).
  Proof. intros L Hm. unfold look_table, f. rewrite !e_cell by (try assumption; exact I). reflexivity. Qed.

  Lemma pair_eq_dec (x y : K * K) : {x = y} + {x <> y}.
  Proof. destruct x as [a b], y as [a' b']. destruct (feq_dec a a') as [->|D]; [destruct (feq_dec b b') as [->|D]; [left; reflexivity|]|]; right; intros E; apply D; congruence. Qed.
  Lemma violated : ~ satisfied K mds mds_inv tag n c insts advice ->
    (exists i v, (i < n)%nat /\ In v (gates K mds mds_inv n c advice i) /\ v <> 0) \/
    (exists j i, (j < 9)%nat /\ (i < u)%nat /\ copied K n c insts advice j i <> copied K n c insts advice (fst (partner K c j i)) (snd (partner K c j i))) \/
    (exists k i, (k < 5)%nat /\ (i < u)%nat /\ forall i', (i' < u)%nat -> looked_up K tag c advice k i <> table_row K c i').
  Proof.
    intros H.
    destruct (all_dec n (fun i => Forall (fun v => v = 0) (gates K mds mds_inv n c advice i))) as [Hg|Hg].
    { intros i L. apply Forall_dec. intros v. apply feq_dec. }
    2:{ left. destruct Hg as (i & L & N). exists i.
        destruct (Exists_dec (fun v => v <> 0) (gates K mds mds_inv n c advice i)) as [X|X].
        - intros v. destruct (feq_dec v 0) as [->|D]; [right; intros D; apply D; reflexivity|left; exact D].
        - apply Exists_exists in X as (v & Hv & D). exists v. repeat split; assumption.
        - exfalso. apply N. apply Forall_forall. intros v Hv. destruct (feq_dec v 0) as [E|D]; [exact E|]. exfalso. apply X.
          apply Exists_exists. exists v. split; assumption. }
    right.
    destruct (all_dec 9 (fun j => forall i, (i < u)%nat -> copied K n c insts advice j i = copied K n c insts advice (fst (partner K c j i)) (snd (partner K c j i)))) as [Hcp|Hcp].
    { intros j Lj. destruct (all_dec u (fun i => copied K n c insts advice j i = copied K n c insts advice (fst (partner K c j i)) (snd (partner K c j i)))) as [X|X].
      - intros i L. apply feq_dec. - left. exact X. - right. intros Y. destruct X as (i & L & D). apply D, Y, L. }
    2:{ left. destruct Hcp as (j & Lj & N).
        destruct (all_dec u (fun i => copied K n c insts advice j i = copied K n c insts advice (fst (partner K c j i)) (snd (partner K c j i)))) as [X|X].
        - intros i L. apply feq_dec. - contradiction. - destruct X as (i & L & D). exists j, i. repeat split; assumption. }
    right.
    assert (Dl : forall k i, {exists i', (i' < u)%nat /\ looked_up K tag c advice k i = table_row K c i'} + {forall i', (i' < u)%nat -> looked_up K tag c advice k i <> table_row K c i'}).
    { intros k i. destruct (all_dec u (fun i' => looked_up K tag c advice k i <> table_row K c i')) as [X|X].
      - intros i' _. destruct (pair_eq_dec (looked_up K tag c advice k i) (table_row K c i')) as [E|D]; [right; intros D; exact (D E)|left; exact D].
      - right. exact X.
      - left. destruct X as (i' & L & N). exists i'. split; [exact L|]. destruct (pair_eq_dec (looked_up K tag c advice k i) (table_row K c i')) as [E|D]; [exact E|contradiction]. }
    destruct (all_dec 5 (fun k => forall i, (i < u)%nat -> exists i', (i' < u)%nat /\ looked_up K tag c advice k i = table_row K c i')) as [Hl|Hl].
    { intros k Lk. destruct (all_dec u (fun i => exists i', (i' < u)%nat /\ looked_up K tag c advice k i = table_row K c i')) as [X|X].
      - intros i L. destruct (Dl k i) as [Y|Y]; [left; exact Y|right; intros (i' & L' & E); exact (Y i' L' E)].
      - left. exact X.
      - right. intros Y. destruct X as (i & L & N). apply N, Y, L. }
    2:{ destruct Hl as (k & Lk & N). exists k. destruct (all_dec u (fun i => exists i', (i' < u)%nat /\ looked_up K tag c advice k i = table_row K c i')) as [X|X].
        - intros i L. destruct (Dl k i) as [Y|Y]; [left; exact Y|right; intros (i' & L' & E); exact (Y i' L' E)].
        - contradiction.
        - destruct X as (i & L & Ni). exists i. split; [exact Lk|]. split; [exact L|]. destruct (Dl k i) as [Y|Y]; [contradiction|exact Y]. }
    exfalso. apply H. split; [exact Hg|]. split.
    - intros j i Lj Li. exact (Hcp j Lj i Li).
    - intros k i Lk Li. exact (Hl k Lk i Li).
  Qed.

  Theorem row_sound : ~ satisfied K mds mds_inv tag n c insts advice ->
    except u (fun theta => forall A' S', except (9 * u) (fun beta => except (18 * u) (fun gamma => forall Z L R, bad theta A' S' beta gamma Z L R))).
  Proof.
    intros H. apply violated in H as [(i & v & L & Hv & D)|[(j & i & Lj & Li & D)|(k & i & Lk & Li & D)]].
    - apply (except_le 0); [lia|]. apply except_all. intros theta A' S'. apply (except_le 0); [lia|]. apply except_all. intros beta.
      apply (except_le 0); [lia|]. apply except_all. intros gamma Z Lz R.
      apply (bad_in _ insts Hinsts theta beta gamma i v L); [|exact D]. apply in_gates.
      rewrite (gates_row (Messages K adv A' S' Z Lz R) i L eq_refl _ eq_refl). exact Hv.
    - apply (except_le 0); [lia|]. apply except_all. intros theta A' S'.
      destruct (Hc j i Lj Li) as (Lj' & Li'). set (j' := fst (partner K c j i)) in *. set (i' := snd (partner K c j i)) in *.
      pose proof u_n as Un.
      assert (Lc : (9 * i + j < 9 * u)%nat) by lia. assert (Lc' : (9 * i' + j' < 9 * u)%nat) by lia.
      destruct (idx insts Hinsts i j Lj) as (Ej & Ei). destruct (idx insts Hinsts i' j' Lj') as (Ej' & Ei').
      pose proof (copy_sound K finite (9 * u) (fun c0 => copied K n c insts advice (c0 mod 9)%nat (c0 / 9)%nat) (fun c0 => fpow delta (N.of_nat (c0 mod 9)%nat) * w (c0 / 9))
        (fun c0 => in_row K omega (sg (c0 mod 9)%nat) (c0 / 9)%nat) (9 * i + j) (9 * i' + j') Lc Lc') as CS. cbv beta in CS.
      rewrite Ej, Ei, Ej', Ei' in CS.
      assert (Inj : forall c1 c2, (c1 < 9 * u)%nat -> (c2 < 9 * u)%nat -> fpow delta (N.of_nat (c1 mod 9)%nat) * w (c1 / 9) = fpow delta (N.of_nat (c2 mod 9)%nat) * w (c2 / 9) -> c1 = c2).
      { intros c1 c2 L1 L2 E. apply labels in E as (E1 & E2).
        - rewrite (Nat.div_mod c1 9), (Nat.div_mod c2 9), E1, E2 by lia. reflexivity.
        - apply Nat.mod_upper_bound. lia. - apply Nat.mod_upper_bound. lia.
        - apply Nat.lt_trans with u; [apply Nat.div_lt_upper_bound; lia|exact Un].
        - apply Nat.lt_trans with u; [apply Nat.div_lt_upper_bound; lia|exact Un]. }
      specialize (CS Inj (proj2 (proj2 Hd j) i Lj Li) D). revert CS. apply except_impl. intros beta CS.
      apply (except_le (2 * (9 * u))); [lia|]. revert CS. apply except_impl. intros gamma CS Z Lz R.
      destruct (row_dec (column K fx sg (Messages K adv A' S' Z Lz R)) insts Hinsts theta beta gamma) as [Hz|Hb]; [exfalso|exact Hb].
      apply (CS (val (column K fx sg (Messages K adv A' S' Z Lz R)) (PermZ 2) u)).
      + exact (perm_u _ insts Hinsts theta beta gamma Hz).
      + assert (Pext : forall f g : nat -> nat -> K, (forall j i, (j < 9)%nat -> (i < u)%nat -> f j i = g j i) ->
          pr K (9 * u) (fun c => f (c mod 9)%nat (c / 9)%nat) = pr K (9 * u) (fun c => g (c mod 9)%nat (c / 9)%nat)).
        { intros f0 g0 Hfg. apply pr_ext. intros c0 L0. apply Hfg; [apply Nat.mod_upper_bound; lia|apply Nat.div_lt_upper_bound; lia]. }
        pose proof (perm_total _ insts Hinsts theta beta gamma Hz) as PT.
        rewrite (Pext (fun j i => copied K n c insts advice j i + beta * in_row K omega (sg j) i + gamma)
          (fun j i => permuted K (ev K omega (column K fx sg (Messages K adv A' S' Z Lz R)) (w i)) (nth i insts 0) j + beta * val (column K fx sg (Messages K adv A' S' Z Lz R)) (Sig j) i + gamma)).
        2:{ intros j0 i0 _ L0. rewrite copied_row by (try reflexivity; lia). reflexivity. }
        refine (eq_trans PT _). apply (Pext
          (fun j i => permuted K (ev K omega (column K fx sg (Messages K adv A' S' Z Lz R)) (w i)) (nth i insts 0) j + beta * (fpow delta (N.of_nat j) * w i) + gamma)
          (fun j i => copied K n c insts advice j i + beta * (fpow delta (N.of_nat j) * w i) + gamma)).
        intros j0 i0 _ L0. rewrite copied_row by (try reflexivity; lia). reflexivity.
    - pose proof u_n as Un. assert (Lin : (i < n)%nat) by lia.
      assert (Ht : except u (fun theta => forall i', (i' < u)%nat ->
        fst (looked_up K tag c advice k i) * theta + snd (looked_up K tag c advice k i) <> fst (table_row K c i') * theta + snd (table_row K c i'))).
      { apply (avoid_eq K u (fun i' theta => fst (looked_up K tag c advice k i) * theta + snd (looked_up K tag c advice k i) <> fst (table_row K c i') * theta + snd (table_row K c i'))).
        intros i' L'. specialize (D i' L'). destruct (looked_up K tag c advice k i) as [a1 b1], (table_row K c i') as [a2 b2]. cbn [fst snd].
        destruct (feq_dec a1 a2) as [->|Da].
        - apply (except_le 0); [lia|]. apply except_all. intros theta E. apply D. f_equal. transitivity (a2 * theta + b1 - a2 * theta); [ring|]. rewrite E. ring.
        - generalize (line_avoid K b1 a1 b2 a2 Da). apply except_impl. intros theta N E. apply N. transitivity (a1 * theta + b1); [ring|]. rewrite E. ring. }
      revert Ht. apply except_impl. intros theta Ht A' S'.
      (* the permuted columns *)
      destruct (all_dec u (fun i' => match i' with O => in_row K omega (A' k) 0 = in_row K omega (S' k) 0 | S p =>
        (in_row K omega (A' k) i' - in_row K omega (S' k) i') * (in_row K omega (A' k) i' - in_row K omega (A' k) p) = 0 end)) as [HA|HA].
      { intros i' _. destruct i'; apply feq_dec. }
      + assert (Hsub : forall i0, (i0 < u)%nat -> exists j0, (j0 < u)%nat /\ in_row K omega (A' k) i0 = in_row K omega (S' k) j0).
        { apply (permuted_in K (in_row K omega (A' k)) (in_row K omega (S' k)) u (HA 0%nat u_pos)). intros p Lp'. exact (HA (S p) Lp'). }
        pose proof (lookup_sound K finite u (fun i0 => fst (looked_up K tag c advice k i0) * theta + snd (looked_up K tag c advice k i0))
          (fun i0 => fst (table_row K c i0) * theta + snd (table_row K c i0)) (in_row K omega (A' k)) (in_row K omega (S' k)) i Li Ht Hsub) as LS.
        apply (except_le (2 * u)); [lia|]. revert LS. apply except_impl. intros beta LS. apply (except_le (2 * u)); [lia|]. revert LS. apply except_impl.
        intros gamma LS Z Lz R.
        destruct (row_dec (column K fx sg (Messages K adv A' S' Z Lz R)) insts Hinsts theta beta gamma) as [Hz|Hb]; [exfalso|exact Hb].
        apply (LS (fun i0 => val (column K fx sg (Messages K adv A' S' Z Lz R)) (LookZ k) i0)).
        * exact (look_0 _ insts Hinsts theta beta gamma Hz k Lk).
        * exact (look_u _ insts Hinsts theta beta gamma Hz k Lk).
        * intros i0 L0. pose proof (look_step _ insts Hinsts theta beta gamma Hz k Lk i0 L0) as ST.
          rewrite input_row, table_row_eq in ST by (try reflexivity; try exact Lk; lia). exact ST.
      + apply (except_le 0); [lia|]. apply except_all. intros beta. apply (except_le 0); [lia|]. apply except_all. intros gamma Z Lz R.
        destruct HA as (i0 & L0 & N0). assert (L0n : (i0 < n)%nat) by lia.
        destruct (row_dec (column K fx sg (Messages K adv A' S' Z Lz R)) insts Hinsts theta beta gamma) as [Hz|Hb]; [exfalso|exact Hb].
        apply N0. destruct i0 as [|p].
        * pose proof (Hz 0%nat L0n _ (in_look _ insts Hinsts theta beta gamma k 0 _ Lk (or_intror (or_intror (or_intror (or_introl eq_refl)))))) as X.
          rewrite b2f_same, !ev_row in X. apply one_mul in X. apply (fsub_eq0 K). exact X.
        * pose proof (Hz (S p) L0n _ (in_look _ insts Hinsts theta beta gamma k (S p) _ Lk (or_intror (or_intror (or_intror (or_intror (or_introl eq_refl))))))) as X.
          rewrite (active_1 insts Hinsts _ L0), !ev_row, (prev_row insts Hinsts p L0) in X. apply one_mul in X. exact X.
  Qed.
End Row.
