(** A circuit that is satisfied: for all but few beta and gamma there are columns that satisfy every constraint on every row. *)
From Coq Require Import ZArith NArith Nnat List Lia Field Bool.
From Verif.Base Require Import Fld Fp Poly.
From Verif.Spec Require Import Few Plonk PlonkCircuit.
From Verif.Proofs Require Import FewProofs GrandProduct GrandComplete RowLagrange ConstraintSound RowSound.
Import ListNotations.

Lemma fin_choice {A} (d : A) m (R : nat -> A -> Prop) : (forall k, (k < m)%nat -> exists a, R k a) ->
  exists f, (forall k, (k < m)%nat -> R k (f k)) /\ forall k, (m <= k)%nat -> f k = d.
Proof.
  induction m as [|m IH]; intros H.
  - exists (fun _ => d). split; [intros k L; exfalso; lia|reflexivity].
  - destruct IH as (f & F1 & F2); [intros k L; apply H; lia|]. destruct (H m ltac:(lia)) as (a & Ha).
    exists (fun k => if Nat.eqb k m then a else f k). split; intros k L; destruct (Nat.eqb_spec k m) as [->|N].
    + exact Ha. + apply F1. lia. + lia. + apply F2. lia.
Qed.

Section Row.
  Variable K : Fld.
  Open Scope fld_scope.
  Add Field kf : (flaw K).
  Hypothesis finite : exists all : list K, NoDup all /\ forall x, In x all.
  Variables mds mds_inv : nat -> nat -> K.
  Variables delta tag : K.
  Variable n : nat.
  Variables omega n_inv : K.
  Hypothesis n7 : (6 < n)%nat.
  Hypothesis omega_n : fpow omega (N.of_nat n) = 1.
  Hypothesis omega_inj : forall i j, (i < n)%nat -> (j < n)%nat -> fpow omega (N.of_nat i) = fpow omega (N.of_nat j) -> i = j.
  Hypothesis n_inv_ok : n_inv * fsum (map (fun _ => 1 : K) (seq 0 n)) = 1.
  Notation w i := (fpow omega (N.of_nat i)).
  Notation u := (usable n).

  (** *** every column of values is a polynomial *)
  Lemma col_exists (f : nat -> K) : exists P, short K n P /\ forall i, (i < n)%nat -> in_row K omega P i = f i.
  Proof.
    assert (L : (length (map f (seq 0 n)) <= n)%nat) by (rewrite map_length, seq_length; lia).
    destruct (pf_Linst K n omega n_inv n7 (map f (seq 0 n))) as (P & LP & E). exists P. split; [unfold short; lia|]. intros i Li. unfold in_row.
    rewrite <- E, (row_inst K n omega n_inv n7 omega_n omega_inj n_inv_ok _ i Li L).
    rewrite (nth_indep _ 0 (f 0%nat)) by (rewrite map_length, seq_length; exact Li). rewrite map_nth, seq_nth by exact Li. reflexivity.
  Qed.
  Lemma cols_exist m (f : nat -> nat -> K) : exists P : nat -> list K, (forall k, short K n (P k)) /\ forall k i, (k < m)%nat -> (i < n)%nat -> in_row K omega (P k) i = f k i.
  Proof.
    destruct (fin_choice [] m (fun k P => short K n P /\ forall i, (i < n)%nat -> in_row K omega P i = f k i)) as (P & P1 & P2).
    { intros k _. apply col_exists. }
    exists P. split.
    - intros k. destruct (Nat.lt_ge_cases k m) as [L|L]; [apply P1, L|]. rewrite (P2 k L). unfold short. cbn. lia.
    - intros k i Lk Li. apply (P1 k Lk). exact Li.
  Qed.

  Variable c : circuit K.
  Hypothesis Hc : circuit_ok K n c.
  Hypothesis Hinj : cycles K n c.
  Variables fx sg : nat -> list K.
  Hypothesis Hd : describes K n omega delta c fx sg.
  Variable insts : list K.
  Hypothesis Hinsts : (length insts <= n)%nat.
  Variable adv : nat -> list K.
  Notation advice := (fun j i => in_row K omega (adv j) i).
  Hypothesis Hsat : satisfied K mds mds_inv tag n c insts advice.
  Notation inp theta k i := (fst (looked_up K tag c advice k i) * theta + snd (looked_up K tag c advice k i)).
  Notation tab theta i := (fst (table_row K c i) * theta + snd (table_row K c i)).
  Notation cp j i := (copied K n c insts advice j i).

  Section Given.
    Variables theta beta gamma : K.
    Variables A' S' : nat -> nat -> K.
    Definition look_ok : Prop := forall k, (k < 5)%nat -> A' k 0%nat = S' k 0%nat /\ (forall i, (S i < u)%nat -> (A' k (S i) - S' k (S i)) * (A' k (S i) - A' k i) = 0) /\
      (forall b, pr K u (fun i => A' k i + b) = pr K u (fun i => inp theta k i + b)) /\ (forall g, pr K u (fun i => S' k i + g) = pr K u (fun i => tab theta i + g)).
    Hypothesis HL : look_ok.
    Hypothesis NB : forall k i, (k < 5)%nat -> (i < u)%nat -> A' k i + beta <> 0.
    Hypothesis NG : forall k i, (k < 5)%nat -> (i < u)%nat -> S' k i + gamma <> 0.
    Hypothesis NP : forall j i, (j < 9)%nat -> (i < u)%nat -> cp j i + beta * in_row K omega (sg j) i + gamma <> 0.
    Definition js_of (k : nat) : list nat := nth k [[0; 1; 2; 3]; [4; 5; 6; 7]; [8]]%nat [].
    Definition nump k i : K := fprod (map (fun j => cp j i + beta * (fpow delta (N.of_nat j) * w i) + gamma) (js_of k)).
    Definition denp k i : K := fprod (map (fun j => cp j i + beta * in_row K omega (sg j) i + gamma) (js_of k)).
    Definition z0 := grand K 1 (nump 0) (denp 0).
    Definition z1 := grand K (z0 u) (nump 1) (denp 1).
    Definition z2 := grand K (z1 u) (nump 2) (denp 2).
    Definition zcol (k : nat) := match k with 0 => z0 | 1 => z1 | _ => z2 end%nat.
    Definition lcol k := grand K 1 (fun i => (inp theta k i + beta) * (tab theta i + gamma)) (fun i => (A' k i + beta) * (S' k i + gamma)).
    Lemma js_lt k j : In j (js_of k) -> (j < 9)%nat.
    Proof. unfold js_of. destruct k as [|[|[|[|k]]]]; cbn [nth In]; intros H; lia. Qed.
    Lemma denp_neq k i : (i < u)%nat -> denp k i <> 0.
    Proof.
      intros L. unfold denp. assert (G : forall l, (forall j, In j l -> (j < 9)%nat) -> fprod (map (fun j => cp j i + beta * in_row K omega (sg j) i + gamma) l) <> 0).
      { induction l as [|j l IH]; intros H; [apply f1_neq_0|]. cbn [map]. rewrite fprod_cons. apply fmul_neq0; [apply NP; [apply H; left; reflexivity|exact L]|].
        apply IH. intros j' Hj. apply H. right. exact Hj. }
      apply G. intros j. apply js_lt.
    Qed.
    Lemma zcol_step k i : (k < 3)%nat -> (i < u)%nat -> zcol k (S i) * denp k i = zcol k i * nump k i.
    Proof.
      intros Lk L. destruct k as [|[|[|k]]]; [| | |exfalso; lia]; cbn [zcol]; apply (grand_step K _ _ _ u); try exact L; intros i' L'; apply denp_neq; exact L'.
    Qed.
    Lemma nine' (f : nat -> nat -> K) : pr K (9 * u) (fun c => f (c mod 9)%nat (c / 9)%nat) =
      pr K u (fun i => fprod (map (fun j => f j i) (js_of 0))) * pr K u (fun i => fprod (map (fun j => f j i) (js_of 1))) * pr K u (fun i => fprod (map (fun j => f j i) (js_of 2))).
    Proof.
      rewrite (nine K n n7 insts Hinsts f), <- !(pr_mul K). apply pr_ext. intros i _.
      change [0; 1; 2; 3; 4; 5; 6; 7; 8]%nat with (js_of 0 ++ js_of 1 ++ js_of 2). rewrite !map_app, !fprod_app. ring.
    Qed.
    Lemma z2_u : z2 u = 1.
    Proof.
      destruct Hsat as (_ & HCp & _). pose proof (u_n n n7) as Un.
      assert (P : pr K u (denp 0) * pr K u (denp 1) * pr K u (denp 2) = pr K u (nump 0) * pr K u (nump 1) * pr K u (nump 2)).
      { pose proof (nine' (fun j i => cp j i + beta * in_row K omega (sg j) i + gamma)) as N1.
        pose proof (nine' (fun j i => cp j i + beta * (fpow delta (N.of_nat j) * w i) + gamma)) as N2.
        refine (eq_trans (eq_sym N1) (eq_trans _ N2)).
        apply (copy_products K (9 * u) (fun c0 => cp (c0 mod 9)%nat (c0 / 9)%nat) (fun c0 => fpow delta (N.of_nat (c0 mod 9)%nat) * w (c0 / 9))
          (fun c0 => in_row K omega (sg (c0 mod 9)%nat) (c0 / 9)%nat) (fun c0 => (9 * snd (partner K c (c0 mod 9) (c0 / 9)) + fst (partner K c (c0 mod 9) (c0 / 9)))%nat)).
        - intros c0 L. assert (Lj : (c0 mod 9 < 9)%nat) by (apply Nat.mod_upper_bound; lia). assert (Li : (c0 / 9 < u)%nat) by (apply Nat.div_lt_upper_bound; lia).
          destruct (Hc _ _ Lj Li). lia.
        - intros c1 c2 L1 L2 E. assert (Lj1 : (c1 mod 9 < 9)%nat) by (apply Nat.mod_upper_bound; lia). assert (Li1 : (c1 / 9 < u)%nat) by (apply Nat.div_lt_upper_bound; lia).
          assert (Lj2 : (c2 mod 9 < 9)%nat) by (apply Nat.mod_upper_bound; lia). assert (Li2 : (c2 / 9 < u)%nat) by (apply Nat.div_lt_upper_bound; lia).
          destruct (Hc _ _ Lj1 Li1) as (P1 & P2). destruct (Hc _ _ Lj2 Li2) as (P3 & P4).
          destruct (Hinj _ _ _ _ Lj1 Li1 Lj2 Li2) as (E1 & E2); [apply injective_projections; lia|].
          rewrite (Nat.div_mod c1 9), (Nat.div_mod c2 9), E1, E2 by lia. reflexivity.
        - intros c0 L. assert (Lj : (c0 mod 9 < 9)%nat) by (apply Nat.mod_upper_bound; lia). assert (Li : (c0 / 9 < u)%nat) by (apply Nat.div_lt_upper_bound; lia).
          destruct (Hc _ _ Lj Li) as (P1 & P2). destruct (idx K n n7 insts Hinsts (snd (partner K c (c0 mod 9) (c0 / 9))) (fst (partner K c (c0 mod 9) (c0 / 9))) P1) as (-> & ->). split.
          + exact (proj2 (proj2 Hd _) _ Lj Li).
          + exact (HCp _ _ Lj Li). }
      unfold z2, z1, z0, grand.
      assert (D0 : pr K u (denp 0) <> 0) by (apply pr_neq0; intros j Lj; apply denp_neq; exact Lj).
      assert (D1 : pr K u (denp 1) <> 0) by (apply pr_neq0; intros j Lj; apply denp_neq; exact Lj).
      assert (D2 : pr K u (denp 2) <> 0) by (apply pr_neq0; intros j Lj; apply denp_neq; exact Lj).
      transitivity (pr K u (nump 0) * pr K u (nump 1) * pr K u (nump 2) / (pr K u (denp 0) * pr K u (denp 1) * pr K u (denp 2))).
      - field. repeat split; assumption.
      - rewrite <- P. field. repeat split; assumption.
    Qed.
    Lemma lden_neq k i : (k < 5)%nat -> (i < u)%nat -> (A' k i + beta) * (S' k i + gamma) <> 0.
    Proof. intros Lk L. apply fmul_neq0; [apply NB|apply NG]; assumption. Qed.
    Lemma lcol_u k : (k < 5)%nat -> lcol k u = 1.
    Proof.
      intros Lk. apply grand_1; [intros i L; apply lden_neq; assumption|]. rewrite !(pr_mul K). destruct (HL k Lk) as (_ & _ & H1 & H2).
      rewrite (H1 beta), (H2 gamma). reflexivity.
    Qed.

    Section Rows.
      Variables PA PS PZ PL : nat -> list K.
      Hypothesis HA : forall k i, (k < 5)%nat -> (i < n)%nat -> in_row K omega (PA k) i = A' k i.
      Hypothesis HS : forall k i, (k < 5)%nat -> (i < n)%nat -> in_row K omega (PS k) i = S' k i.
      Hypothesis HZ : forall k i, (k < 3)%nat -> (i < n)%nat -> in_row K omega (PZ k) i = zcol k i.
      Hypothesis HLz : forall k i, (k < 5)%nat -> (i < n)%nat -> in_row K omega (PL k) i = lcol k i.
      Variable R : list K.
      Notation m := (Messages K adv PA PS PZ PL R).
      Notation F := (column K fx sg m).
      Notation E i := (ev K omega F (w i)).
      Lemma e_row i cl r : E i cl r = in_row K omega (F cl) (row_at n i r).
      Proof. exact (ev_row K n omega n7 omega_n F i cl r). Qed.
      Lemma act0 i : ~ (i < u)%nat -> active K (b2f K (Nat.eqb i u)) (b2f K (Nat.ltb u i)) = 0.
      Proof. intros L. unfold active. destruct (Nat.eqb_spec i u); destruct (Nat.ltb_spec u i); cbn [b2f]; try ring; exfalso; lia. Qed.
      Lemma first (v : K) i : (i = 0%nat -> v = 0) -> b2f K (Nat.eqb i 0) * v = 0.
      Proof. intros H. destruct (Nat.eqb_spec i 0) as [->|N]; cbn [b2f]; [rewrite H by reflexivity; ring|ring]. Qed.
      Lemma final (v : K) i : (i = u -> v = 0) -> b2f K (Nat.eqb i u) * v = 0.
      Proof. intros H. destruct (Nat.eqb_spec i u) as [N|N]; cbn [b2f]; [rewrite (H N); ring|ring]. Qed.
      Lemma when (v : K) i : ((i < u)%nat -> v = 0) -> active K (b2f K (Nat.eqb i u)) (b2f K (Nat.ltb u i)) * v = 0.
      Proof.
        intros H. destruct (Nat.lt_ge_cases i u) as [L|L]; [rewrite (H L); ring|]. rewrite act0 by lia. ring.
      Qed.
      Lemma in_u i : (i < u)%nat -> (i < n)%nat. Proof. pose proof (u_n n n7). lia. Qed.
      Lemma in_Su i : (i < u)%nat -> (S i < n)%nat. Proof. pose proof (u_n n n7). lia. Qed.
      Lemma step_zero z i : (z < 3)%nat -> (i < n)%nat ->
        permutation_step K delta (E i) (nth i insts 0) (b2f K (Nat.eqb i u)) (b2f K (Nat.ltb u i)) beta gamma (w i) z (js_of z) = 0.
      Proof.
        intros Lz Li. unfold permutation_step. apply when. intros L. rewrite !e_row, (next_row K n n7 insts Hinsts i L). cbn [row_at column m_permuted m_table m_products m_look_products].
        rewrite (HZ z (S i) Lz (in_Su i L)), (HZ z i Lz Li).
        assert (D : fold_right fmul 1 (map (fun j => permuted K (E i) (nth i insts 0) j + beta * E i (Sig j) Cur + gamma) (js_of z)) = denp z i).
        { unfold denp, fprod. apply f_equal. apply map_ext. intros j. rewrite e_row. cbn [row_at column m_permuted m_table m_products m_look_products].
          rewrite (copied_row K delta n omega n7 omega_n c fx sg Hd insts Hinsts adv m i j Li eq_refl). reflexivity. }
        assert (Nm : fold_right fmul 1 (map (fun j => permuted K (E i) (nth i insts 0) j + fpow delta (N.of_nat j) * (beta * w i) + gamma) (js_of z)) = nump z i).
        { unfold nump, fprod. apply f_equal. apply map_ext. intros j.
          rewrite (copied_row K delta n omega n7 omega_n c fx sg Hd insts Hinsts adv m i j Li eq_refl). ring. }
        rewrite D, Nm, (zcol_step z i Lz L). ring.
      Qed.
      Lemma rows_zero i : (i < n)%nat -> Forall (fun v => v = 0) (row_cons K mds mds_inv delta tag n omega F insts theta beta gamma i).
      Proof.
        intros Li. pose proof (u_n n n7) as Un. pose proof (u_pos n n7) as Up. destruct Hsat as (HG & HCp & HLk).
        unfold row_cons, constraints.
        rewrite !app_assoc. apply Forall_app. split; [apply Forall_app; split|].
        - rewrite <- !app_assoc. rewrite (gates_row K mds mds_inv delta n omega n7 omega_n c fx sg Hd insts Hinsts adv m i Li eq_refl _ eq_refl). exact (HG i Li).
        - unfold permutation. apply Forall_forall. intros v Hv. cbn [In] in Hv.
          destruct Hv as [<-|[<-|[<-|[<-|[<-|[<-|[<-|[]]]]]]]].
          + apply first. intros ->. rewrite e_row. cbn [row_at column m_permuted m_table m_products m_look_products]. rewrite (HZ 0%nat 0%nat) by lia. cbn [zcol]. unfold z0. rewrite grand_0. ring.
          + apply final. intros ->. rewrite e_row. cbn [row_at column m_permuted m_table m_products m_look_products]. rewrite (HZ 2%nat u) by lia. cbn [zcol]. rewrite z2_u. ring.
          + apply first. intros ->. rewrite !e_row, (last_row n n7). cbn [row_at column m_permuted m_table m_products m_look_products]. rewrite (HZ 1%nat 0%nat), (HZ 0%nat u) by lia. cbn [zcol]. unfold z1. rewrite grand_0. ring.
          + apply first. intros ->. rewrite !e_row, (last_row n n7). cbn [row_at column m_permuted m_table m_products m_look_products]. rewrite (HZ 2%nat 0%nat), (HZ 1%nat u) by lia. cbn [zcol]. unfold z2. rewrite grand_0. ring.
          + exact (step_zero 0 i ltac:(lia) Li).
          + exact (step_zero 1 i ltac:(lia) Li).
          + exact (step_zero 2 i ltac:(lia) Li).
        - apply Forall_forall. intros v Hv. apply in_flat_map in Hv as (k & Hk & Hv). apply in_seq in Hk. assert (Lk : (k < 5)%nat) by lia.
          destruct (HL k Lk) as (L0 & LS & _). unfold lookup in Hv. cbn [In] in Hv. destruct Hv as [<-|[<-|[<-|[<-|[<-|[]]]]]].
          + apply first. intros ->. rewrite e_row. cbn [row_at column m_permuted m_table m_products m_look_products]. rewrite (HLz k 0%nat Lk) by lia. unfold lcol. rewrite grand_0. ring.
          + apply final. intros ->. rewrite e_row. cbn [row_at column m_permuted m_table m_products m_look_products]. rewrite (HLz k u Lk Un), (lcol_u k Lk). ring.
          + apply when. intros L. rewrite !e_row, (next_row K n n7 insts Hinsts i L). cbn [row_at column m_permuted m_table m_products m_look_products].
            rewrite (HLz k (S i) Lk (in_Su i L)), (HLz k i Lk Li), (HA k i Lk Li), (HS k i Lk Li).
            rewrite (input_row K delta tag n omega n7 omega_n c fx sg Hd insts Hinsts adv m i k theta Li eq_refl Lk).
            rewrite (table_row_eq K delta n omega n7 omega_n c fx sg Hd insts Hinsts adv m i theta Li eq_refl).
            pose proof (grand_step K 1 (fun i => (inp theta k i + beta) * (tab theta i + gamma)) (fun i => (A' k i + beta) * (S' k i + gamma)) u (fun i L => lden_neq k i Lk L) i L) as G.
            cbv beta in G. unfold lcol. rewrite G. ring.
          + apply first. intros ->. rewrite !e_row. cbn [row_at column m_permuted m_table m_products m_look_products]. rewrite (HA k 0%nat), (HS k 0%nat) by lia. rewrite L0. ring.
          + apply when. intros L. rewrite !e_row. cbn [row_at column m_permuted m_table m_products m_look_products]. rewrite (HA k i Lk Li), (HS k i Lk Li). destruct i as [|i]; [rewrite L0; ring|].
            change ((S i + (n - 1)) mod n)%nat with (row_at n (S i) Prev). rewrite (prev_row K n n7 insts Hinsts i L), (HA k i Lk) by lia. exact (LS i L).
      Qed.
    End Rows.
  End Given.

  Theorem row_complete : forall theta, exists A' S', (forall k, short K n (A' k)) /\ (forall k, short K n (S' k)) /\
    except (5 * u) (fun beta => except (14 * u) (fun gamma => exists Z L, (forall k, short K n (Z k)) /\ (forall k, short K n (L k)) /\
      forall R i, (i < n)%nat -> Forall (fun v => v = 0) (row_cons K mds mds_inv delta tag n omega (column K fx sg (Messages K adv A' S' Z L R)) insts theta beta gamma i))).
  Proof.
    intros theta. pose proof (u_n n n7) as Un. pose proof (u_pos n n7) as Up.
    assert (LC : exists AS : nat -> (nat -> K) * (nat -> K), look_ok theta (fun k => fst (AS k)) (fun k => snd (AS k))).
    { destruct (fin_choice (fun _ => 0, fun _ => 0) 5 (fun k (AS : (nat -> K) * (nat -> K)) => fst AS 0%nat = snd AS 0%nat /\
        (forall i, (S i < u)%nat -> (fst AS (S i) - snd AS (S i)) * (fst AS (S i) - fst AS i) = 0) /\
        (forall b, pr K u (fun i => fst AS i + b) = pr K u (fun i => inp theta k i + b)) /\ (forall g, pr K u (fun i => snd AS i + g) = pr K u (fun i => tab theta i + g)))) as (f & Hf & _).
      - intros k Lk. destruct (lookup_columns K u (fun i => inp theta k i) (fun i => tab theta i) Up) as (A' & S' & H).
        + intros i L. destruct (proj2 (proj2 Hsat) k i Lk L) as (i' & L' & E). exists i'. split; [exact L'|]. rewrite E. reflexivity.
        + exists (A', S'). exact H.
      - exists f. exact Hf. }
    destruct LC as (AS & HLo).
    destruct (cols_exist 5 (fun k => fst (AS k))) as (PA & PA1 & PA2). destruct (cols_exist 5 (fun k => snd (AS k))) as (PS & PS1 & PS2).
    exists PA, PS. split; [exact PA1|]. split; [exact PS1|].
    assert (root : forall v : K, except 1 (fun b => v + b <> 0)).
    { intros v. apply (except_impl 1 (fun b => ~ In b [- v])); [|apply except_list; auto]. intros b H E. apply H. left.
      transitivity (- v + (v + b)); [rewrite E; ring|ring]. }
    assert (B5 : except (5 * u) (fun beta => forall q, (q < 5 * u)%nat -> fst (AS (q mod 5)%nat) (q / 5)%nat + beta <> 0)).
    { apply (avoid_eq K (5 * u) (fun q beta => fst (AS (q mod 5)%nat) (q / 5)%nat + beta <> 0)). intros q _. apply root. }
    revert B5. apply except_impl. intros beta HB.
    assert (G5 : except (5 * u) (fun gamma => forall q, (q < 5 * u)%nat -> snd (AS (q mod 5)%nat) (q / 5)%nat + gamma <> 0)).
    { apply (avoid_eq K (5 * u) (fun q gamma => snd (AS (q mod 5)%nat) (q / 5)%nat + gamma <> 0)). intros q _. apply root. }
    assert (G9 : except (9 * u) (fun gamma => forall q, (q < 9 * u)%nat -> cp (q mod 9)%nat (q / 9)%nat + beta * in_row K omega (sg (q mod 9)%nat) (q / 9)%nat + gamma <> 0)).
    { apply (avoid_eq K (9 * u) (fun q gamma => cp (q mod 9)%nat (q / 9)%nat + beta * in_row K omega (sg (q mod 9)%nat) (q / 9)%nat + gamma <> 0)). intros q _. apply root. }
    pose proof (except_and _ _ _ _ G5 G9) as G. apply (except_le _ (14 * u)) in G; [|lia]. revert G. apply except_impl. intros gamma (HG5 & HG9).
    assert (I5 : forall i j, (j < 5)%nat -> ((5 * i + j) mod 5 = j /\ (5 * i + j) / 5 = i)%nat).
    { intros i j L. replace (5 * i + j)%nat with (j + i * 5)%nat by lia. rewrite Nat.mod_add, Nat.div_add by lia. rewrite Nat.mod_small, Nat.div_small by exact L. split; reflexivity. }
    assert (NB : forall k i, (k < 5)%nat -> (i < u)%nat -> fst (AS k) i + beta <> 0).
    { intros k i Lk Li. specialize (HB (5 * i + k)%nat ltac:(lia)). destruct (I5 i k Lk) as (E1 & E2). rewrite E1, E2 in HB. exact HB. }
    assert (NG : forall k i, (k < 5)%nat -> (i < u)%nat -> snd (AS k) i + gamma <> 0).
    { intros k i Lk Li. specialize (HG5 (5 * i + k)%nat ltac:(lia)). destruct (I5 i k Lk) as (E1 & E2). rewrite E1, E2 in HG5. exact HG5. }
    assert (NP : forall j i, (j < 9)%nat -> (i < u)%nat -> cp j i + beta * in_row K omega (sg j) i + gamma <> 0).
    { intros j i Lj Li. specialize (HG9 (9 * i + j)%nat ltac:(lia)). destruct (idx K n n7 insts Hinsts i j Lj) as (E1 & E2). rewrite E1, E2 in HG9. exact HG9. }
    destruct (cols_exist 3 (zcol beta gamma)) as (PZ & PZ1 & PZ2). destruct (cols_exist 5 (lcol theta beta gamma (fun k => fst (AS k)) (fun k => snd (AS k)))) as (PL & PL1 & PL2).
    exists PZ, PL. split; [exact PZ1|]. split; [exact PL1|]. intros R i Li.
    exact (rows_zero theta beta gamma (fun k => fst (AS k)) (fun k => snd (AS k)) HLo NB NG NP PA PS PZ PL PA2 PS2 PZ2 PL2 R i Li).
  Qed.
End Row.
