(** Poseidon: the matrix inverse, the rounds, the circuit gadget. *)
From Coq Require Import ZArith NArith List Lia Bool Field.
From Verif.Base Require Import Primes Fld Fp Fq2 Curves.
From Verif.Model Require Import Circ MainGate PoseidonConsts Poseidon.
From Verif.Proofs Require Import CircProofs.
Import ListNotations.

Lemma tab3_at3 {X} (s : arr3 X) : tab3 (at3 s) = s.
Proof. destruct s as [[x y] z]. reflexivity. Qed.
Lemma arr3_ext {X} (s t : arr3 X) : (forall i, (i < 3)%nat -> at3 s i = at3 t i) -> s = t.
Proof.
  intros H. destruct s as [[x y] z], t as [[x' y'] z'].
  pose proof (H 0%nat ltac:(lia)) as H0. pose proof (H 1%nat ltac:(lia)) as H1. pose proof (H 2%nat ltac:(lia)) as H2.
  cbn in H0, H1, H2. congruence.
Qed.
Lemma at3_tab3 {X} (f : nat -> X) i : (i < 3)%nat -> at3 (tab3 f) i = f i.
Proof. intros H. do 3 (destruct i as [|i]; [reflexivity|]). lia. Qed.

Lemma skipn_skipn' {X} : forall a b (l : list X), skipn a (skipn b l) = skipn (b + a) l.
Proof. intros a b. revert a. induction b as [|b IH]; intros a l; [reflexivity|]. destruct l; cbn; [destruct a; reflexivity|apply IH]. Qed.

Section Generic.
  Variable K : Fld.
  Add Field Kf : (flaw K).
  Open Scope fld_scope.
  Local Notation vec := (arr3 K).
  Local Notation mat := (arr3 (arr3 K)).

  Lemma pow_5_sbox (v : K) : pow_5 K v = sbox K v.
  Proof. unfold pow_5, sbox. cbn [fpow fpow_pos]. cbv zeta. ring. Qed.

  (** the two matrices are inverse to each other *)
  Lemma mds_inv_some (m mi : mat) : mds_inv K m = Some mi -> determinant K m <> 0.
  Proof. unfold mds_inv. destruct (feqb (determinant K m) 0) eqn:E; [discriminate|]. intros _. apply feqb_neq; auto. Qed.
  Lemma mds_inv_l (m mi : mat) (s : vec) : mds_inv K m = Some mi -> apply_mds K mi (apply_mds K m s) = s.
  Proof.
    intros H. pose proof (mds_inv_some m mi H) as N. unfold mds_inv in H.
    destruct (feqb (determinant K m) 0); [discriminate|]. injection H as <-.
    destruct m as [[[[a b] c] [[d e] f]] [[g h] i]]. destruct s as [[x y] z].
    unfold determinant, det_items in N. cbn in N.
    unfold apply_mds, tab3. unfold ci, determinant, det_items. cbn.
    f_equal; [f_equal|]; field; exact N.
  Qed.
  Lemma mds_inv_r (m mi : mat) (s : vec) : mds_inv K m = Some mi -> apply_mds K m (apply_mds K mi s) = s.
  Proof.
    intros H. pose proof (mds_inv_some m mi H) as N. unfold mds_inv in H.
    destruct (feqb (determinant K m) 0); [discriminate|]. injection H as <-.
    destruct m as [[[[a b] c] [[d e] f]] [[g h] i]]. destruct s as [[x y] z].
    unfold determinant, det_items in N. cbn in N.
    unfold apply_mds, tab3. unfold ci, determinant, det_items. cbn.
    f_equal; [f_equal|]; field; exact N.
  Qed.

  (** the gates say what the primitive's rounds compute *)
  Lemma full_gate_iff (m : mat) (rc cur next : vec) : full_gate K m rc cur next <-> next = full_round K m cur rc.
  Proof.
    unfold full_gate, full_round, apply_mds. split.
    - intros H. apply arr3_ext. intros i Hi. rewrite at3_tab3 by exact Hi. rewrite !at3_tab3 by lia.
      specialize (H i Hi). apply fsub_eq0 in H. rewrite <- H, !pow_5_sbox. ring.
    - intros -> i Hi. rewrite at3_tab3 by exact Hi. rewrite !at3_tab3 by lia. rewrite !pow_5_sbox. ring.
  Qed.
  Lemma unmix_apply (mi : mat) (s : vec) i : (i < 3)%nat -> unmix K mi s i = at3 (apply_mds K mi s) i.
  Proof. intros Hi. unfold unmix, apply_mds. rewrite at3_tab3 by exact Hi. ring. Qed.
  Lemma mid_apply (m : mat) (rc cur : vec) i : (i < 3)%nat ->
    mid K m rc cur (sbox K (at3 cur 0 + at3 rc 0)) i = at3 (part_round K m cur rc) i.
  Proof.
    intros Hi. unfold mid, part_round, apply_mds. rewrite at3_tab3 by exact Hi.
    cbn [at3 tab3]. rewrite ?at3_tab3 by lia. ring.
  Qed.
  Lemma partial_gate_iff (m mi : mat) (rca rcb cur next : vec) (mid0 : K) :
    mds_inv K m = Some mi ->
    (partial_gate K m mi rca rcb cur mid0 next <->
     mid0 = sbox K (at3 cur 0 + at3 rca 0) /\ next = part_round K m (part_round K m cur rca) rcb).
  Proof.
    intros Hm. unfold partial_gate. rewrite pow_5_sbox. split.
    - intros (H0 & H1 & H2). apply fsub_eq0 in H0. subst mid0. split; [reflexivity|].
      apply fsub_eq0 in H1. rewrite pow_5_sbox in H1.
      rewrite <- (mds_inv_r m mi next Hm). unfold part_round at 1. f_equal.
      apply arr3_ext. intros i Hi. rewrite <- unmix_apply by exact Hi.
      destruct i as [|i].
      + rewrite <- H1. rewrite mid_apply by lia. cbn [at3 tab3]. rewrite ?at3_tab3 by lia. reflexivity.
      + specialize (H2 (S i) ltac:(lia)). apply fsub_eq0 in H2. rewrite <- H2, mid_apply by exact Hi.
        destruct i as [|i]; [|destruct i as [|i]; [|lia]]; cbn [at3 tab3]; rewrite ?at3_tab3 by lia; reflexivity.
    - intros (-> & ->). split; [ring|]. rewrite pow_5_sbox.
      assert (U : forall i, (i < 3)%nat -> unmix K mi (part_round K m (part_round K m cur rca) rcb) i =
                at3 (sbox K (at3 (part_round K m cur rca) 0 + at3 rcb 0),
                     at3 (part_round K m cur rca) 1 + at3 rcb 1, at3 (part_round K m cur rca) 2 + at3 rcb 2) i).
      { intros i Hi. rewrite unmix_apply by exact Hi. unfold part_round at 1. rewrite (mds_inv_l m mi _ Hm).
        cbn [at3 tab3]. reflexivity. }
      split; [|intros i Hi]; rewrite U, mid_apply by lia.
      + cbn [at3]. ring.
      + destruct i as [|i]; [lia|]. destruct i as [|i]; [|destruct i as [|i]; [|lia]]; cbn [at3]; ring.
  Qed.

  (** ** the rounds as one sequence *)
  Variable sp : pspec K.
  Hypothesis Hinv : mds_inv K (m_reg sp) = Some (m_inv sp).
  Local Notation hf := (full_rounds sp / 2)%nat.

  Lemma sem_full (s : vec) r t : sem (chip_full_round K sp s r) t <->
    exists rc, nth_error (rcs sp) r = Some rc /\ t = full_round K (m_reg sp) s rc.
  Proof.
    unfold chip_full_round. destruct (nth_error (rcs sp) r) as [rc|]; cbn.
    - split.
      + intros (x & H & ->). exists rc. split; [reflexivity|]. apply full_gate_iff; exact H.
      + intros (rc' & E & ->). injection E as <-. eexists. split; [|reflexivity]. apply full_gate_iff. reflexivity.
    - split; [intros []|intros (? & E & _); discriminate].
  Qed.
  Lemma hon_full (s : vec) r t : honest (chip_full_round K sp s r) t <->
    exists rc, nth_error (rcs sp) r = Some rc /\ t = full_round K (m_reg sp) s rc.
  Proof.
    unfold chip_full_round. destruct (nth_error (rcs sp) r) as [rc|]; cbn [honest].
    - split.
      + intros (H & ->). exists rc. split; [reflexivity|]. apply full_gate_iff; exact H.
      + intros (rc' & E & ->). injection E as <-. split; [|reflexivity]. apply full_gate_iff. reflexivity.
    - split; [intros []|intros (? & E & _); discriminate].
  Qed.
  Lemma sem_partial (s : vec) r t : sem (chip_partial_round K sp s r) t <->
    exists a b, nth_error (rcs sp) r = Some a /\ nth_error (rcs sp) (r + 1) = Some b /\
                t = part_round K (m_reg sp) (part_round K (m_reg sp) s a) b.
  Proof.
    unfold chip_partial_round. destruct (nth_error (rcs sp) r) as [a|]; [destruct (nth_error (rcs sp) (r + 1)) as [b|]|].
    - cbn [sem]. split.
      + intros ([x0 x] & H & ->). apply partial_gate_iff in H; [|exact Hinv]. destruct H as [_ H]. exists a, b. auto.
      + intros (a' & b' & E1 & E2 & ->). injection E1 as <-. injection E2 as <-.
        exists (sbox K (at3 s 0 + at3 a 0), part_round K (m_reg sp) (part_round K (m_reg sp) s a) b).
        split; [|reflexivity]. apply partial_gate_iff; [exact Hinv|]. split; reflexivity.
    - cbn. split; [intros []|intros (? & ? & _ & E & _); discriminate].
    - cbn. split; [intros []|intros (? & ? & E & _); discriminate].
  Qed.
  Lemma hon_partial (s : vec) r t : honest (chip_partial_round K sp s r) t <->
    exists a b, nth_error (rcs sp) r = Some a /\ nth_error (rcs sp) (r + 1) = Some b /\
                t = part_round K (m_reg sp) (part_round K (m_reg sp) s a) b.
  Proof.
    unfold chip_partial_round. destruct (nth_error (rcs sp) r) as [a|]; [destruct (nth_error (rcs sp) (r + 1)) as [b|]|].
    - cbn [honest]. split.
      + intros (H & ->). apply partial_gate_iff in H; [|exact Hinv]. destruct H as [_ H]. exists a, b. auto.
      + intros (a' & b' & E1 & E2 & ->). injection E1 as <-. injection E2 as <-.
        split; [|reflexivity]. apply partial_gate_iff; [exact Hinv|]. split; reflexivity.
    - cbn. split; [intros []|intros (? & ? & _ & E & _); discriminate].
    - cbn. split; [intros []|intros (? & ? & E & _); discriminate].
  Qed.

  (** run [n] rounds of one kind from constant [k] *)
  Fixpoint run (f : vec -> vec -> vec) (l : list vec) (s : vec) : vec :=
    match l with [] => s | rc :: tl => run f tl (f s rc) end.
  Lemma run_app f l1 l2 s : run f (l1 ++ l2) s = run f l2 (run f l1 s).
  Proof. revert s. induction l1; cbn; intros; auto. Qed.
  Definition slice (a n : nat) : list vec := firstn n (skipn a (rcs sp)).
  Lemma slice_S a n rc : nth_error (rcs sp) a = Some rc -> slice a (S n) = rc :: slice (S a) n.
  Proof.
    unfold slice. intros H. generalize dependent (rcs sp). intros l. revert a. induction l as [|x l IH]; intros [|a] H; cbn in H; try discriminate.
    - injection H as ->. reflexivity.
    - cbn [skipn]. apply IH in H. exact H.
  Qed.

  Lemma full_seq base : forall n k s t, (base + k + n <= length (rcs sp))%nat ->
    (sem (cfold (fun s r => chip_full_round K sp s (base + r)) (seq k n) s) t <-> t = run (full_round K (m_reg sp)) (slice (base + k) n) s) /\
    (honest (cfold (fun s r => chip_full_round K sp s (base + r)) (seq k n) s) t <-> t = run (full_round K (m_reg sp)) (slice (base + k) n) s).
  Proof.
    induction n as [|n IH]; intros k s t Hn; cbn [seq cfold].
    - unfold slice. cbn. tauto.
    - destruct (nth_error (rcs sp) (base + k)) as [rc|] eqn:E.
      2:{ apply nth_error_None in E. lia. }
      rewrite (slice_S _ _ _ E). cbn [run].
      destruct (IH (S k) (full_round K (m_reg sp) s rc) t ltac:(lia)) as [IH1 IH2].
      replace (base + S k)%nat with (S (base + k)) in IH1, IH2 by lia.
      split.
      + rewrite sem_bind. split.
        * intros (b & Hb & H). apply sem_full in Hb as (rc' & E' & ->). rewrite E in E'. injection E' as <-. apply IH1; exact H.
        * intros H. exists (full_round K (m_reg sp) s rc). split; [apply sem_full; exists rc; auto|apply IH1; exact H].
      + rewrite honest_bind. split.
        * intros (b & Hb & H). apply hon_full in Hb as (rc' & E' & ->). rewrite E in E'. injection E' as <-. apply IH2; exact H.
        * intros H. exists (full_round K (m_reg sp) s rc). split; [apply hon_full; exists rc; auto|apply IH2; exact H].
  Qed.
  Lemma partial_seq base : forall n k s t, (base + 2 * k + 2 * n <= length (rcs sp))%nat ->
    (sem (cfold (fun s r => chip_partial_round K sp s (base + 2 * r)) (seq k n) s) t <->
     t = run (part_round K (m_reg sp)) (slice (base + 2 * k) (2 * n)) s) /\
    (honest (cfold (fun s r => chip_partial_round K sp s (base + 2 * r)) (seq k n) s) t <->
     t = run (part_round K (m_reg sp)) (slice (base + 2 * k) (2 * n)) s).
  Proof.
    induction n as [|n IH]; intros k s t Hn; cbn [seq cfold].
    - replace (2 * 0)%nat with 0%nat by lia. unfold slice. cbn. tauto.
    - destruct (nth_error (rcs sp) (base + 2 * k)) as [a|] eqn:E.
      2:{ apply nth_error_None in E. lia. }
      destruct (nth_error (rcs sp) (base + 2 * k + 1)) as [b|] eqn:E1.
      2:{ apply nth_error_None in E1. lia. }
      replace (2 * S n)%nat with (S (S (2 * n))) by lia.
      rewrite (slice_S _ _ _ E). replace (S (base + 2 * k)) with (base + 2 * k + 1)%nat by lia.
      rewrite (slice_S _ _ _ E1). cbn [run].
      destruct (IH (S k) (part_round K (m_reg sp) (part_round K (m_reg sp) s a) b) t ltac:(lia)) as [IH1 IH2].
      replace (base + 2 * S k)%nat with (S (base + 2 * k + 1)) in IH1, IH2 by lia.
      split.
      + rewrite sem_bind. split.
        * intros (x & Hb & H). apply sem_partial in Hb as (a' & b' & Ea & Eb & ->). rewrite E in Ea. rewrite E1 in Eb.
          injection Ea as <-. injection Eb as <-. apply IH1; exact H.
        * intros H. eexists. split; [apply sem_partial; exists a, b; split; [exact E|split; [exact E1|reflexivity]]|apply IH1; exact H].
      + rewrite honest_bind. split.
        * intros (x & Hb & H). apply hon_partial in Hb as (a' & b' & Ea & Eb & ->). rewrite E in Ea. rewrite E1 in Eb.
          injection Ea as <-. injection Eb as <-. apply IH2; exact H.
        * intros H. eexists. split; [apply hon_partial; exists a, b; split; [exact E|split; [exact E1|reflexivity]]|apply IH2; exact H].
  Qed.

  Lemma fold_rounds (f : vec -> vec -> vec) : forall n l tl s, (n <= length l)%nat ->
    fold_left (fun s p => fst p s (snd p)) (combine (repeat f n ++ tl) l) s =
    fold_left (fun s p => fst p s (snd p)) (combine tl (skipn n l)) (run f (firstn n l) s).
  Proof.
    induction n as [|n IH]; intros l tl s Hn; [reflexivity|].
    destruct l as [|rc l]; cbn in Hn; [lia|]. cbn. apply IH. lia.
  Qed.
  Lemma permute_runs (s : vec) : (full_rounds sp / 2 + partial_rounds sp + full_rounds sp / 2 <= length (rcs sp))%nat ->
    permute K sp s = run (full_round K (m_reg sp)) (slice (hf + partial_rounds sp) hf)
                       (run (part_round K (m_reg sp)) (slice hf (partial_rounds sp))
                         (run (full_round K (m_reg sp)) (slice 0 hf) s)).
  Proof.
    intros Hl. unfold permute, rounds, slice.
    rewrite fold_rounds by lia. rewrite fold_rounds by (rewrite skipn_length; lia).
    rewrite <- (app_nil_r (repeat (full_round K (m_reg sp)) hf)).
    rewrite fold_rounds by (rewrite !skipn_length; lia).
    cbn [combine fold_left]. rewrite skipn_skipn'. cbn [skipn]. reflexivity.
  Qed.

  Hypothesis Hf : Nat.even (full_rounds sp) = true.
  Hypothesis Hp : Nat.even (partial_rounds sp) = true.
  Hypothesis Hlen : (full_rounds sp + partial_rounds sp <= length (rcs sp))%nat.

  Lemma chip_permute_iff (s t : vec) :
    (sem (chip_permute K sp s) t <-> t = permute K sp s) /\ (honest (chip_permute K sp s) t <-> t = permute K sp s).
  Proof.
    assert (Ef : (hf + hf = full_rounds sp)%nat).
    { apply Nat.even_spec in Hf. destruct Hf as [x Hx]. rewrite Hx. rewrite (Nat.mul_comm 2 x), Nat.div_mul by lia. lia. }
    assert (Ep : (2 * (partial_rounds sp / 2) = partial_rounds sp)%nat).
    { apply Nat.even_spec in Hp. destruct Hp as [x Hx]. rewrite Hx. rewrite (Nat.mul_comm 2 x), Nat.div_mul by lia. lia. }
    rewrite permute_runs by lia.
    unfold chip_permute. rewrite Hf, Hp. cbn [andb]. cbv zeta.
    set (s1 := run (full_round K (m_reg sp)) (slice 0 hf) s).
    set (s2 := run (part_round K (m_reg sp)) (slice hf (partial_rounds sp)) s1).
    pose proof (fun x => full_seq 0 hf 0 s x ltac:(lia)) as A. cbn [Nat.add] in A. fold s1 in A.
    pose proof (fun x => partial_seq hf (partial_rounds sp / 2) 0 s1 x ltac:(lia)) as B.
    rewrite Nat.mul_0_r, Nat.add_0_r, Ep in B. fold s2 in B.
    pose proof (fun x => full_seq (hf + 2 * (partial_rounds sp / 2)) hf 0 s2 x ltac:(lia)) as C.
    rewrite Nat.add_0_r, Ep in C. rewrite Ep.
    split.
    - rewrite sem_bind. split.
      + intros (x & H & H'). apply (proj1 (proj1 (A x))) in H. subst x. apply sem_bind in H' as (x & H & H'). apply (proj1 (proj1 (B x))) in H. subst x. exact (proj1 (proj1 (C t)) H').
      + intros ->. exists s1. split; [exact (proj2 (proj1 (A s1)) eq_refl)|]. apply sem_bind. exists s2. split; [exact (proj2 (proj1 (B s2)) eq_refl)|]. exact (proj2 (proj1 (C _)) eq_refl).
    - rewrite honest_bind. split.
      + intros (x & H & H'). apply (proj1 (proj2 (A x))) in H. subst x. apply honest_bind in H' as (x & H & H'). apply (proj1 (proj2 (B x))) in H. subst x. exact (proj1 (proj2 (C t)) H').
      + intros ->. exists s1. split; [exact (proj2 (proj2 (A s1)) eq_refl)|]. apply honest_bind. exists s2. split; [exact (proj2 (proj2 (B s2)) eq_refl)|]. exact (proj2 (proj2 (C _)) eq_refl).
  Qed.

  Lemma pow5_hash_iff cap x y k :
    (sem (pow5_hash K sp cap x y) k <-> k = hash_2 K sp cap x y) /\ (honest (pow5_hash K sp cap x y) k <-> k = hash_2 K sp cap x y).
  Proof.
    unfold pow5_hash, hash_2, assign_constant. split.
    - cbn [cbind sem]. split.
      + intros (i0 & -> & i1 & -> & i2 & -> & s & (H0 & H1 & H2) & H).
        apply sem_bind in H as (t & H & H'). cbn in H'. subst k. apply chip_permute_iff in H. subst t.
        do 2 f_equal. apply fsub_eq0 in H0, H1, H2. destruct s as [[s0 s1] s2]. cbn in H0, H1, H2. subst. reflexivity.
      + intros ->. do 3 (eexists; split; [reflexivity|]). exists (0 + x, 0 + y, cap). split; [cbn [at3]; repeat split; ring|].
        apply sem_bind. exists (permute K sp (0 + x, 0 + y, cap)). split; [apply chip_permute_iff; reflexivity|reflexivity].
    - cbn [cbind honest]. split.
      + intros (_ & _ & _ & _ & H). apply honest_bind in H as (t & H & H'). cbn in H'. subst k. apply chip_permute_iff in H. subst t. reflexivity.
      + intros ->. split; [reflexivity|]. split; [reflexivity|]. split; [reflexivity|]. split; [cbn [at3]; repeat split; ring|].
        apply honest_bind. exists (permute K sp (0 + x, 0 + y, cap)). split; [apply chip_permute_iff; reflexivity|reflexivity].
  Qed.
End Generic.

(** ** bijectivity *)
Section Bij.
  Variable K : Fld.
  Add Field Kg : (flaw K).
  Open Scope fld_scope.
  Local Notation vec := (arr3 K).
  Definition bij {X} (f : X -> X) : Prop := exists g : X -> X, (forall x, g (f x) = x) /\ (forall x, f (g x) = x).
  Lemma bij_compose {X} (f g : X -> X) : bij f -> bij g -> bij (fun x => g (f x)).
  Proof.
    intros (f' & F1 & F2) (g' & G1 & G2). exists (fun x => f' (g' x)). split; intros x.
    - rewrite G1. apply F1.
    - rewrite F2. apply G2.
  Qed.
  Variable sp : pspec K.
  Hypothesis Hinv : mds_inv K (m_reg sp) = Some (m_inv sp).
  Hypothesis Hs : bij (sbox K).

  Lemma bij_mds : bij (apply_mds K (m_reg sp)).
  Proof. exists (apply_mds K (m_inv sp)). split; intros s; [apply mds_inv_l|apply mds_inv_r]; exact Hinv. Qed.
  Lemma bij_add (rc : vec) : bij (fun s : vec => tab3 (fun i => at3 s i + at3 rc i)).
  Proof.
    exists (fun s : vec => tab3 (fun i => at3 s i - at3 rc i)).
    split; intros [[x y] z]; unfold tab3; cbn [at3]; f_equal; [f_equal| |f_equal|]; ring.
  Qed.
  Lemma bij_full (rc : vec) : bij (fun s => full_round K (m_reg sp) s rc).
  Proof.
    assert (S3 : bij (map3 (sbox K) : vec -> vec)).
    { destruct Hs as (g & H1 & H2). exists (map3 g). split; intros [[x y] z]; cbn [map3 at3]; rewrite ?H1, ?H2; reflexivity. }
    pose proof (bij_compose _ _ (bij_compose _ _ (bij_add rc) S3) bij_mds) as H. exact H.
  Qed.
  Lemma bij_part (rc : vec) : bij (fun s => part_round K (m_reg sp) s rc).
  Proof.
    assert (S1 : bij (fun s : vec => (sbox K (at3 s 0), at3 s 1, at3 s 2))).
    { destruct Hs as (g & H1 & H2). exists (fun s : vec => (g (at3 s 0), at3 s 1, at3 s 2)). split; intros [[x y] z]; cbn [map3 at3]; rewrite ?H1, ?H2; reflexivity. }
    pose proof (bij_compose _ _ (bij_compose _ _ (bij_add rc) S1) bij_mds) as H. exact H.
  Qed.
  Lemma bij_fold : forall l : list ((vec -> vec -> vec) * vec), Forall (fun p => bij (fun s => fst p s (snd p))) l ->
    bij (fun s => fold_left (fun s p => fst p s (snd p)) l s).
  Proof.
    induction 1 as [|p l Hp Hl IH]; cbn [fold_left].
    - exists (fun s => s). auto.
    - apply (bij_compose (fun s => fst p s (snd p)) _ Hp IH).
  Qed.
  Lemma bij_permute : bij (permute K sp).
  Proof.
    apply bij_fold. apply Forall_forall. intros [f rc] Hin. cbn [fst snd]. apply in_combine_l in Hin. unfold rounds in Hin.
    apply in_app_or in Hin as [H|H]; [apply repeat_spec in H; subst; apply bij_full|].
    apply in_app_or in H as [H|H]; apply repeat_spec in H; subst; [apply bij_part|apply bij_full].
  Qed.
End Bij.
