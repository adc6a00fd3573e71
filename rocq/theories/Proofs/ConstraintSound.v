(** One constraint that fails on one row: for few y and few x does the combination divide. *)
From Coq Require Import ZArith NArith Nnat List Lia Field Bool.
From Verif.Base Require Import Fld Fp Poly.
From Verif.Spec Require Import Few Plonk PlonkCircuit.
From Verif.Proofs Require Import FewProofs RowLagrange.
Import ListNotations.

Lemma pf_addm (K : Fld) d d' (f g : K -> K) : polyfun K d f -> polyfun K d' g -> polyfun K (Nat.max d d') (fun x => fadd (f x) (g x)).
Proof. intros H H'. apply pf_add; [apply (pf_le K d); [lia|exact H]|apply (pf_le K d'); [lia|exact H']]. Qed.
Lemma pf_subm (K : Fld) d d' (f g : K -> K) : polyfun K d f -> polyfun K d' g -> polyfun K (Nat.max d d') (fun x => fsub (f x) (g x)).
Proof. intros H H'. apply pf_sub; [apply (pf_le K d); [lia|exact H]|apply (pf_le K d'); [lia|exact H']]. Qed.

Section Cons.
  Variable K : Fld.
  Open Scope fld_scope.
  Add Field kf : (flaw K).
  Hypothesis finite : exists all : list K, NoDup all /\ forall x, In x all.
  Variables mds mds_inv : nat -> nat -> K.
  Variables delta tag : K.
  Variable n : nat.
  Variables omega n_inv : K.
  Hypothesis n7 : (6 < n)%nat.
  Hypothesis omega_n : fpow omega (N.of_nat n) = 1.
  Hypothesis omega_inj : forall i j, (i < n)%nat -> (j < n)%nat -> fpow omega (N.of_nat i) = fpow omega (N.of_nat j) -> i = j.
  Hypothesis n_inv_ok : n_inv * fsum (map (fun _ => 1 : K) (seq 0 n)) = 1.
  Notation w i := (fpow omega (N.of_nat i)).
  Notation u := (usable n).
  Variable F : col -> list K.
  Hypothesis HF : forall cl, (length (F cl) <= n)%nat.
  Variable insts : list K.
  Hypothesis Hinsts : (length insts <= n)%nat.

  Definition ev (X : K) (cl : col) (r : rot) : K := peval (F cl) (point K omega X r).
  Section Chal.
    Variables theta beta gamma : K.
    Definition cons (X : K) : list K :=
      constraints K mds mds_inv delta tag (ev X) (Linst K n omega n_inv insts X) (Lp K n n_inv (w 0) X) (Lp K n n_inv (w u) X) (Lblind K n omega n_inv X)
        theta beta gamma X.
    Definition bad_row : Prop := exists i, (i < n)%nat /\ exists v, In v (cons (w i)) /\ v <> 0.
    Lemma horner (l : list K) y acc : fold_left (fun acc c => acc * y + c) l acc = acc * fpow y (N.of_nat (length l)) + peval (rev l) y.
    Proof.
      revert acc. induction l as [|c l IH] using rev_ind; intros acc; [cbn; ring|].
      rewrite fold_left_app, IH, rev_app_distr, app_length. cbn [fold_left rev app peval length Nat.add]. rewrite Nat.add_1_r, Nat2N.inj_succ, fpow_succ. ring.
    Qed.
    Lemma cons_length X : length (cons X) = 43%nat. Proof. reflexivity. Qed.
    Definition comb (y X : K) : K := fold_left (fun acc c => acc * y + c) (cons X) 0.
    Lemma y_round : bad_row -> except 42 (fun y => exists i, (i < n)%nat /\ comb y (w i) <> 0).
    Proof.
      intros (i & Li & v & Hv & N0). apply (except_impl 42 (fun y => peval (rev (cons (w i))) y <> 0)).
      - intros y H. exists i. split; [exact Li|]. unfold comb. rewrite horner. intros E. apply H. rewrite <- E. ring.
      - apply (except_roots K finite); [rewrite rev_length, cons_length; auto|]. exists v. split; [|exact N0]. apply in_rev. rewrite rev_involutive. exact Hv.
    Qed.

    (** *** degrees *)
    Lemma pf_ev cl r : polyfun K (n - 1) (fun X => ev X cl r).
    Proof.
      unfold ev. assert (P : polyfun K (n - 1) (peval (F cl))) by (apply pf_poly; specialize (HF cl); lia).
      destruct r; cbn [point]; [exact (pf_dilate K (n - 1) _ _ P)|exact P|exact (pf_dilate K (n - 1) _ _ P)|exact (pf_dilate K (n - 1) _ _ P)].
    Qed.
    Lemma pf_Linst : polyfun K (n - 1) (Linst K n omega n_inv insts).
    Proof.
      unfold Linst. apply (pf_sum K (n - 1) (combine (seq 0 (length insts)) insts) (fun p X => Lp K n n_inv (w (fst p)) X * snd p)). intros p _.
      apply (pf_ext K (n - 1) (fun X => snd p * Lp K n n_inv (w (fst p)) X)); [intros X; ring|]. apply pf_scale. apply (pf_Lp K n n_inv n7).
    Qed.
    Lemma pf_Lblind : polyfun K (n - 1) (Lblind K n omega n_inv).
    Proof. apply (pf_sum K (n - 1) (seq 1 blinding) (fun i X => Lp K n n_inv (w (n - i)) X)). intros i _. apply (pf_Lp K n n_inv n7). Qed.
  End Chal.

  Ltac pf :=
    lazymatch goal with
    | |- polyfun _ _ (fun X => @fadd _ (@?a X) (@?b X)) => refine (pf_addm K _ _ a b _ _); pf
    | |- polyfun _ _ (fun X => @fsub _ (@?a X) (@?b X)) => refine (pf_subm K _ _ a b _ _); pf
    | |- polyfun _ _ (fun X => @fmul _ (@?a X) (@?b X)) => refine (pf_mul K _ _ a b _ _); pf
    | |- polyfun _ _ (fun X => ev X ?cl ?r) => exact (pf_ev cl r)
    | |- polyfun _ _ (fun X => Lp K n n_inv ?v X) => exact (pf_Lp K n n_inv n7 v)
    | |- polyfun _ _ (fun X => Linst K n omega n_inv insts X) => exact pf_Linst
    | |- polyfun _ _ (fun X => Lblind K n omega n_inv X) => exact pf_Lblind
    | |- polyfun _ _ (fun X => X) => exact (pf_id K)
    | |- polyfun _ _ (fun X => ?c) => exact (pf_const K c)
    end.
  Lemma pf_cons theta beta gamma i : (i < 43)%nat -> polyfun K (6 * (n - 1)) (fun X => nth i (cons theta beta gamma X) 0).
  Proof.
    intros L. unfold cons, constraints, permutation, partial_rounds, pad_and_add, lookup.
    do 43 (destruct i as [|i]; [cbn [nth app map seq flat_map];
      unfold main_gate, full_round, permutation_step, active, look_table, unmixed, middle, pow5;
      cbn [look_input fold_right map seq permuted Nat.add]; unfold a, f;
      eapply pf_le; [|pf]; lia|]).
    exfalso. lia.
  Qed.
  Lemma pf_horner d (cs : list (K -> K)) y : (forall c, In c cs -> polyfun K d c) -> forall g, polyfun K d g ->
    polyfun K d (fun X => fold_left (fun acc c => acc * y + c) (map (fun c => c X) cs) (g X)).
  Proof.
    induction cs as [|c cs IH]; intros H g Hg; cbn [map fold_left]; [exact Hg|].
    apply (IH (fun c Hc => H c (or_intror Hc)) (fun X => g X * y + c X)).
    apply pf_add; [|apply H; left; reflexivity]. apply (pf_ext K d (fun X => y * g X)); [intros X; ring|]. apply pf_scale. exact Hg.
  Qed.
  Lemma pf_comb theta beta gamma y : polyfun K (6 * (n - 1)) (comb theta beta gamma y).
  Proof.
    apply (pf_ext K _ (fun X => fold_left (fun acc c => acc * y + c) (map (fun c => c X) (map (fun i X => nth i (cons theta beta gamma X) 0) (seq 0 43))) 0)).
    - intros X. unfold comb. apply (f_equal (fun l => fold_left (fun acc c => acc * y + c) l 0)). rewrite map_map.
      set (l := cons theta beta gamma X). assert (L : length l = 43%nat) by reflexivity. clearbody l. clear -L.
      rewrite <- L. clear L. induction l as [|v l IH]; [reflexivity|]. cbn [length seq map nth]. f_equal. rewrite <- seq_shift, map_map. exact IH.
    - apply (pf_horner _ _ _) with (g := fun _ => 0).
      + intros c Hc. apply in_map_iff in Hc as (i & <- & Hi). apply in_seq in Hi. apply pf_cons. lia.
      + apply (pf_le K 0); [lia|apply pf_const].
  Qed.

  Definition hval (H : nat -> list K) (X : K) : K := fold_right (fun i acc => peval (H i) X + fpow X (N.of_nat n) * acc) 0 (seq 0 pieces).
  Lemma pf_hval H : (forall i, (i < pieces)%nat -> (length (H i) <= n)%nat) -> polyfun K (5 * n) (hval H).
  Proof.
    intros HH. unfold hval. change (seq 0 pieces) with [0; 1; 2; 3; 4]%nat. cbn [fold_right].
    assert (P : forall i, (i < 5)%nat -> polyfun K n (fun X => peval (H i) X)) by (intros i L; apply pf_poly; specialize (HH i L); lia).
    pose proof (pf_pow K n) as PN.
    pose proof (P 0 ltac:(lia))%nat as P0. pose proof (P 1 ltac:(lia))%nat as P1. pose proof (P 2 ltac:(lia))%nat as P2. pose proof (P 3 ltac:(lia))%nat as P3.
    pose proof (P 4 ltac:(lia))%nat as P4.
    eapply pf_le; [|eapply pf_addm; [exact P0|]; eapply pf_mul; [exact PN|]; eapply pf_addm; [exact P1|]; eapply pf_mul; [exact PN|];
      eapply pf_addm; [exact P2|]; eapply pf_mul; [exact PN|]; eapply pf_addm; [exact P3|]; eapply pf_mul; [exact PN|];
      apply (pf_ext K n (fun X => peval (H 4%nat) X)); [intros X; ring|exact P4]]. lia.
  Qed.
  Lemma zero_pow_n : fpow (0 : K) (N.of_nat n) = 0.
  Proof. destruct n as [|m]; [lia|]. rewrite Nat2N.inj_succ, fpow_succ. ring. Qed.
  (** off the domain and zero, with the combination not the multiple claimed *)
  Lemma x_round theta beta gamma y : (exists i, (i < n)%nat /\ comb theta beta gamma y (w i) <> 0) ->
    forall H, (forall i, (i < pieces)%nat -> (length (H i) <= n)%nat) ->
    except (7 * n + 1) (fun X => X <> 0 /\ fpow X (N.of_nat n) <> 1 /\
      combined K mds mds_inv delta tag (ev X) (instance_at K omega (N.of_nat n) n_inv insts X) (l_0 K (N.of_nat n) n_inv X)
        (l_last K omega (N.of_nat n) n_inv X) (l_blind K omega (N.of_nat n) n_inv X) theta beta gamma X y / (fpow X (N.of_nat n) - 1) <> hval H X).
  Proof.
    intros (i & Li & Hi) H HH.
    assert (P : except (6 * n) (fun X => comb theta beta gamma y X - (fpow X (N.of_nat n) - 1) * hval H X <> 0)).
    { apply (pf_at K finite).
      - apply pf_sub; [apply (pf_le K (6 * (n - 1))); [lia|apply pf_comb]|]. apply (pf_le K (n + 5 * n)); [lia|]. apply pf_mul; [|apply pf_hval; exact HH].
        apply pf_sub; [apply pf_pow|apply (pf_le K 0); [lia|apply pf_const]].
      - exists (w i). rewrite (w_root K n omega omega_n i). intros E. apply Hi. rewrite <- E. ring. }
    assert (P1 : except n (fun X : K => fpow X (N.of_nat n) - 1 <> 0)).
    { apply (pf_at K finite).
      - apply pf_sub; [apply pf_pow|apply (pf_le K 0); [lia|apply pf_const]].
      - exists 0. rewrite zero_pow_n. intros E. apply (f1_neq_0 K). transitivity (- (0 - 1) : K); [ring|]. rewrite E. ring. }
    assert (P2 : except 1 (fun X : K => ~ In X [0])) by (apply except_list; auto).
    pose proof (except_and _ _ _ _ (except_and _ _ _ _ P P1) P2) as Q. apply (except_le _ (7 * n + 1)) in Q; [|lia]. revert Q. apply except_impl.
    intros X ((H1 & H2) & H3). assert (HX : fpow X (N.of_nat n) <> 1) by (intros E; apply H2; rewrite E; ring).
    split; [intros E; apply H3; left; symmetry; exact E|]. split; [exact HX|].
    rewrite (off_0 K n omega n_inv n7 omega_n omega_inj n_inv_ok X HX), (off_last K n omega n_inv n7 omega_n omega_inj n_inv_ok X HX), (off_blind K n omega n_inv n7 omega_n omega_inj n_inv_ok X HX),
      (off_inst K n omega n_inv n7 omega_n omega_inj n_inv_ok X HX insts). intros E. apply H1.
    rewrite <- E. change (combined K mds mds_inv delta tag (ev X) (Linst K n omega n_inv insts X) (Lp K n n_inv (w 0) X) (Lp K n n_inv (w u) X)
      (Lblind K n omega n_inv X) theta beta gamma X y) with (comb theta beta gamma y X). field. exact H2.
  Qed.
End Cons.
