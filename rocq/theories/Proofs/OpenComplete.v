(** Dividing out: polynomials that vanish on the rows have a quotient, and right values have an opening. *)
From Coq Require Import ZArith NArith Nnat List Lia Field Bool.
From Verif.Base Require Import Fld Fp Poly Group.
From Verif.Spec Require Import Few Plonk PlonkCircuit.
From Verif.Proofs Require Import FewProofs RowLagrange ConstraintSound OpenSound.
Import ListNotations.

Section Quotient.
  Variable K : Fld.
  Open Scope fld_scope.
  Add Field kf : (flaw K).
  Variable n : nat.
  Lemma peval_split (l : list K) X : peval l X = peval (firstn n l) X + fpow X (N.of_nat n) * peval (skipn n l) X.
  Proof.
    revert l. induction n as [|m IH]; intros l.
    - cbn. ring.
    - destruct l as [|c l]; [cbn [firstn skipn peval]; ring|]. cbn [firstn skipn peval]. rewrite (IH l), Nat2N.inj_succ, fpow_succ. ring.
  Qed.
  Definition chunk (k : nat) (l : list K) : list K := firstn n (skipn (k * n) l).
  Lemma chunk_length k l : (length (chunk k l) <= n)%nat. Proof. unfold chunk. rewrite firstn_length. lia. Qed.
  Lemma skip_add (l : list K) : forall a b, skipn a (skipn b l) = skipn (b + a) l.
  Proof. induction l as [|c l IH]; intros a b; [rewrite !skipn_nil; reflexivity|]. destruct b; [reflexivity|]. cbn [skipn Nat.add]. apply IH. Qed.
  Lemma peval_chunk k (l : list K) X : peval (skipn (k * n) l) X = peval (chunk k l) X + fpow X (N.of_nat n) * peval (skipn (S k * n) l) X.
  Proof. rewrite peval_split, skip_add. replace (k * n + n)%nat with (S k * n)%nat by lia. reflexivity. Qed.
  Lemma six (l : list K) X : (length l <= 6 * n)%nat ->
    peval l X = let T := fpow X (N.of_nat n) in peval (chunk 0 l) X + T * (peval (chunk 1 l) X + T * (peval (chunk 2 l) X + T * (peval (chunk 3 l) X
      + T * (peval (chunk 4 l) X + T * peval (chunk 5 l) X)))).
  Proof.
    intros L. cbv zeta. change (peval l X) with (peval (skipn (0 * n) l) X). rewrite (peval_chunk 0), (peval_chunk 1), (peval_chunk 2), (peval_chunk 3), (peval_chunk 4), (peval_chunk 5).
    rewrite (skipn_all2 l (n := 6 * n)) by exact L. cbn [peval]. ring.
  Qed.
  Definition tail_sum (l : list K) (j : nat) : list K := fold_right (fun k acc => padd (chunk k l) acc) [] (seq (S j) (5 - j)).
  Lemma fold_short (l : list K) ks : (length (fold_right (fun k acc => padd (chunk k l) acc) [] ks) <= n)%nat.
  Proof. induction ks as [|k ks IH]; [cbn; lia|]. cbn [fold_right]. rewrite padd_length. pose proof (chunk_length k l). lia. Qed.
  Lemma fold_val (l : list K) ks X : peval (fold_right (fun k acc => padd (chunk k l) acc) [] ks) X = fsum (map (fun k => peval (chunk k l) X) ks).
  Proof. induction ks as [|k ks IH]; [reflexivity|]. cbn [fold_right map]. rewrite peval_padd, IH. reflexivity. Qed.
  Variable omega : K.
  Hypothesis omega_n : fpow omega (N.of_nat n) = 1.
  Hypothesis omega_inj : forall i j, (i < n)%nat -> (j < n)%nat -> fpow omega (N.of_nat i) = fpow omega (N.of_nat j) -> i = j.
  Theorem quotient_exists f : (1 <= n)%nat -> polyfun K (6 * (n - 1)) f -> (forall i, (i < n)%nat -> f (fpow omega (N.of_nat i)) = 0) ->
    exists H : nat -> list K, (forall i, (length (H i) <= n)%nat) /\ forall X, f X = (fpow X (N.of_nat n) - 1) * hval K n H X.
  Proof.
    intros N1 (l & Ll & E) Hz. assert (L6 : (length l <= 6 * n)%nat) by lia.
    assert (Z0 : forall X, fsum (map (fun k => peval (chunk k l) X) (seq 0 6)) = 0).
    { intros X. rewrite <- fold_val. apply peval_zeros.
      apply (roots_zero K _ (map (fun i => fpow omega (N.of_nat i)) (seq 0 n))).
      - assert (G : forall is_, NoDup is_ -> (forall i, In i is_ -> (i < n)%nat) -> NoDup (map (fun i => fpow omega (N.of_nat i)) is_)).
        { induction is_ as [|i is_ IH]; intros ND Hi; [constructor|]. inversion ND as [|? ? Ni ND']; subst. cbn [map]. constructor.
          - intros Hin. apply in_map_iff in Hin as (j & E' & Hj). assert (j = i) by (apply omega_inj; [apply Hi; right; exact Hj|apply Hi; left; reflexivity|exact E']). subst. contradiction.
          - apply IH; [exact ND'|]. intros j Hj. apply Hi. right. exact Hj. }
        apply G; [apply seq_NoDup|]. intros i Hi. apply in_seq in Hi. lia.
      - rewrite map_length, seq_length. apply fold_short.
      - intros x Hx. apply in_map_iff in Hx as (i & <- & Hi). apply in_seq in Hi. rewrite fold_val.
        specialize (Hz i ltac:(lia)). rewrite E, (six l _ L6) in Hz. cbv zeta in Hz. rewrite (w_root K n omega omega_n i) in Hz.
        rewrite <- Hz. cbn [map seq]. rewrite !fsum_cons, fsum_nil. ring. }
    exists (tail_sum l). split; [intros j; apply fold_short|]. intros X. rewrite E, (six l X L6). cbv zeta.
    unfold hval. change (seq 0 pieces) with [0; 1; 2; 3; 4]%nat. cbn [fold_right]. unfold tail_sum. rewrite !fold_val.
    specialize (Z0 X). cbn [map seq Nat.sub] in *. rewrite !fsum_cons, !fsum_nil in *.
    set (T := fpow X (N.of_nat n)) in *.
    set (c0 := peval (chunk 0 l) X) in *. set (c1 := peval (chunk 1 l) X) in *. set (c2 := peval (chunk 2 l) X) in *. set (c3 := peval (chunk 3 l) X) in *.
    set (c4 := peval (chunk 4 l) X) in *. set (c5 := peval (chunk 5 l) X) in *.
    transitivity (c0 + T * (c1 + T * (c2 + T * (c3 + T * (c4 + T * c5)))) - (c0 + (c1 + (c2 + (c3 + (c4 + (c5 + 0))))))); [rewrite Z0; ring|]. ring.
  Qed.
End Quotient.

Section Open.
  Variable K : Fld.
  Open Scope fld_scope.
  Add Field kf2 : (flaw K).
  Variable p : rot -> K.
  Hypothesis Hp : forall r r', r <> r' -> p r - p r' <> 0.
  Variable e : col -> rot -> K.
  Variable F : col -> list K.
  Variable N : nat.
  Hypothesis N4 : (4 <= N)%nat.
  Hypothesis HF : forall cl, (length (F cl) <= N)%nat.
  Hypothesis right : forall s cl r, In s rotation_sets -> In r (fst s) -> In cl (snd s) -> e cl r = peval (F cl) (p r).
  Notation at_ X := (fun cl => peval (F cl) X).

  Lemma pf_div d f a : polyfun K d f -> f a = 0 -> exists g, polyfun K d g /\ forall X, f X = (X - a) * g X.
  Proof.
    intros (l & Ll & E) Z0. destruct l as [|c l].
    - exists (fun _ => 0). split; [apply (pf_le K 0); [lia|apply pf_const]|]. intros X. rewrite E. cbn. ring.
    - exists (peval (qt K a l)). split; [apply pf_poly; rewrite qt_length; cbn in Ll; lia|]. intros X. rewrite E, <- (peval_div K c l a X), <- (E a), Z0. ring.
  Qed.
  Lemma pf_divs rs : NoDup rs -> forall d f, polyfun K d f -> (forall r, In r rs -> f (p r) = 0) ->
    exists g, polyfun K d g /\ forall X, f X = vanish K p X rs * g X.
  Proof.
    induction rs as [|r rs IH]; intros ND d f Pf Hz.
    - exists f. split; [exact Pf|]. intros X. unfold vanish. cbn. ring.
    - inversion ND as [|? ? Nr ND']; subst. destruct (pf_div d f (p r) Pf (Hz r (or_introl eq_refl))) as (g & Pg & Eg).
      destruct (IH ND' d g Pg) as (g' & Pg' & Eg').
      + intros r' Hr. assert (Z0 : (p r' - p r) * g (p r') = 0) by (rewrite <- Eg; apply Hz; right; exact Hr).
        apply fmul_eq0 in Z0 as [Z0|Z0]; [|exact Z0]. exfalso. revert Z0. apply Hp. intros ->. contradiction.
      + exists g'. split; [exact Pg'|]. intros X. rewrite Eg, Eg'. unfold vanish. cbn [map fold_right]. ring.
  Qed.
  Lemma pf_com1 zeta cs : polyfun K (N - 1) (fun X => com K (at_ X) zeta cs).
  Proof.
    apply (pf_ext K (N - 1) (fun X => peval (map (at_ X) cs) zeta)); [intros X; symmetry; apply com_peval|].
    induction cs as [|cl cs IH]; cbn [map peval]; [apply (pf_le K 0); [lia|apply pf_const]|].
    apply pf_add; [apply pf_poly; specialize (HF cl); lia|]. apply pf_scale. exact IH.
  Qed.
  Lemma pf_diff1 zeta s : In s rotation_sets -> polyfun K (N - 1) (diff K p e F zeta s).
  Proof.
    intros Hs. destruct (set_facts s Hs) as (L & _). apply pf_sub; [apply pf_com1|]. apply (pf_le K (length (fst s))); [lia|]. apply (pf_interpolated K p 3 (le_n 3)).
  Qed.
  Lemma diff_zero zeta s r : In s rotation_sets -> In r (fst s) -> diff K p e F zeta s (p r) = 0.
  Proof.
    intros Hs Hr. destruct (set_facts s Hs) as (_ & _ & _ & ND). unfold diff.
    rewrite (interpolated_at K p Hp _ _ r ND Hr), com_peval, values_peval.
    assert (E : map (at_ (p r)) (snd s) = map (fun cl => e cl r) (snd s)) by (apply map_ext_in; intros cl Hcl; symmetry; exact (right s cl r Hs Hr Hcl)).
    rewrite E. ring.
  Qed.
  Lemma vanish_split s X : In s rotation_sets -> vanish K p X (others (fst s)) * vanish K p X (fst s) = all_vanish K p X.
  Proof. intros Hs. unfold all_vanish, vanish. destruct Hs as [<-|[<-|[<-|[<-|[<-|[]]]]]]; cbn; ring. Qed.
  Lemma total_div zeta nu : exists W, (length W <= N)%nat /\ forall X, total K p e F zeta nu X = all_vanish K p X * peval W X.
  Proof.
    assert (G : forall sets, incl sets rotation_sets -> exists g, polyfun K (N - 1) g /\
      forall X, peval (map (fun s => vanish K p X (others (fst s)) * diff K p e F zeta s X) sets) nu = all_vanish K p X * g X).
    { induction sets as [|s sets IH]; intros HI.
      - exists (fun _ => 0). split; [apply (pf_le K 0); [lia|apply pf_const]|]. intros X. cbn. ring.
      - destruct IH as (g & Pg & Eg); [intros t Ht; apply HI; right; exact Ht|]. assert (Hs : In s rotation_sets) by (apply HI; left; reflexivity).
        destruct (set_facts s Hs) as (_ & _ & _ & ND).
        destruct (pf_divs (fst s) ND (N - 1) _ (pf_diff1 zeta s Hs) (fun r Hr => diff_zero zeta s r Hs Hr)) as (q & Pq & Eq).
        exists (fun X => q X + nu * g X). split; [apply pf_add; [exact Pq|apply pf_scale; exact Pg]|]. intros X. cbn [map peval].
        rewrite Eg, Eq. rewrite <- (vanish_split s X Hs). ring. }
    destruct (G rotation_sets (fun s Hs => Hs)) as (g & (W & LW & EW) & Eg). exists W. split; [lia|]. intros X. rewrite <- EW. apply Eg.
  Qed.
  Lemma pf_peval_map1 {A} d (l : list A) (f : A -> K -> K) z : (forall a, In a l -> polyfun K d (f a)) -> polyfun K d (fun X => peval (map (fun a => f a X) l) z).
  Proof.
    induction l as [|a l IH]; intros H; cbn [map peval]; [apply (pf_le K 0); [lia|apply pf_const]|].
    apply pf_add; [apply H; left; reflexivity|]. apply pf_scale, IH. intros b Hb. apply H. right. exact Hb.
  Qed.
  Theorem open_complete zeta nu : exists W, (length W <= N)%nat /\ forall mu, (forall r, mu <> p r) -> exists W', (length W' <= N)%nat /\
    forall s, lin K p e (at_ s) zeta nu mu (peval W s) (peval W' s) = s * peval W' s.
  Proof.
    destruct (total_div zeta nu) as (W & LW & EW). exists W. split; [exact LW|]. intros mu Hmu.
    assert (V0 : vanish K p mu (others [Prev; Cur; Next]) <> 0).
    { unfold vanish. cbn. apply fmul_neq0; [|apply f1_neq_0]. intros E. apply (Hmu Last). apply (fsub_eq0 K). exact E. }
    assert (B0 : body K p e F zeta nu mu W mu = 0).
    { pose proof (body_mu K p e F zeta nu mu W V0) as B. rewrite EW in B. assert (B' : body K p e F zeta nu mu W mu * vanish K p mu (others [Prev; Cur; Next]) = 0) by (rewrite B; ring).
      apply fmul_eq0 in B' as [B'|B']; [exact B'|contradiction]. }
    assert (PB : polyfun K (N - 1) (body K p e F zeta nu mu W)).
    { apply pf_sub.
      - apply (pf_peval_map1 (N - 1) rotation_sets (fun st X => scale K p mu (fst st) * (com K (at_ X) zeta (snd st) - interpolated K p mu (fst st) (values K e zeta (snd st))))).
        intros st _. apply pf_scale. apply pf_sub; [apply pf_com1|]. apply (pf_le K 0); [lia|apply pf_const].
      - apply pf_scale. apply pf_poly. lia. }
    destruct (pf_div (N - 1) _ mu PB B0) as (g & (W' & LW' & EW') & Eg). exists W'. split; [lia|]. intros s.
    rewrite (lin_body K p e F zeta nu mu W s), Eg, EW'. ring.
  Qed.
End Open.
