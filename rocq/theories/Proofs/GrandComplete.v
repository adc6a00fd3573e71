(** The other direction: rows that satisfy the lookups and the copies have the columns the two arguments ask for. *)
From Coq Require Import ZArith NArith List Lia Field Bool Permutation.
From Verif.Base Require Import Fld Fp Poly.
From Verif.Spec Require Import Few.
From Verif.Proofs Require Import FewProofs GrandProduct.
Import ListNotations.

Section Arrange.
  Variable A : Type.
  Variable dec : forall a b : A, {a = b} + {a <> b}.
  (** each value is either the one of the table beside it or the value above it *)
  Fixpoint chain (prev : option A) (l : list (A * A)) : Prop :=
    match l with [] => True | (a, s) :: l => (a = s \/ prev = Some a) /\ chain (Some a) l end.
  Lemma chain_none l prev : chain None l -> chain prev l.
  Proof. destruct l as [|[a s] l]; [auto|]. cbn. intros ([E|E] & H); [split; [left; exact E|exact H]|discriminate E]. Qed.
  Lemma chain_insert p : forall prev a s f q, chain prev (p ++ (a, s) :: q) -> chain prev (p ++ (a, s) :: (a, f) :: q).
  Proof.
    induction p as [|[b t] p IH]; intros prev a s f q; cbn [app chain].
    - intros (H & Hq). split; [exact H|]. split; [right; reflexivity|exact Hq].
    - intros (H & Hq). split; [exact H|]. apply IH. exact Hq.
  Qed.
  Lemma fills (D : list A) : NoDup D -> forall T, incl D T -> exists F, Permutation T (D ++ F).
  Proof.
    induction D as [|d D IH]; intros ND T HI; [exists T; reflexivity|]. inversion ND as [|? ? Nd ND']; subst.
    destruct (in_split d T (HI d (or_introl eq_refl))) as (T1 & T2 & ->).
    destruct (IH ND' (T1 ++ T2)) as (F & HF).
    { intros x Hx. assert (Hx' : In x (T1 ++ d :: T2)) by (apply HI; right; exact Hx). apply in_app_or in Hx' as [H|[->|H]]; [apply in_or_app; left; exact H|contradiction|apply in_or_app; right; exact H]. }
    exists F. cbn [app]. etransitivity; [symmetry; apply Permutation_middle|]. apply perm_skip. exact HF.
  Qed.
  Lemma arrange_gen (l : list A) : forall F, length (nodup dec l ++ F) = length l ->
    exists ps, chain None ps /\ Permutation l (map fst ps) /\ Permutation (nodup dec l ++ F) (map snd ps).
  Proof.
    induction l as [|a l IH]; intros F HL.
    - exists []. cbn in *. destruct F; [|discriminate HL]. repeat split; constructor.
    - cbn [nodup] in *. destruct (in_dec dec a l) as [I|I].
      + destruct F as [|f F].
        { exfalso. rewrite app_nil_r in HL. assert (L : (length (nodup dec l) <= length l)%nat).
          { apply NoDup_incl_length; [apply NoDup_nodup|]. intros x Hx. apply nodup_In in Hx. exact Hx. }
          cbn [length] in HL. lia. }
        destruct (IH F) as (ps & C & P1 & P2).
        { rewrite app_length in *. cbn [length] in HL. lia. }
        assert (Ia : In a (map fst ps)) by (apply (Permutation_in a P1); exact I).
        apply in_map_iff in Ia as ((a' & s) & E & Hin). cbn [fst] in E. subst a'. apply in_split in Hin as (p & q & ->).
        exists (p ++ (a, s) :: (a, f) :: q). split; [apply chain_insert; exact C|].
        rewrite !map_app in *. cbn [map fst snd] in *. split.
        * etransitivity; [apply perm_skip; exact P1|]. apply Permutation_middle.
        * etransitivity; [symmetry; apply Permutation_middle|]. etransitivity; [apply perm_skip; exact P2|].
          change (s :: f :: map snd q) with ([s] ++ f :: map snd q). rewrite app_assoc. etransitivity; [|apply Permutation_middle]. rewrite <- app_assoc. reflexivity.
      + destruct (IH F) as (ps & C & P1 & P2).
        { rewrite app_length in *. cbn [length app] in HL. lia. }
        exists ((a, a) :: ps). split; [split; [left; reflexivity|apply chain_none; exact C]|]. cbn [map fst snd app]. split; apply perm_skip; assumption.
  Qed.
  Theorem arrange (l T : list A) : length l = length T -> incl l T ->
    exists ps, chain None ps /\ Permutation l (map fst ps) /\ Permutation T (map snd ps).
  Proof.
    intros HL HI. destruct (fills (nodup dec l) (NoDup_nodup dec l) T) as (F & HF).
    { intros x Hx. apply HI. apply nodup_In in Hx. exact Hx. }
    destruct (arrange_gen l F) as (ps & C & P1 & P2).
    - rewrite <- (Permutation_length HF). symmetry. exact HL.
    - exists ps. split; [exact C|]. split; [exact P1|]. etransitivity; [exact HF|exact P2].
  Qed.
  Lemma chain_nth d l : forall prev, chain prev l -> forall i, (S i < length l)%nat ->
    fst (nth (S i) l d) = snd (nth (S i) l d) \/ fst (nth (S i) l d) = fst (nth i l d).
  Proof.
    induction l as [|[a s] l IH]; intros prev H i L; [cbn in L; lia|]. destruct H as (_ & H). destruct i as [|i].
    - destruct l as [|[b t] l]; [cbn in L; lia|]. cbn [nth fst snd]. destruct H as ([E|E] & _); [left; exact E|right]. injection E as E. symmetry. exact E.
    - cbn [length] in L. exact (IH (Some a) H i ltac:(lia)).
  Qed.
  Lemma chain_0 d l : chain None l -> (0 < length l)%nat -> fst (nth 0 l d) = snd (nth 0 l d).
  Proof. destruct l as [|[a s] l]; cbn; [lia|]. intros ([E|E] & _) _; [exact E|discriminate E]. Qed.
End Arrange.

Section Complete.
  Variable K : Fld.
  Open Scope fld_scope.
  Add Field kf : (flaw K).
  Lemma fprod_perm (l l' : list K) : Permutation l l' -> fprod l = fprod l'.
  Proof. induction 1; rewrite ?fprod_cons; [reflexivity|rewrite IHPermutation; reflexivity|ring|etransitivity; eassumption]. Qed.
  Lemma pr_list (l : list K) (g : K -> K) u : length l = u -> pr K u (fun i => g (nth i l 0)) = fprod (map g l).
  Proof.
    intros <-. unfold pr. f_equal. induction l as [|a l IH]; [reflexivity|]. cbn [length seq map nth]. f_equal. rewrite <- seq_shift, map_map. exact IH.
  Qed.

  (** *** lookups *)
  Theorem lookup_columns u (A T : nat -> K) : (0 < u)%nat -> (forall i, (i < u)%nat -> exists j, (j < u)%nat /\ A i = T j) ->
    exists A' S' : nat -> K, A' 0%nat = S' 0%nat /\ (forall i, (S i < u)%nat -> (A' (S i) - S' (S i)) * (A' (S i) - A' i) = 0) /\
      (forall b, pr K u (fun i => A' i + b) = pr K u (fun i => A i + b)) /\ (forall g, pr K u (fun i => S' i + g) = pr K u (fun i => T i + g)).
  Proof.
    intros U H. destruct (arrange K (@feq_dec K) (map A (seq 0 u)) (map T (seq 0 u))) as (ps & C & P1 & P2).
    - rewrite !map_length. reflexivity.
    - intros x Hx. apply in_map_iff in Hx as (i & <- & Hi). apply in_seq in Hi. destruct (H i ltac:(lia)) as (j & Lj & ->). apply in_map, in_seq. lia.
    - assert (L : length ps = u) by (rewrite <- (map_length fst), <- (Permutation_length P1), map_length, seq_length; reflexivity).
      exists (fun i => fst (nth i ps (0, 0))), (fun i => snd (nth i ps (0, 0))). split; [apply (chain_0 K); [exact C|lia]|]. split; [|split].
      + intros i Li. destruct (chain_nth K (0, 0) ps None C i ltac:(lia)) as [E|E]; rewrite E; ring.
      + intros b. transitivity (pr K u (fun i => nth i (map fst ps) 0 + b)).
        * apply pr_ext. intros i _. f_equal. symmetry. exact (map_nth fst ps (0, 0) i).
        * rewrite (pr_list (map fst ps) (fun v => v + b) u) by (rewrite map_length; exact L). unfold pr. rewrite <- (map_map A (fun v => v + b)).
          apply fprod_perm, Permutation_map. symmetry. exact P1.
      + intros g. transitivity (pr K u (fun i => nth i (map snd ps) 0 + g)).
        * apply pr_ext. intros i _. f_equal. symmetry. exact (map_nth snd ps (0, 0) i).
        * rewrite (pr_list (map snd ps) (fun v => v + g) u) by (rewrite map_length; exact L). unfold pr. rewrite <- (map_map T (fun v => v + g)).
          apply fprod_perm, Permutation_map. symmetry. exact P2.
  Qed.

  (** *** products *)
  Definition grand (z0 : K) (N D : nat -> K) (i : nat) : K := z0 * (pr K i N / pr K i D).
  Lemma grand_0 z0 N D : grand z0 N D 0 = z0.
  Proof. unfold grand, pr. cbn. field. apply f1_neq_0. Qed.
  Lemma grand_step z0 N D u : (forall i, (i < u)%nat -> D i <> 0) -> forall i, (i < u)%nat -> grand z0 N D (S i) * D i = grand z0 N D i * N i.
  Proof.
    intros H i L. unfold grand. rewrite !(pr_S K). assert (D0 : D i <> 0) by (apply H; exact L).
    assert (P0 : pr K i D <> 0) by (apply pr_neq0; intros j Lj; apply H; lia). field. split; assumption.
  Qed.
  Lemma grand_1 N D u : (forall i, (i < u)%nat -> D i <> 0) -> pr K u N = pr K u D -> grand 1 N D u = 1.
  Proof. intros H E. unfold grand. rewrite E. field. apply pr_neq0. exact H. Qed.

  (** *** copies *)
  Theorem copy_products m (v l s : nat -> K) (pi : nat -> nat) beta gamma :
    (forall c, (c < m)%nat -> (pi c < m)%nat) -> (forall c c', (c < m)%nat -> (c' < m)%nat -> pi c = pi c' -> c = c') ->
    (forall c, (c < m)%nat -> s c = l (pi c) /\ v c = v (pi c)) ->
    pr K m (fun c => v c + beta * s c + gamma) = pr K m (fun c => v c + beta * l c + gamma).
  Proof.
    intros R I H. transitivity (pr K m (fun c => v (pi c) + beta * l (pi c) + gamma)).
    - apply pr_ext. intros c L. destruct (H c L) as (E1 & E2). rewrite E1, E2. reflexivity.
    - unfold pr. rewrite <- (map_map pi (fun c => v c + beta * l c + gamma)). apply fprod_perm, Permutation_map.
      apply NoDup_Permutation_bis.
      + assert (G : forall is_, NoDup is_ -> (forall i, In i is_ -> (i < m)%nat) -> NoDup (map pi is_)).
        { induction is_ as [|i is_ IH]; intros ND Hi; [constructor|]. inversion ND as [|? ? Ni ND']; subst. cbn [map]. constructor.
          - intros Hin. apply in_map_iff in Hin as (j & E & Hj). assert (j = i) by (apply I; [apply Hi; right; exact Hj|apply Hi; left; reflexivity|exact E]). subst. contradiction.
          - apply IH; [exact ND'|]. intros j Hj. apply Hi. right. exact Hj. }
        apply G; [apply seq_NoDup|]. intros i Hi. apply in_seq in Hi. lia.
      + rewrite map_length. auto.
      + intros x Hx. apply in_map_iff in Hx as (i & <- & Hi). apply in_seq in Hi. apply in_seq. specialize (R i ltac:(lia)). lia.
  Qed.
End Complete.
