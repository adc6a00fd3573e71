(** The two grand-product arguments, row by row: a lookup that misses the table, or two cells that ought to be equal and are not,
    leave few challenges for which the products can be made to close. *)
From Coq Require Import ZArith NArith List Lia Field Bool.
From Verif.Base Require Import Fld Fp Poly.
From Verif.Spec Require Import Few.
From Verif.Proofs Require Import FewProofs.
Import ListNotations.

Section Grand.
  Variable K : Fld.
  Open Scope fld_scope.
  Add Field kf : (flaw K).
  Hypothesis finite : exists all : list K, NoDup all /\ forall x, In x all.

  Definition pr (u : nat) (f : nat -> K) : K := fprod (map f (seq 0 u)).
  Lemma pr_S u f : pr (S u) f = pr u f * f u.
  Proof. unfold pr. rewrite seq_S, map_app, fprod_app. cbn [map Nat.add]. rewrite fprod_cons, fprod_nil. ring. Qed.
  Lemma pr_mul u f g : pr u (fun i => f i * g i) = pr u f * pr u g.
  Proof. induction u as [|u IH]; [unfold pr; cbn; ring|]. rewrite !pr_S, IH. ring. Qed.
  Lemma pr_zero u f : pr u f = 0 -> exists i, (i < u)%nat /\ f i = 0.
  Proof.
    induction u as [|u IH]; intros H; [exfalso; apply (f1_neq_0 K); exact H|]. rewrite pr_S in H. apply fmul_eq0 in H as [H|H].
    - destruct (IH H) as (i & L & E). exists i. split; [lia|exact E].
    - exists u. split; [lia|exact H].
  Qed.
  Lemma pr_at u f i : (i < u)%nat -> f i = 0 -> pr u f = 0.
  Proof. intros L E. unfold pr. apply fprod_eq0. rewrite <- E. apply in_map, in_seq. lia. Qed.
  Lemma pr_neq0 u f : (forall i, (i < u)%nat -> f i <> 0) -> pr u f <> 0.
  Proof. intros H E. destruct (pr_zero u f E) as (i & L & E'). exact (H i L E'). Qed.
  Lemma pr_ext u f g : (forall i, (i < u)%nat -> f i = g i) -> pr u f = pr u g.
  Proof. intros H. unfold pr. apply f_equal. apply map_ext_in. intros i Hi. apply H. apply in_seq in Hi. lia. Qed.
  Lemma telescope u (Z N D : nat -> K) : (forall i, (i < u)%nat -> Z (S i) * D i = Z i * N i) -> Z u * pr u D = Z 0%nat * pr u N.
  Proof.
    induction u as [|u IH]; intros H; [unfold pr; cbn; ring|]. rewrite !pr_S.
    transitivity (pr u D * (Z (S u) * D u)); [ring|]. rewrite (H u) by lia.
    transitivity (N u * (Z u * pr u D)); [ring|]. rewrite IH by (intros i Hi; apply H; lia). ring.
  Qed.

  (** *** products of monic linear factors *)
  Definition mon (u : nat) (s : nat -> K) : list K := fold_right (fun i acc => padd (pscale K (s i) acc) (0 :: acc)) [1] (seq 0 u).
  Lemma nth_padd (l l' : list K) i : nth i (padd l l') 0 = nth i l 0 + nth i l' 0.
  Proof.
    revert l' i. induction l as [|a l IH]; intros l' i; destruct l' as [|b l']; destruct i; cbn [padd nth]; try ring. apply IH.
  Qed.
  Lemma nth_pscale c (l : list K) i : nth i (pscale K c l) 0 = c * nth i l 0.
  Proof. revert i. induction l as [|a l IH]; intros i; destruct i; cbn; try ring. apply IH. Qed.
  Lemma mon_gen (s : nat -> K) (is_ : list nat) : length (fold_right (fun i acc => padd (pscale K (s i) acc) (0 :: acc)) [1] is_) = S (length is_) /\
    nth (length is_) (fold_right (fun i acc => padd (pscale K (s i) acc) (0 :: acc)) [1] is_) 0 = 1 /\
    forall x, peval (fold_right (fun i acc => padd (pscale K (s i) acc) (0 :: acc)) [1] is_) x = fprod (map (fun i => s i + x) is_).
  Proof.
    induction is_ as [|i is_ (L & T & E)].
    - repeat split. intros x. cbn. ring.
    - cbn [fold_right length map]. set (l := fold_right _ _ is_) in *. repeat split.
      + rewrite padd_length. unfold pscale. rewrite map_length. cbn [length]. rewrite L. lia.
      + rewrite nth_padd. cbn [nth]. rewrite T, nth_pscale, nth_overflow by lia. ring.
      + intros x. rewrite peval_padd, peval_pscale. cbn [peval]. rewrite fprod_cons, E. ring.
  Qed.
  Lemma monic_differ u (a b : K) (s t : nat -> K) : a <> b -> except u (fun x => a * pr u (fun i => s i + x) - b * pr u (fun i => t i + x) <> 0).
  Proof.
    intros D.
    assert (M : forall s : nat -> K, exists l, length l = S u /\ nth u l 0 = 1 /\ forall x, peval l x = pr u (fun i => s i + x)).
    { intros s0. destruct (mon_gen s0 (seq 0 u)) as (L & T & E). rewrite seq_length in *. eexists. split; [exact L|]. split; [exact T|exact E]. }
    destruct (M s) as (l & L & T & E). destruct (M t) as (l' & L' & T' & E'). clear M.
    apply (except_impl u (fun x => peval (padd (pscale K a l) (pscale K (- b) l')) x <> 0)).
    - intros x H E0. apply H. rewrite peval_padd, !peval_pscale, E, E'. rewrite <- E0. ring.
    - apply (except_roots K finite).
      + rewrite padd_length. unfold pscale. rewrite !map_length. lia.
      + exists (a - b). split; [|intros X; apply D; apply (fsub_eq0 K); exact X].
        assert (N0 : nth u (padd (pscale K a l) (pscale K (- b) l')) 0 = a - b) by (rewrite nth_padd, !nth_pscale, T, T'; ring).
        rewrite <- N0. apply nth_In. rewrite padd_length. unfold pscale. rewrite !map_length. lia.
  Qed.
  Lemma pf_pr u (s : nat -> K) : polyfun K u (fun x => pr u (fun i => s i + x)).
  Proof.
    apply (pf_le K (length (seq 0 u) * 1)); [rewrite seq_length; lia|]. apply (pf_prod K 1 (seq 0 u) (fun i x => s i + x)).
    intros i _. apply pf_add; [apply (pf_le K 0); [lia|apply pf_const]|apply pf_id].
  Qed.
  Lemma avoid u (s : nat -> K) : except u (fun x => forall i, (i < u)%nat -> s i + x <> 0).
  Proof.
    apply (except_impl u (fun x => ~ In x (map (fun i => - s i) (seq 0 u)))).
    - intros x H i L E. apply H. apply in_map_iff. exists i. split; [|apply in_seq; lia]. transitivity (- s i + (s i + x)); [rewrite E; ring|ring].
    - apply except_list. rewrite map_length, seq_length. auto.
  Qed.

  (** *** lookups *)
  Lemma permuted_in (A' S' : nat -> K) u : A' 0%nat = S' 0%nat ->
    (forall i, (S i < u)%nat -> (A' (S i) - S' (S i)) * (A' (S i) - A' i) = 0) ->
    forall i, (i < u)%nat -> exists j, (j < u)%nat /\ A' i = S' j.
  Proof.
    intros H0 H. induction i as [|i IH]; intros L; [exists 0%nat; split; [exact L|exact H0]|].
    specialize (H i L). apply fmul_eq0 in H as [H|H]; apply (fsub_eq0 K) in H.
    - exists (S i). split; [exact L|exact H].
    - destruct (IH ltac:(lia)) as (j & Lj & E). exists j. split; [exact Lj|]. rewrite H. exact E.
  Qed.
  Definition in_dec_row u (f : nat -> K) v : {exists i, (i < u)%nat /\ f i = v} + {forall i, (i < u)%nat -> f i <> v}.
  Proof.
    induction u as [|u IH]; [right; intros i L; exfalso; lia|]. destruct IH as [IH|IH].
    - left. destruct IH as (i & L & E). exists i. split; [lia|exact E].
    - destruct (feq_dec (f u) v) as [E|D]; [left; exists u; split; [lia|exact E]|].
      right. intros i L. destruct (Nat.eq_dec i u) as [->|N]; [exact D|]. apply IH. lia.
  Qed.
  Theorem lookup_sound u (A T A' S' : nat -> K) i0 : (i0 < u)%nat -> (forall j, (j < u)%nat -> A i0 <> T j) ->
    (forall i, (i < u)%nat -> exists j, (j < u)%nat /\ A' i = S' j) ->
    except (2 * u) (fun beta => except (2 * u) (fun gamma => forall Z : nat -> K, Z 0%nat = 1 -> Z u * Z u - Z u = 0 ->
      (forall i, (i < u)%nat -> Z (S i) * ((A' i + beta) * (S' i + gamma)) - Z i * ((A i + beta) * (T i + gamma)) = 0) -> False)).
  Proof.
    intros L0 Hmiss Hsub.
    (* what the challenges must avoid *)
    assert (Hb : except (2 * u) (fun beta => pr u (fun i => A i + beta) <> 0 /\
              except u (fun gamma => pr u (fun i => A' i + beta) * pr u (fun i => S' i + gamma) - pr u (fun i => A i + beta) * pr u (fun i => T i + gamma) <> 0))).
    { destruct (in_dec_row u A' (A i0)) as [(i & L & E)|H].
      - destruct (Hsub i L) as (j & Lj & Ej). apply (except_le u); [lia|]. generalize (avoid u A). apply except_impl. intros beta Hbeta.
        assert (B : pr u (fun i => A i + beta) <> 0) by (apply pr_neq0; exact Hbeta). split; [exact B|].
        apply (pf_at K finite).
        + apply pf_sub; apply pf_scale, pf_pr.
        + exists (- S' j). rewrite (pr_at u (fun i => S' i + - S' j) j Lj) by ring.
          assert (T0 : pr u (fun i => T i + - S' j) <> 0).
          { apply pr_neq0. intros i' L' X. apply (Hmiss i' L'). rewrite <- E, Ej. symmetry. apply (fsub_eq0 K). rewrite <- X. ring. }
          intros X. apply (fmul_neq0 K _ _ B T0). transitivity (- (pr u (fun i => A' i + beta) * 0 - pr u (fun i => A i + beta) * pr u (fun i => T i + - S' j))); [ring|].
          rewrite X. ring.
      - assert (H1 : except u (fun beta => pr u (fun i => A' i + beta) - pr u (fun i => A i + beta) <> 0)).
        { apply (pf_at K finite).
          - apply pf_sub; apply pf_pr.
          - exists (- A i0). rewrite (pr_at u (fun i => A i + - A i0) i0 L0) by ring. intros X.
            apply (pr_neq0 u (fun i => A' i + - A i0)).
            + intros i L X'. apply (H i L). apply (fsub_eq0 K). rewrite <- X'. ring.
            + transitivity (pr u (fun i => A' i + - A i0) - 0); [ring|exact X]. }
        apply (except_le (u + u)); [lia|]. pose proof (except_and u u _ _ H1 (avoid u A)) as H2. revert H2. apply except_impl.
        intros beta (Hne & Hav). split; [apply pr_neq0; exact Hav|]. apply monic_differ. intros X. apply Hne. rewrite X. ring. }
    revert Hb. apply except_impl. intros beta (Hb & Hg). apply (except_le (u + u)); [lia|].
    pose proof (except_and u u _ _ Hg (avoid u T)) as H2. revert H2. apply except_impl. intros gamma (Hne & Hav) Z Z0 Zu HZ.
    assert (TT : Z u * pr u (fun i => (A' i + beta) * (S' i + gamma)) = Z 0%nat * pr u (fun i => (A i + beta) * (T i + gamma))).
    { apply telescope. intros i L. apply (fsub_eq0 K). apply HZ. exact L. }
    rewrite Z0, !pr_mul in TT. assert (HT : pr u (fun i => T i + gamma) <> 0) by (apply pr_neq0; exact Hav).
    assert (Zc : Z u * (Z u - 1) = 0) by (rewrite <- Zu; ring). apply fmul_eq0 in Zc as [Zc|Zc].
    - apply (fmul_neq0 K _ _ Hb HT). rewrite Zc in TT. transitivity (1 * (pr u (fun i => A i + beta) * pr u (fun i => T i + gamma))); [ring|]. rewrite <- TT. ring.
    - apply (fsub_eq0 K) in Zc. apply Hne. rewrite Zc in TT. transitivity (1 * (pr u (fun i => A' i + beta) * pr u (fun i => S' i + gamma)) - 1 * (pr u (fun i => A i + beta) * pr u (fun i => T i + gamma))); [ring|].
      rewrite TT. ring.
  Qed.

  (** *** copies: m cells with values v, labels l, and claimed partners s *)
  Lemma avoid_eq m (P : nat -> K -> Prop) : (forall c, (c < m)%nat -> except 1 (P c)) -> except m (fun x => forall c, (c < m)%nat -> P c x).
  Proof.
    induction m as [|m IH]; intros H; [apply except_all; intros x c L; exfalso; lia|].
    assert (H1 : except m (fun x => forall c, (c < m)%nat -> P c x)) by (apply IH; intros c L; apply H; lia).
    pose proof (except_and m 1 _ _ H1 (H m ltac:(lia))) as H2. apply (except_le _ (S m)) in H2; [|lia]. revert H2. apply except_impl.
    intros x (Ha & Hb) c L. destruct (Nat.eq_dec c m) as [->|N]; [exact Hb|]. apply Ha. lia.
  Qed.
  Lemma line_avoid (v l w s : K) : l <> s -> except 1 (fun beta => v + beta * l <> w + beta * s).
  Proof.
    intros D. exists [(w - v) / (l - s)]. split; [auto|]. intros b Hb E. apply Hb. left.
    assert (N0 : l - s <> 0) by (intros X; apply D; apply (fsub_eq0 K); exact X).
    apply (fmul_cancel_l K (l - s) _ _ N0). transitivity (w - v); [field; exact N0|].
    transitivity (w + b * s - v - b * s); [ring|]. rewrite <- E. ring.
  Qed.
  Theorem copy_sound m (v l s : nat -> K) c c' : (c < m)%nat -> (c' < m)%nat ->
    (forall i j, (i < m)%nat -> (j < m)%nat -> l i = l j -> i = j) -> s c = l c' -> v c <> v c' ->
    except m (fun beta => except (2 * m) (fun gamma => forall t : K, t * t - t = 0 ->
      t * pr m (fun i => v i + beta * s i + gamma) = pr m (fun i => v i + beta * l i + gamma) -> False)).
  Proof.
    intros Lc Lc' Inj Es Dv.
    assert (Hb : except m (fun beta => forall i, (i < m)%nat -> v i + beta * l i <> v c + beta * s c)).
    { apply avoid_eq. intros i Li. destruct (Nat.eq_dec i c') as [->|N].
      - apply (except_le 0); [lia|]. apply except_all. intros beta E. apply Dv. rewrite Es in E.
        transitivity (v c' + beta * l c' - beta * l c'); [rewrite E; ring|ring].
      - apply line_avoid. rewrite Es. intros E. apply N. apply Inj; assumption. }
    revert Hb. apply except_impl. intros beta Hbeta. apply (except_le (m + m)); [lia|].
    assert (Hg : except m (fun gamma => pr m (fun i => v i + beta * s i + gamma) - pr m (fun i => v i + beta * l i + gamma) <> 0)).
    { apply (pf_at K finite).
      - apply pf_sub; [exact (pf_pr m (fun i => v i + beta * s i))|exact (pf_pr m (fun i => v i + beta * l i))].
      - exists (- (v c + beta * s c)). rewrite (pr_at m (fun i => v i + beta * s i + - (v c + beta * s c)) c Lc) by ring. intros X.
        apply (pr_neq0 m (fun i => v i + beta * l i + - (v c + beta * s c))).
        + intros i Li E. apply (Hbeta i Li). apply (fsub_eq0 K). rewrite <- E. ring.
        + transitivity (- (0 - pr m (fun i => v i + beta * l i + - (v c + beta * s c)))); [ring|]. rewrite X. ring. }
    pose proof (except_and m m _ _ Hg (avoid m (fun i => v i + beta * l i))) as H2. revert H2. apply except_impl.
    intros gamma (Hne & Hav) t Ht TT. assert (Zc : t * (t - 1) = 0) by (rewrite <- Ht; ring). apply fmul_eq0 in Zc as [Zc|Zc].
    - apply (pr_neq0 m (fun i => v i + beta * l i + gamma) Hav). rewrite <- TT, Zc. ring.
    - apply (fsub_eq0 K) in Zc. apply Hne. rewrite Zc in TT. rewrite <- TT. ring.
  Qed.
End Grand.
