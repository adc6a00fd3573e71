(** What the transactions of everybody else leave alone while the administrator owns the contract. *)
From Coq Require Import ZArith String List Bool Lia.
From Verif.Model Require Import Monad Evm Zkdvrf ServiceRun.
From Verif.Spec Require Import Histories.
From Verif.Proofs Require Import ZkdvrfStep ZkdvrfInv1 ZkdvrfInv2 ZkdvrfInv3 Stable.
Import ListNotations.
Open Scope Z_scope.

Record drift (R : Prop) (s s' : st) : Prop := {
  d_owner : owner s' = owner s;
  d_round : currentRoundNum s' = currentRoundNum s;
  d_random : roundToRandom s' = roundToRandom s;
  d_node : forall a, nodeAddress (addrToNode s' a) = nodeAddress (addrToNode s a);
  d_reg : contractPhase s = Registered -> contractPhase s' = Registered;
  d_ready : contractPhase s = Ready -> contractPhase s' = Ready /\ gpkVal s' = gpkVal s;
  d_new : contractPhase s' = Ready -> contractPhase s = Ready \/ R;
  d_complete : contractPhase s = NidkgComplete -> contractPhase s' = NidkgComplete \/ R;
  d_count : forall k, roundSubmissionCount s k <= roundSubmissionCount s' k }.
Lemma drift_refl R s : drift R s s.
Proof. constructor; auto; intros; lia. Qed.
Lemma drift_trans (R1 R2 : Prop) s1 s2 s3 : drift R1 s1 s2 -> drift R2 s2 s3 -> drift (R1 \/ R2) s1 s3.
Proof.
  intros [O1 C1 N1 A1 G1 Y1 W1 M1 K1] [O2 C2 N2 A2 G2 Y2 W2 M2 K2]. constructor; try congruence; auto.
  - intros P. destruct (Y1 P) as [P1 V1]. destruct (Y2 P1) as [P2 V2]. split; congruence.
  - intros P. destruct (W2 P) as [P2|]; [|tauto]. destruct (W1 P2); tauto.
  - intros P. destruct (M1 P) as [P1|]; [|tauto]. destruct (M2 P1); tauto.
  - intros k. specialize (K1 k). specialize (K2 k). lia.
Qed.
Lemma drift_mono (R R' : Prop) s s' : (R -> R') -> drift R s s' -> drift R' s s'.
Proof. intros H [O1 C1 N1 A1 G1 Y1 W1 M1 K1]. constructor; auto; intros P; [destruct (W1 P)|destruct (M1 P)]; auto. Qed.

Section S.
  Variable v : variant.
  Variable E : env.
  Variable c : cfg.
  Variable me : Z.
  Notation hist := (Histories.hist v E c).
  Definition raced (tr : list step) : Prop := exists x g, In x tr /\ accepted x = true /\ sender (txn x) <> me /\ what (txn x) = ComputeVk g.
  Lemma raced_app a b : raced (a ++ b) <-> raced a \/ raced b.
  Proof.
    split.
    - intros (x & g & I & H). apply in_app_or in I as [I|I]; [left|right]; exists x, g; auto.
    - intros [(x & g & I & H)|(x & g & I & H)]; exists x, g; (split; [apply in_or_app; auto|exact H]).
  Qed.
  Lemma drift_step s t s' ev : stepR v E s t s' ev -> sender t <> owner s -> drift (exists g, what t = ComputeVk g) s s'.
  Proof.
    intros R N. destruct R; try contradiction; subst; try (constructor; cbn; auto; intros; lia).
    - constructor; destruct (is_pre v) eqn:V, (registeredCount s + 1 =? memberCount s); cbn; try (intros; congruence); try (intros; lia);
        intros a; unfold upd; destruct (Z.eqb_spec a (sender t)) as [->|]; reflexivity.
    - constructor; destruct (is_pre v) eqn:V, (ppSubmissionCount s + 1 =? memberCount s); cbn; try (intros; congruence); try (intros; lia);
        intros a; unfold upd; destruct (Z.eqb_spec a (sender t)) as [->|]; reflexivity.
    - constructor; cbn; auto; try (intros; congruence); try (intros; lia); intros; right; eauto.
    - constructor; cbn; auto; try (intros; lia). intros k. unfold upd. destruct (Z.eqb_spec k (currentRoundNum s)) as [->|]; lia.
  Qed.
  Lemma drift_exec s t : owner s = me -> sender t <> me -> drift (raced [mkStep s t (apply v E s t)]) s (exec v E s t).
  Proof.
    intros O N. unfold exec. destruct (apply v E s t) as [[s' ev]| |] eqn:A; try apply drift_refl.
    destruct (apply_ok _ _ _ _ _ _ A) as [_ R]. assert (N' : sender t <> owner s) by congruence.
    pose proof (drift_step _ _ _ _ R N') as D. revert D. apply drift_mono.
    intros [g W]. exists (mkStep s t (Ok (s', ev))), g. split; [left; reflexivity|]. cbn. auto.
  Qed.
  Lemma hist_last tr x s : hist (tr ++ [x]) s -> exists s0 t, x = mkStep s0 t (apply v E s0 t) /\ hist tr s0 /\ s = exec v E s0 t.
  Proof.
    intros H. inversion H as [s1 ? ? Y|tr1 s0 t H0 Y]; [destruct tr; discriminate|]. apply app_inj_tail in Y as [-> <-]. eauto.
  Qed.
  Lemma owner_kept s t s' ev : stepR v E s t s' ev -> (forall a, what t <> TransferOwnership a) -> what t <> RenounceOwnership -> owner s' = owner s.
  Proof.
    intros R N1 N2. destruct R; subst; try (destruct (N1 _ H); fail); try contradiction; cbn; try reflexivity.
    - destruct (is_pre v), (_ =? _); reflexivity.
    - destruct (is_pre v), (_ =? _); reflexivity.
    - match goal with X : if is_pre v then _ else _ |- _ => destruct (is_pre v); [destruct X as (h & _ & ->)|rewrite X]; reflexivity end.
  Qed.
  Definition quietly (u : list step) : Prop := Forall (fun x => sender (txn x) <> me) u.
  Lemma drift_hist tr s u : forall s', hist tr s -> hist (tr ++ u) s' -> owner s = me -> quietly u -> drift (raced u) s s'.
  Proof.
    induction u as [|x u IH] using rev_ind; intros s' H H' O Q.
    - rewrite app_nil_r in H'. rewrite (hist_fun _ _ _ _ _ _ H H'). apply drift_refl.
    - rewrite app_assoc in H'. apply hist_last in H' as (s1 & t & -> & H1 & ->). apply Forall_app in Q as [Q1 Q2]. inversion Q2 as [|y l N _]. subst. cbn [txn] in N.
      pose proof (IH s1 H H1 O Q1) as D1. pose proof (d_owner _ _ _ D1) as O1. rewrite O in O1.
      apply (drift_mono _ _ _ _ (proj2 (raced_app _ _))). eapply drift_trans; [exact D1|]. apply drift_exec; assumption.
  Qed.
  (** what a process reads, compared with the contract now *)
  Lemma drift_reads since u s0 tr s trs ch k : hist since s0 -> owner s0 = me -> tr = since ++ u -> quietly u -> hist tr s ->
    ServiceRun.reads v E c since tr trs ch -> drift (raced u) (ch k) s /\ exists u1, trs k = since ++ u1 /\ owner (ch k) = me.
  Proof.
    intros H0 O -> Q H R. destruct (R k) as (Hk & [u1 P1] & _ & [u2 P2]). rewrite P1 in P2. rewrite <- app_assoc in P2. apply app_inv_head in P2. subst u.
    apply Forall_app in Q as [Q1 Q2]. assert (Ok : owner (ch k) = me).
    { rewrite <- O. apply (d_owner (raced u1)). rewrite P1 in Hk. exact (drift_hist _ _ _ _ H0 Hk O Q1). }
    split; [|exists u1; auto]. apply (drift_mono (raced u2)); [intros X; apply raced_app; right; exact X|].
    rewrite P1 in Hk. apply (drift_hist _ _ _ _ Hk); [rewrite <- app_assoc; exact H|exact Ok|exact Q2].
  Qed.
  (** nobody else adds nodes *)
  Lemma added_others tr s t : owner s = me -> sender t <> me -> added (tr ++ [mkStep s t (apply v E s t)]) = added tr.
  Proof.
    intros O N. rewrite added_app. assert (X : added [mkStep s t (apply v E s t)] = []); [|rewrite X, app_nil_r; reflexivity].
    destruct (apply v E s t) as [[s' ev]| |] eqn:A; [|reflexivity|reflexivity]. rewrite added_one. destruct (apply_ok _ _ _ _ _ _ A) as [_ R].
    destruct (what t) eqn:W; try reflexivity. exfalso. destruct R; congruence.
  Qed.
End S.
