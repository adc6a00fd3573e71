(** Invariants of every history: evaluations, randoms, threshold events. *)
From Coq Require Import ZArith String List Bool Lia.
From Verif.Model Require Import Monad Evm Strings Zkdvrf.
From Verif.Spec Require Import Histories.
From Verif.Proofs Require Import ZkdvrfStep ZkdvrfInv1 ZkdvrfInv2.
Import ListNotations.
Open Scope Z_scope.

Definition is_thr (k : Z) (e : event) : bool := match e with RandomThresholdReached k' _ => k' =? k | _ => false end.

Section Inv.
  Variable v : variant.
  Variable E : env.
  Variable c : cfg.
  Notation hist := (hist v E c).

  Definition eval_ok (s : st) (k : Z) (e : peval) (vk : pt) : Prop :=
    (if is_pre v then verify_partial_eval_fast E (roundHash s k) (evalue e) (proof_z e) (proof_c e) vk
     else verify_partial_eval E (roundInput s k) (evalue e) (proof_z e) (proof_c e) vk) = Ok true.
  Definition rand_ok (s : st) (k : Z) (p : prand) (g : g2pt) : Prop :=
    (if is_pre v then verify_pseudo_rand_fast E (roundHash s k) (rproof p) g
     else verify_pseudo_rand E (roundInput s k) (rproof p) g) = Ok true.

  Record Inv3 (tr : list step) (s : st) : Prop := {
    m_cnt : forall k, roundSubmissionCount s k = Z.of_nat (length (evals tr k));
    m_nd : forall k, NoDup (map fst (evals tr k));
    m_range : forall k a, In a (map fst (evals tr k)) -> 1 <= k <= lastSubmittedRound s a;
    m_last : forall a, 0 <= lastSubmittedRound s a <= currentRoundNum s;
    m_lastin : forall a, lastSubmittedRound s a <> 0 -> In a (map fst (evals tr (lastSubmittedRound s a)));
    m_ev : forall k a e, In (a, e) (evals tr k) -> exists i vk,
        znth (map who (registrations tr)) i = Some a /\ indexPlus e = i + 1 /\ znth (vkList s) i = Some vk /\
        eval_ok s k e vk /\ roundToEval s k i = e;
    m_none : forall k i, (forall a e, In (a, e) (evals tr k) -> indexPlus e <> i + 1) -> roundToEval s k i = peval0;
    r_last : forall k, roundToRandom s k = last (randoms tr k) prand0;
    r_ok : forall k p, In p (randoms tr k) -> rvalue p = keccak E (word (fst (rproof p)) ++ word (snd (rproof p))) /\
        exists g, rand_ok s k p g /\ (k <> 0 -> g = gpkVal s);
    r_one : forall k l p, randoms tr k = l ++ [p] -> forall q, In q l -> rvalue q = 0;
    r_range : forall k, randoms tr k <> [] -> 0 <= k <= currentRoundNum s;
    r_done : forall k, 1 <= k < currentRoundNum s -> rvalue (roundToRandom s k) <> 0;
    r_thr : forall k, is_pre v = true -> randoms tr k <> [] -> c_threshold c <= Z.of_nat (length (evals tr k));
    e_thr : forall k, filter (is_thr k) (log tr) =
        if (1 <=? c_threshold c) && (c_threshold c <=? Z.of_nat (length (evals tr k))) then [RandomThresholdReached k (round_input k)] else []
  }.

  (** what the round bookkeeping depends on *)
  Lemma inv3_frame tr s t s' ev : hist tr s -> Inv3 tr s -> is_pre v = is_pre v ->
    (forall k, evals [mkStep s t (Ok (s', ev))] k = []) -> (forall k, randoms [mkStep s t (Ok (s', ev))] k = []) ->
    (registrations [mkStep s t (Ok (s', ev))] = [] \/ phase_rank (contractPhase s) = 0) ->
    (forall k, filter (is_thr k) ev = []) ->
    roundSubmissionCount s' = roundSubmissionCount s -> lastSubmittedRound s' = lastSubmittedRound s ->
    roundToEval s' = roundToEval s -> roundToRandom s' = roundToRandom s ->
    (forall k, (exists a, In a (evals tr k)) \/ randoms tr k <> [] -> roundInput s' k = roundInput s k /\ roundHash s' k = roundHash s k) ->
    (vkList s' = vkList s \/ currentRoundNum s = 0) -> (gpkVal s' = gpkVal s \/ currentRoundNum s = 0) ->
    currentRoundNum s <= currentRoundNum s' -> (forall k, 1 <= k < currentRoundNum s' -> rvalue (roundToRandom s k) <> 0) ->
    Inv3 (tr ++ [mkStep s t (Ok (s', ev))]) s'.
  Proof.
    intros Hh [B1 B2 B3 B4 B5 B6 B7 B8 B9 B10 B11 B12 B13 B14] _ F1 F2 F3 F4 F5 F6 F7 F8 F9 F11 F12 F13 F14.
    assert (Ev : forall k, evals (tr ++ [mkStep s t (Ok (s', ev))]) k = evals tr k) by (intros; rewrite evals_app, F1, app_nil_r; auto).
    assert (Rv : forall k, randoms (tr ++ [mkStep s t (Ok (s', ev))]) k = randoms tr k) by (intros; rewrite randoms_app, F2, app_nil_r; auto).
    assert (Lg : forall k, filter (is_thr k) (log (tr ++ [mkStep s t (Ok (s', ev))])) = filter (is_thr k) (log tr)).
    { intros. rewrite log_app, filter_app, log_one, F4, app_nil_r. auto. }
    assert (Rg : forall k, (exists a, In a (evals tr k)) \/ randoms tr k <> [] -> 0 <= k <= currentRoundNum s).
    { intros k [[[a e] I]|N]; [|auto]. apply (in_map fst) in I. apply B3 in I. specialize (B4 (fst (a,e))). lia. }
    split.
    - intros. rewrite Ev, F5. auto.
    - intros. rewrite Ev. auto.
    - intros k a. rewrite Ev, F6. auto.
    - intros a. rewrite F6. specialize (B4 a). lia.
    - intros a. rewrite F6, Ev. auto.
    - intros k a e. rewrite Ev. intros I. destruct (B6 _ _ _ I) as (i & vk & P1 & P2 & P3 & P4 & P5).
      exists i, vk.
      assert (In a (map fst (evals tr k))) as I' by (apply (in_map fst) in I; auto).
      specialize (B3 _ _ I'). specialize (B4 a).
      split; [|split; [auto|split; [|split]]].
      + rewrite registrations_app. destruct F3 as [->|F3]; [rewrite app_nil_r; auto|].
        rewrite map_app. apply znth_app_l. auto.
      + destruct F11 as [->|F11]; [auto|lia].
      + unfold eval_ok in *. destruct (F9 k) as [-> ->]; eauto.
      + rewrite F7. auto.
    - intros k i. rewrite F7. intros Hn. apply B7. intros a e I. apply (Hn a). rewrite Ev. auto.
    - intros. rewrite F8, Rv. auto.
    - intros k p. rewrite Rv. intros I. destruct (B9 _ _ I) as (P1 & g & P2 & P3). split; auto. exists g.
      assert (randoms tr k <> []) as N by (intros Z1; rewrite Z1 in I; destruct I).
      split.
      + unfold rand_ok in *. destruct (F9 k) as [-> ->]; eauto.
      + intros Nk. specialize (P3 Nk). destruct F12 as [->|F12]; auto. specialize (B11 _ N). lia.
    - intros k l p. rewrite Rv. apply B10.
    - intros k. rewrite Rv. intros N. specialize (B11 _ N). lia.
    - intros k Hk. rewrite F8. auto.
    - intros k P. rewrite Rv, Ev. auto.
    - intros k. rewrite Lg, Ev. auto.
  Qed.

  Lemma inv3 tr s : hist tr s -> Inv3 tr s.
  Proof.
    apply hist_ind2; clear tr s.
    - intros s Hc H. apply construct_ok in H as (H1 & H2 & ->).
      split; cbn; auto; try (constructor; fail); try lia; try tauto; try discriminate.
      + intros k l p H. destruct l; discriminate H.
      + intros k. destruct (Z.leb_spec 1 (c_threshold c)), (Z.leb_spec (c_threshold c) 0); auto; lia.
    - intros tr s x H [B1 B2 B3 B4 B5 B6 B7 B8 B9 B10 B11 B12 B13 B14] X.
      assert (Ev : forall k, evals (tr ++ [x]) k = evals tr k) by (intros; autorewrite with tr rej; auto).
      assert (Rv : forall k, randoms (tr ++ [x]) k = randoms tr k) by (intros; autorewrite with tr rej; auto).
      assert (Rg : registrations (tr ++ [x]) = registrations tr) by (autorewrite with tr rej; auto).
      assert (Lg : log (tr ++ [x]) = log tr) by (autorewrite with tr rej; auto).
      split; intros; rewrite ?Ev, ?Rv, ?Rg, ?Lg in *; eauto.
    - intros tr s t s' ev Hh IH Ht R _. pose proof (inv0 _ _ _ _ _ Hh) as C. pose proof (inv1 _ _ _ _ _ Hh) as J. pose proof (inv2 _ _ _ _ _ Hh) as K.
      destruct R as [a W|pk s1 s2 ev0 W|W|pp zk s1 s2 ev0 W|gpk gr vk W|s1 s2 W|e vk ev0 W|p W|a W|W|W].
      Ltac fr W := apply inv3_frame; auto; intros; rewrite ?evals_one, ?randoms_one, ?registrations_one, ?W; cbn; auto;
        try (match goal with |- context [if ?b then _ else _] => destruct b; reflexivity end); try lia.
      + subst s' ev. fr W. apply (r_done _ _ IH); auto.
      + assert (Eq : vkList s' = vkList s /\ gpkVal s' = gpkVal s /\
          currentRoundNum s' = currentRoundNum s /\ roundInput s' = roundInput s /\ roundHash s' = roundHash s /\
          roundSubmissionCount s' = roundSubmissionCount s /\ lastSubmittedRound s' = lastSubmittedRound s /\
          roundToEval s' = roundToEval s /\ roundToRandom s' = roundToRandom s).
        { subst s' s2 s1. destruct (is_pre v), (registeredCount s + 1 =? memberCount s); cbn; repeat split; auto. }
        destruct Eq as (E5 & E6 & E7 & E8 & E9 & E10 & E11 & E12 & E13).
        fr W. 
        * right. rewrite H. reflexivity.
        * subst ev ev0. match goal with |- context [if ?b then _ else _] => destruct b; reflexivity end.
        * rewrite E8, E9. auto.
        * apply (r_done _ _ IH). lia.
      + subst s' ev. fr W. apply (r_done _ _ IH); auto.
      + assert (Eq : vkList s' = vkList s /\ gpkVal s' = gpkVal s /\
          currentRoundNum s' = currentRoundNum s /\ roundInput s' = roundInput s /\ roundHash s' = roundHash s /\
          roundSubmissionCount s' = roundSubmissionCount s /\ lastSubmittedRound s' = lastSubmittedRound s /\
          roundToEval s' = roundToEval s /\ roundToRandom s' = roundToRandom s).
        { subst s' s2 s1. destruct (is_pre v), (ppSubmissionCount s + 1 =? memberCount s); cbn; repeat split; auto. }
        destruct Eq as (E5 & E6 & E7 & E8 & E9 & E10 & E11 & E12 & E13).
        fr W.
        * subst ev ev0. match goal with |- context [if ?b then _ else _] => destruct b; reflexivity end.
        * rewrite E8, E9. auto.
        * apply (r_done _ _ IH). lia.
      + assert (currentRoundNum s = 0).
        { destruct (Z.eq_dec (currentRoundNum s) 0); auto. pose proof (k_curready _ _ _ _ _ K n). congruence. }
        subst s' ev. fr W. apply (r_done _ _ IH); auto.
      + assert (Cn : 0 <= currentRoundNum s) by (rewrite (k_cur _ _ _ _ _ K); lia).
        assert (Eq : vkList s2 = vkList s1 /\ gpkVal s2 = gpkVal s1 /\
          currentRoundNum s2 = currentRoundNum s1 /\ roundInput s2 = roundInput s1 /\ (forall k, k <= currentRoundNum s -> roundHash s2 k = roundHash s k) /\
          roundSubmissionCount s2 = roundSubmissionCount s1 /\ lastSubmittedRound s2 = lastSubmittedRound s1 /\
          roundToEval s2 = roundToEval s1 /\ roundToRandom s2 = roundToRandom s1).
        { destruct (is_pre v).
          - destruct H5 as (h & _ & ->). subst s1. cbn. repeat split; auto. intros. apply upd_other. lia.
          - subst s2 s1. cbn. repeat split; auto. }
        destruct Eq as (E5 & E6 & E7 & E8 & E9 & E10 & E11 & E12 & E13). clear H5.
        assert (forall k, (exists a, In a (evals tr k)) \/ randoms tr k <> [] -> 0 <= k <= currentRoundNum s) as Rg.
        { intros k [[[a e] I]|N]; [|apply (r_range _ _ IH); auto].
          apply (in_map fst) in I. apply (m_range _ _ IH) in I. pose proof (m_last _ _ IH (fst (a,e))). lia. }
        subst s'. subst s1. cbn in *. fr W.
        * subst ev. reflexivity.
        * apply Rg in H4. rewrite E8, E9 by lia. split; auto. apply upd_other. lia.
        * destruct (Z.eq_dec k (currentRoundNum s)) as [->|].
          -- apply H2. lia.
          -- apply (r_done _ _ IH). lia.
      + (* eval *)
        rename H into V0, H0 into Hme, H1 into Hrv, H2 into Hlast, H3 into Hpk, H4 into Hidx, H5 into Hvk, H6 into Hver, H7 into Hc, H8 into Dev.
        remember (sender t) as me eqn:Hme0 in *. remember (currentRoundNum s) as k0 eqn:Hk0 in *. symmetry in Hk0.
        pose proof (sender_member _ _ _ _ _ t Hh Ht ltac:(rewrite <- Hme0; exact Hme)) as Hin. rewrite <- Hme0 in Hin.
        destruct IH as [B1 B2 B3 B4 B5 B6 B7 B8 B9 B10 B11 B12 B13 B14].
        assert (K0 : 1 <= k0) by (specialize (B4 me); lia).
        assert (Hready : contractPhase s = Ready) by (apply (k_curready _ _ _ _ _ K); rewrite Hk0; lia).
        assert (Hreg : In me (map who (registrations tr))).
        { eapply all_registered; eauto. rewrite Hready. discriminate. }
        apply in_znth in Hreg as [i Hi].
        assert (Hpi : pkIndex (addrToNode s me) = i).
        { rewrite znth_map in Hi. destruct (znth (registrations tr) i) as [x|] eqn:Z1; [|discriminate]. cbn in Hi.
          apply (j_reg _ _ _ _ J) in Z1. injection Hi as Hi. rewrite Hi in Z1. tauto. }
        rewrite Hpi in *. apply at_ok in Hvk.
        assert (Nin : ~ In me (map fst (evals tr k0))) by (intros I; apply B3 in I; lia).
        assert (Ev : forall k, evals (tr ++ [mkStep s t (Ok (s', ev))]) k = evals tr k ++ if k0 =? k then [(me, e)] else []).
        { intros k. rewrite evals_app, evals_one, W, Hk0, <- Hme0. reflexivity. }
        assert (Rv : forall k, randoms (tr ++ [mkStep s t (Ok (s', ev))]) k = randoms tr k).
        { intros k. rewrite randoms_app, randoms_one, W. destruct (currentRoundNum s =? k); apply app_nil_r. }
        assert (Rg : registrations (tr ++ [mkStep s t (Ok (s', ev))]) = registrations tr).
        { rewrite registrations_app, registrations_one, W. apply app_nil_r. }
        assert (Uniq : forall a' e', In (a', e') (evals tr k0) -> indexPlus e' <> i + 1).
        { intros a' e' I Ei. destruct (B6 _ _ _ I) as (i' & vk' & P1 & P2 & _). assert (i' = i) by lia. subst i'.
          rewrite Hi in P1. injection P1 as ->. apply Nin. apply in_map_iff. exists (a', e'). auto. }
        split; intros k; try (intros; rewrite ?Ev, ?Rv, ?Rg in *).
        * subst s'; cbn. unfold upd. rewrite Z.eqb_sym. destruct (Z.eqb_spec k0 k) as [Ek|]; [subst k|]; rewrite app_length; cbn; rewrite B1; lia.
        * destruct (Z.eqb_spec k0 k) as [Ek|]; [subst k|]; rewrite ?app_nil_r; auto. rewrite map_app. apply NoDup_snoc; auto.
        * rewrite map_app, in_app_iff in H. subst s'; cbn. unfold upd. destruct (Z.eqb_spec a me) as [Eq0|]; [subst a|].
          -- destruct (Z.eqb_spec k0 k) as [Ek|]; [subst k|]; [lia|]. destruct H as [H|[]]. apply B3 in H. specialize (B4 me). lia.
          -- destruct (Z.eqb_spec k0 k) as [Ek|]; [subst k|]; destruct H as [H|H]; cbn in H; auto; destruct H; try congruence; contradiction.
        * pose proof (B4 k). subst s'; cbn. unfold upd. destruct (Z.eqb_spec k me); lia.
        * subst s'; cbn in *. unfold upd in *. rewrite map_app, in_app_iff. destruct (Z.eqb_spec k me) as [Eq0|]; [subst k|].
          -- rewrite Z.eqb_refl. cbn. auto.
          -- auto.
        * assert (FR : forall k', eval_ok s k' = eval_ok s' k') by (intros; subst s'; reflexivity).
          assert (FV : vkList s' = vkList s) by (subst s'; reflexivity).
          rewrite <- FR, FV. rewrite in_app_iff in H. destruct H as [H|H].
          -- destruct (B6 _ _ _ H) as (i' & vk' & P1 & P2 & P3 & P4 & P5). exists i', vk'. repeat split; auto.
             subst s'; cbn. unfold upd. destruct (Z.eqb_spec k k0) as [Eq0|]; [subst k|]; auto. destruct (Z.eqb_spec i' i) as [->|]; auto.
             exfalso. apply Uniq in H. lia.
          -- destruct (Z.eqb_spec k0 k) as [Ek|]; [subst k|]; [|destruct H]. destruct H as [H|[]]. injection H as <- <-.
             exists i, vk. repeat split; auto. subst s'; cbn. rewrite !upd_same. reflexivity.
        * subst s'; cbn. unfold upd. destruct (Z.eqb_spec k k0) as [Eq0|Nk]; [subst k|].
          -- destruct (Z.eqb_spec i0 i) as [Eq0|]; [subst i0|].
             ++ exfalso. apply (H me e); auto. rewrite ?Ev, Z.eqb_refl. apply in_or_app. cbn; auto.
             ++ apply B7. intros a' e' I. apply (H a'). rewrite ?Ev. apply in_or_app; auto.
          -- apply B7. intros a' e' I. apply (H a'). rewrite ?Ev. apply in_or_app; auto.
        * subst s'; cbn. auto.
        * destruct (B9 _ _ H) as (P1 & g & P2 & P3). split; auto. exists g. subst s'; cbn; auto.
        * eapply B10; eauto.
        * subst s'. cbn. specialize (B11 _ H). lia.
        * subst s'; cbn in *. auto.
        * rewrite app_length. specialize (B13 _ H H0). lia.
        * rewrite log_app, filter_app, B14, log_one, app_length. subst ev ev0.
          rewrite ?Hk0. destruct C as [C1 C2 C3 C4 C5 C6 C7]. rewrite C2, B1.
          assert (Hin' : roundInput s k0 = round_input k0).
          { rewrite (k_input _ _ _ _ _ K). rewrite ?Hk0. destruct (Z.leb_spec 1 k0), (Z.leb_spec k0 k0); auto; lia. }
          rewrite Hin'. destruct (Z.eqb_spec k0 k) as [Ek|Nk]; [subst k|]; cbn [length].
          -- destruct (Z.eqb_spec (Z.of_nat (length (evals tr k0)) + 1) (c_threshold c)); cbn [filter is_thr]; rewrite ?Z.eqb_refl;
             destruct (Z.leb_spec 1 (c_threshold c)), (Z.leb_spec (c_threshold c) (Z.of_nat (length (evals tr k0)))), (Z.leb_spec (c_threshold c) (Z.of_nat (length (evals tr k0) + 1))); cbn; auto; lia.
          -- rewrite Nat.add_0_r. destruct (Z.of_nat (length (evals tr k0)) + 1 =? c_threshold c); cbn; [|apply app_nil_r].
             destruct (Z.eqb_spec k0 k); [contradiction|]. apply app_nil_r.
      + (* random *)
        rename H into V0, H0 into Hown, H1 into Hrv, H2 into Hthr, H3 into Hver, H4 into Hval.
        remember (currentRoundNum s) as k0 eqn:Hk0 in *. symmetry in Hk0.
        destruct IH as [B1 B2 B3 B4 B5 B6 B7 B8 B9 B10 B11 B12 B13 B14].
        assert (Ev : forall k, evals (tr ++ [mkStep s t (Ok (s', ev))]) k = evals tr k).
        { intros k. rewrite evals_app, evals_one, W. destruct (currentRoundNum s =? k); apply app_nil_r. }
        assert (Rv : forall k, randoms (tr ++ [mkStep s t (Ok (s', ev))]) k = randoms tr k ++ if k0 =? k then [p] else []).
        { intros k. rewrite randoms_app, randoms_one, W, Hk0. reflexivity. }
        assert (Rg : registrations (tr ++ [mkStep s t (Ok (s', ev))]) = registrations tr).
        { rewrite registrations_app, registrations_one, W. apply app_nil_r. }
        assert (K0 : 0 <= k0) by (rewrite <- Hk0; rewrite (k_cur _ _ _ _ _ K); lia).
        split; intros k; try (intros; rewrite ?Ev, ?Rv, ?Rg in *).
        * subst s'; cbn. auto.
        * auto.
        * subst s'; cbn. auto.
        * subst s'; cbn. auto.
        * subst s'; cbn in *. auto.
        * subst s'; cbn. apply B6; auto.
        * subst s'; cbn. apply B7. intros a' e' I. apply (H a'). rewrite ?Ev. auto.
        * subst s'; cbn. unfold upd. rewrite Z.eqb_sym. destruct (Z.eqb_spec k0 k) as [Ek|]; [subst k|]; [rewrite last_snoc; auto|]. rewrite app_nil_r. auto.
        * rewrite in_app_iff in H. destruct H as [H|H].
          -- destruct (B9 _ _ H) as (P1 & g & P2 & P3). split; auto. exists g. subst s'; cbn; auto.
          -- destruct (Z.eqb_spec k0 k) as [Ek|]; [subst k|]; [|destruct H]. destruct H as [<-|[]]. split; auto. exists (gpkVal s). subst s'; cbn; auto.
        * destruct (Z.eqb_spec k0 k) as [Ek|]; [subst k|].
          -- apply app_inj_tail in H as [<- <-]. rewrite B8 in Hrv.
             destruct (exists_last (l := randoms tr k0)) as (l' & q' & El); [intros Z1; rewrite Z1 in H0; destruct H0|].
             rewrite El in H0, Hrv. rewrite last_snoc in Hrv. apply in_app_or in H0 as [H0|[<-|[]]]; auto. eapply B10; eauto.
          -- rewrite app_nil_r in H. eapply B10; eauto.
        * subst s'; cbn. rewrite ?Hk0. destruct (Z.eqb_spec k0 k) as [Ek|]; [subst k|]; [lia|]. rewrite app_nil_r in H. specialize (B11 _ H). lia.
        * subst s'; cbn in *. rewrite ?Hk0 in H. rewrite upd_other by lia. apply B12. rewrite ?Hk0. lia.
        * destruct (Z.eqb_spec k0 k) as [Ek|]; [subst k|]; [|rewrite app_nil_r in *; auto]. specialize (Hthr H). destruct C. rewrite B1 in Hthr. lia.
        * rewrite log_app, filter_app, B14, log_one. subst ev. cbn. apply app_nil_r.
      + subst s' ev. fr W. apply (r_done _ _ IH); auto.
      + subst s' ev. fr W. apply (r_done _ _ IH); auto.
      + subst s' ev. fr W. apply (r_done _ _ IH); auto.
  Qed.
End Inv.
