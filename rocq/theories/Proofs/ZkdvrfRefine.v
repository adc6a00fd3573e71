(** Completeness of the step relation, and the simulation of zkdvrf_pre by zkdvrf. *)
From Coq Require Import ZArith String List Bool Lia.
From Verif.Model Require Import Monad Evm Strings Zkdvrf.
From Verif.Spec Require Import Histories Refinement.
From Verif.Proofs Require Import ZkdvrfStep ZkdvrfInv1 ZkdvrfInv2 ZkdvrfInv3 ZkdvrfThms.
Import ListNotations.
Open Scope Z_scope.

Lemma chk_in m x : 0 <= x < m -> chk m x = Ok x.
Proof. intros H. unfold chk. destruct (Z.leb_spec 0 x), (Z.ltb_spec x m); auto; lia. Qed.

Section Complete.
  Variable v : variant.
  Variable E : env.
  Ltac simp := cbn -[M32 M256 to_dec INPUT_PREFIX chk Z.eqb Z.ltb Z.leb Z.add checkPublicParams isOnCurve at_ app word upd].
  Ltac tests := simp; repeat first
    [ match goal with
      | |- context [?a =? ?a] => rewrite (Z.eqb_refl a)
      | H : ?a = ?b |- context [?a =? ?b] => rewrite (proj2 (Z.eqb_eq a b) H)
      | H : ?a <> ?b |- context [?a =? ?b] => rewrite (proj2 (Z.eqb_neq a b) H)
      | H : ?a < ?b |- context [?a <? ?b] => rewrite (proj2 (Z.ltb_lt a b) H)
      | H : ?a <= ?b |- context [?a <=? ?b] => rewrite (proj2 (Z.leb_le a b) H)
      | H : contractPhase ?s = _ |- context [contractPhase ?s] => rewrite H
      | H : _ = Ok _ |- _ => rewrite H
      | H : ?a = true |- context [require ?a _] => rewrite H
      | H : ?a = false |- context [require (negb ?a) _] => rewrite H
      | H : 0 <= ?x < ?m |- context [chk ?m ?x] => rewrite (chk_in m x H)
      end; simp ].
  Lemma apply_complete s t s' ev : tx_ok t = true -> stepR v E s t s' ev -> apply v E s t = Ok (s', ev).
  Proof.
    intros Ht R. unfold apply. rewrite Ht. cbn [require bind]. unfold dispatch.
    destruct R as [a W V0 H1 H2 H3 H4 H5 -> ->|pk s1 s2 ev0 W H1 H2 H3 H4 H5 H6 H7 -> -> -> -> ->|W V0 H1 H2 H3 -> ->
      |pp zk s1 s2 ev0 W V0 H1 H2 H3 H4 H5 H6 -> -> -> -> ->|gpk gr vk W V0 H1 H2 -> ->|s1 s2 W V0 H1 H2 H3 H4 -> H5 -> ->
      |e vk ev0 W V0 H1 H2 H3 H4 H5 H6 H7 H8 -> -> ->|p W V0 H1 H2 H3 H4 H5 -> ->|a W V0 H1 H2 -> ->|W V0 H1 -> ->|W -> ->];
      rewrite W; cbn [payable orb]; try (rewrite V0, Z.eqb_refl, st_eta); cbn [require bind].
    - unfold addPermissionedNodes, onlyOwner, add32. tests. reflexivity.
    - unfold registerNode, add32. destruct (is_pre v); simp; rewrite <- !H2; tests; destruct (registeredCount s + 1 =? memberCount s); reflexivity.
    - unfold startNidkg, onlyOwner. destruct (is_pre v); tests; [reflexivity|]. rewrite (H3 eq_refl). tests. reflexivity.
    - unfold submitPublicParams, add32. destruct (is_pre v); simp; rewrite <- !H1; tests; destruct (ppSubmissionCount s + 1 =? memberCount s); reflexivity.
    - unfold computeVk. tests. reflexivity.
    - unfold initiateRandom, onlyOwner, add256. tests.
      assert (X : (if currentRoundNum s =? 0 then Ok tt else require (negb (rvalue (roundToRandom s (currentRoundNum s)) =? 0)) "Earlier round not completed") = Ok tt).
      { destruct (Z.eqb_spec (currentRoundNum s) 0) as [|N]; auto. specialize (H3 N). tests. reflexivity. }
      rewrite X. cbn [bind]. tests. destruct (is_pre v); cbn -[to_dec INPUT_PREFIX].
      + destruct H5 as (h & Hh & ->). rewrite Hh. cbn -[to_dec INPUT_PREFIX]. rewrite upd_same. reflexivity.
      + subst s2. cbn -[to_dec INPUT_PREFIX]. rewrite upd_same. reflexivity.
    - unfold submitPartialEval, add32. destruct (is_pre v); simp; rewrite <- H1; tests; destruct (_ =? threshold s); reflexivity.
    - unfold submitRandom, onlyOwner. destruct (is_pre v); [specialize (H3 eq_refl)|clear H3]; tests; reflexivity.
    - unfold transferOwnership, onlyOwner. tests. reflexivity.
    - unfold renounceOwnership, onlyOwner. tests. reflexivity.
    - reflexivity.
  Qed.
End Complete.


Section Cache.
  Variable E : env.
  Variable c : cfg.
  (** the cached hash of every opened round is the hash of that round's input *)
  Lemma cache_ok tr s : hist Pre E c tr s -> forall k, 1 <= k <= currentRoundNum s -> hash_to_g1 E (roundInput s k) = Ok (roundHash s k).
  Proof.
    induction 1 as [s0 Hc H0|tr s t Hh IH]; intros k Hk.
    - exfalso. unfold construct in H0. apply bind_ok in H0 as (u & _ & H0). apply bind_ok in H0 as (u1 & _ & H0).
      apply bind_ok in H0 as (l7 & _ & H0). apply bind_ok in H0 as (l & _ & H0). inversion H0; subst. cbn in Hk. lia.
    - destruct (exec_cases Pre E s t) as [[_ X]|(sx & ev & _ & Ex & _ & R)]; [rewrite X in *; auto|]. rewrite Ex in Hk |- *. clear Ex.
      destruct R as [a W|pk s1 s2 ev0 W|W|pp zk s1 s2 ev0 W|gpk gr vk W|s1 s2 W|e vk ev0 W|p W|a W|W|W]; subst; cbn in Hk |- *; auto.
      + destruct (_ =? _); cbn in Hk |- *; auto.
      + destruct (_ =? _); cbn in Hk |- *; auto.
      + cbn in *. destruct H5 as (h & Hh' & ->). cbn in *. destruct (Z.eq_dec k (currentRoundNum s + 1)) as [->|N].
        * rewrite !upd_same. auto.
        * rewrite !upd_other by auto. apply IH. lia.
  Qed.
End Cache.

Section Sim.
  Variable E : env.
  Variable c : cfg.
  Hypothesis HE : coherent E.
  Hypothesis Hthr : 0 < c_threshold c.

  Lemma common_idem ph : common_phase (common_phase ph) = common_phase ph. Proof. destruct ph; auto. Qed.
  Ltac fin := split; [unfold view; cbn; rewrite ?common_idem; reflexivity|cbn; auto; try discriminate].
  Record rel (s p : st) : Prop := { r_view : view s = view p; r_phase : contractPhase p <> Registered }.

  Lemma sim_step tr s p t s' ev : hist Pre E c tr s -> rel s p -> apply Pre E s t = Ok (s', ev) ->
    exists p', apply Plain E p t = Ok (p', ev) /\ rel s' p'.
  Proof.
    intros Hh [V P] A. destruct (apply_ok _ _ _ _ _ _ A) as [Ht R].
    pose proof (inv0 _ _ _ _ _ Hh) as I0. pose proof (inv1 _ _ _ _ _ Hh) as I1. pose proof (inv3 _ _ _ _ _ Hh) as I3.
    pose proof (cache_ok _ _ _ _ Hh (currentRoundNum s)) as Cache.
    enough (X : exists p', stepR Plain E p t p' ev /\ rel s' p').
    { destruct X as (p' & Rp & Rl). exists p'. split; [apply apply_complete; auto|auto]. }
    assert (CP : contractPhase p = common_phase (contractPhase s)).
    { assert (Y : contractPhase (view s) = contractPhase (view p)) by (rewrite V; auto). cbn in Y. destruct (contractPhase p); cbn in *; congruence. }
    clear A. destruct s, p. unfold view in V. cbn in V, CP, P. injection V; clear V; intros Z1 Z2 Z3 Z4 Z5 Z6 Z7 Z8 Z9 Z10 Z11 Z12 Z13 Z14 Z15 Z16 Z17 Z18 Z19 Z20 Z21 Z22 Z23 Z24; clear Z10; subst.

    destruct R as [a W V0 H1 H2 H3 H4 H5 -> ->|pk s1 s2 ev0 W H1 H2 H3 H4 H5 H6 H7 -> -> -> -> ->|W V0 H1 H2 H3 -> ->
      |pp zk s1 s2 ev0 W V0 H1 H2 H3 H4 H5 H6 -> -> -> -> ->|gpk gr vk W V0 H1 H2 -> ->|s1 s2 W V0 H1 H2 H3 H4 -> H5 -> ->
      |e vk ev0 W V0 H1 H2 H3 H4 H5 H6 H7 H8 -> -> ->|q W V0 H1 H2 H3 H4 H5 -> ->|a W V0 H1 H2 -> ->|W V0 H1 -> ->|W -> ->];
      cbn -[M32 M256 to_dec INPUT_PREFIX] in *.
    - eexists. split; [eapply R_add; eauto|]. fin.
    - subst. eexists. split; [eapply (R_reg Plain E _ t _ _ pk); eauto|]. destruct (_ =? _); fin.
    - subst. cbn in *. eexists. split; [eapply R_start; eauto|].
      + intros _. cbn. destruct I0, I1. cbn in *. lia.
      + fin.
    - subst. eexists. split; [eapply (R_pp Plain E _ t _ _ pp zk); eauto|]. destruct (_ =? _); fin.
    - subst. eexists. split; [eapply R_vk; eauto|]. fin.
    - destruct H5 as (h & Hh' & ->). subst. eexists. split; [eapply R_init; eauto; reflexivity|]. fin.
    - eexists. split; [eapply (R_eval Plain E _ t _ _ e); eauto|].
      + cbn. destruct HE as [HE1 _]. rewrite (HE1 _ _ (Cache ltac:(pose proof (m_last _ _ _ _ _ I3 (sender t)); cbn in *; lia))). auto.
      + fin.
    - assert (HK : 1 <= currentRoundNum0 <= currentRoundNum0).
      { split; [|lia]. specialize (H3 eq_refl). pose proof (m_cnt _ _ _ _ _ I3 currentRoundNum0) as Q. cbn in Q. rewrite Q in H3.
        destruct I0. cbn in *. destruct (evals tr currentRoundNum0) as [|[a e] l] eqn:Ev; [cbn in H3; lia|].
        apply (m_range _ _ _ _ _ I3 currentRoundNum0 a). rewrite Ev. left. auto. }
      eexists. split; [eapply (R_rand Plain E _ t _ _ q); eauto|]; cbn; try discriminate; [|fin].
      destruct HE as [_ HE2]. rewrite (HE2 _ _ (Cache ltac:(exact HK))). auto.
    - eexists. split; [eapply R_transfer; eauto|]. fin.
    - eexists. split; [eapply R_renounce; eauto|]. fin.
    - eexists. split; [eapply R_force; eauto|]. fin.
  Qed.

  Lemma sim tr s : hist Pre E c tr s -> exists tr' p, hist Plain E c tr' p /\ rel s p /\
    map txn tr' = accepted_txs tr /\ forallb accepted tr' = true /\ log tr' = log tr.
  Proof.
    induction 1 as [s0 Hc H0|tr s t Hh (tr' & p & Hp & Rl & M & A & L)].
    - exists [], s0. repeat split; auto. { apply hist_deploy; auto. }
      unfold construct in H0. apply bind_ok in H0 as (u & _ & H0). apply bind_ok in H0 as (u1 & _ & H0).
      apply bind_ok in H0 as (l7 & _ & H0). apply bind_ok in H0 as (l & _ & H0). inversion H0; subst. cbn. discriminate.
    - unfold accepted_txs, log in *. rewrite filter_app, flat_map_app, map_app. unfold exec. cbn [filter accepted outcome flat_map emitted].
      destruct (apply Pre E s t) as [[s' ev]| |] eqn:Ap; cbn [accepted is_ok outcome emitted map app txn].
      + destruct (sim_step _ _ _ _ _ _ Hh Rl Ap) as (p' & Ap' & Rl'). exists (tr' ++ [mkStep p t (Ok (p', ev))]), p'.
        rewrite map_app, forallb_app, flat_map_app, M, A, L. cbn. rewrite app_nil_r. repeat split; auto; try apply Rl'.
        pose proof (hist_tx _ _ _ _ _ t Hp) as X. unfold exec in X. rewrite Ap' in X. exact X.
      + exists tr', p. rewrite !app_nil_r. auto.
      + exists tr', p. rewrite !app_nil_r. auto.
  Qed.
End Sim.
