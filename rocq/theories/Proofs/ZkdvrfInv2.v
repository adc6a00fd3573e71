(** Invariants of every history: public parameters, verification keys, rounds, evaluations, randoms, deposits, events. *)
From Coq Require Import ZArith String List Bool Lia.
From Verif.Model Require Import Monad Evm Strings Zkdvrf.
From Verif.Spec Require Import Histories.
From Verif.Proofs Require Import ZkdvrfStep ZkdvrfInv1.
Import ListNotations.
Open Scope Z_scope.


Lemma zsum_app a b : zsum (a ++ b) = zsum a + zsum b.
Proof. induction a; cbn; [reflexivity|]. unfold zsum in *. lia. Qed.
Lemma last_snoc {A} (l : list A) x d : last (l ++ [x]) d = x.
Proof. induction l as [|a [|b l] IH]; cbn in *; auto. Qed.

Section Inv.
  Variable v : variant.
  Variable E : env.
  Variable c : cfg.
  Notation hist := (hist v E c).

  Lemma sender_member tr s t : hist tr s -> tx_ok t = true -> sender t = nodeAddress (addrToNode s (sender t)) ->
    In (sender t) (added tr).
  Proof.
    intros Hh Ht Hme. pose proof (inv1 _ _ _ _ _ Hh) as I.
    destruct (in_dec Z.eq_dec (sender t) (added tr)); auto.
    rewrite (j_out _ _ _ _ I _ n) in Hme. cbn in Hme.
    unfold tx_ok in Ht. repeat (apply andb_prop in Ht; destruct Ht as [Ht ?]). lia.
  Qed.

  (** once the contract has left the registration phases, every added member is registered *)
  Lemma all_registered tr s a : hist tr s -> phase_rank (contractPhase s) <> 0 -> In a (added tr) ->
    In a (map who (registrations tr)).
  Proof.
    intros Hh P Ha. pose proof (inv1 _ _ _ _ _ Hh) as I.
    pose proof (j_phase _ _ _ _ I P) as L. pose proof (j_le _ _ _ _ I).
    destruct (in_dec Z.eq_dec a (map who (registrations tr))) as [|N]; auto. exfalso.
    pose proof (incl_length_nodup (a :: map who (registrations tr)) (added tr)) as L2. cbn in L2. rewrite map_length in L2.
    assert (S (length (registrations tr)) <= length (added tr))%nat; [|lia].
    apply L2; [constructor; auto; apply (j_rnd _ _ _ _ I)|]. intros b [<-|Ib]; auto. apply (j_rin _ _ _ _ I); auto.
  Qed.

  Record Inv2 (tr : list step) (s : st) : Prop := {
    k_cnt : ppSubmissionCount s = Z.of_nat (length (submissions tr));
    k_pp : ppList s = map pvec (submissions tr);
    k_ord : ppListOrder s = if is_pre v then [] else map psender (submissions tr);
    k_nd : NoDup (map psender (submissions tr));
    k_in : forall a, In a (map psender (submissions tr)) -> In a (added tr);
    k_st : forall a, statusPP (addrToNode s a) = true <-> In a (map psender (submissions tr));
    k_none : phase_rank (contractPhase s) < 2 -> submissions tr = [];
    k_lt : contractPhase s = Nidkg -> Z.of_nat (length (submissions tr)) < c_number c \/ c_number c = 0;
    k_eq : 2 < phase_rank (contractPhase s) -> Z.of_nat (length (submissions tr)) = c_number c;
    k_vk : contractPhase s <> Ready -> vkList s = [] /\ gpkVal s = g2zero /\ computed tr = [];
    k_ready : contractPhase s = Ready -> exists g, computed tr = [g] /\ create_gpp E (c_number c) g (ppList s) = Ok (gpkVal s, vkList s);
    k_cur : currentRoundNum s = Z.of_nat (length (initiations tr));
    k_curready : currentRoundNum s <> 0 -> contractPhase s = Ready;
    k_input : forall k, roundInput s k = if (1 <=? k) && (k <=? currentRoundNum s) then round_input k else [];
    k_hash : forall k, if is_pre v && (1 <=? k) && (k <=? currentRoundNum s) then hash_to_g1 E (round_input k) = Ok (roundHash s k)
                       else roundHash s k = (0, 0);
    k_bal : balance s = zsum (map dep (registrations tr)) + zsum (forced tr)
  }.

  Lemma inv2 tr s : hist tr s -> Inv2 tr s.
  Proof.
    apply hist_ind2; clear tr s.
    - intros s Hc H. apply construct_ok in H as (H1 & H2 & ->).
      unfold cfg_ok in Hc. repeat (apply andb_prop in Hc; destruct Hc as [Hc ?]). unfold is_u32 in *.
      split; cbn; auto; try (constructor; fail); try lia; try tauto; try discriminate.
      + destruct (is_pre v); auto.
      + intros k. destruct (Z.leb_spec 1 k), (Z.leb_spec k 0); auto; lia.
      + intros k. destruct (Z.leb_spec 1 k), (Z.leb_spec k 0); rewrite ?andb_true_r, ?andb_false_r; auto; try lia.
    - intros tr s x H [] X. split; autorewrite with tr rej; auto.
    - intros tr s t s' ev Hh IH Ht R _. pose proof (inv0 _ _ _ _ _ Hh) as C. pose proof (inv1 _ _ _ _ _ Hh) as J.
      destruct IH as [A1 A2 A3 A4 A5 A6 A7 A8 A9 A10 A11 A12 A13 A14 A15 A16].
      destruct R as [a W|pk s1 s2 ev0 W|W|pp zk s1 s2 ev0 W|gpk gr vk W|s1 s2 W|e vk ev0 W|p W|a W|W|W].
      + (* add *)
        assert (Na : ~ In a (added tr)).
        { intros I; rewrite (j_in _ _ _ _ J _ I) in H3; contradiction. }
        subst s' ev. split; autorewrite with tr; rewrite ?W, ?app_nil_r; cbn; auto.
        * intros b I. apply in_or_app; auto.
        * intros b. unfold upd. destruct (Z.eqb_spec b a); [subst b|auto]. cbn. split; [discriminate|]. intros I. apply A5 in I. contradiction.
      + (* register *)
        assert (Eq : ppSubmissionCount s' = ppSubmissionCount s /\ ppList s' = ppList s /\ ppListOrder s' = ppListOrder s /\
          (forall a, statusPP (addrToNode s' a) = statusPP (addrToNode s a)) /\ vkList s' = vkList s /\ gpkVal s' = gpkVal s /\
          currentRoundNum s' = currentRoundNum s /\ roundInput s' = roundInput s /\ roundHash s' = roundHash s /\
          balance s' = balance s + tvalue t /\ phase_rank (contractPhase s') < 2).
        { subst s' s2 s1. destruct (is_pre v), (registeredCount s + 1 =? memberCount s); cbn; rewrite ?H; repeat split; auto;
            try (intros a; unfold upd; destruct (Z.eqb_spec a (sender t)) as [->|]; reflexivity); reflexivity. }
        destruct Eq as (E1 & E2 & E3 & E4 & E5 & E6 & E7 & E8 & E9 & E10 & E11).
        assert (Eph : contractPhase s' <> Nidkg /\ contractPhase s' <> NidkgComplete /\ contractPhase s' <> Ready).
        { destruct (contractPhase s'); cbn in E11; repeat split; try discriminate; lia. }
        split; autorewrite with tr; rewrite ?W, ?app_nil_r, ?E1, ?E2, ?E3, ?E5, ?E6, ?E7, ?E8, ?E9; auto; try tauto; try lia.
        * intros. rewrite E4. auto.
        * intros _. apply A7. rewrite H. cbn. lia.
        * intros _. apply A10. rewrite H. discriminate.
        * intros N. apply A13 in N. congruence.
        * rewrite E10, map_app, zsum_app. unfold dep at 2. cbn. lia.
      + (* start *)
        subst s' ev. assert (Rk : phase_rank (contractPhase s) < 2) by (rewrite H1; destruct (is_pre v); reflexivity).
        assert (contractPhase s <> Ready) by (destruct (contractPhase s); cbn in *; [discriminate..|lia]).
        split; autorewrite with tr; rewrite ?W, ?app_nil_r; cbn; auto; try lia; try discriminate.
        * rewrite (A7 Rk). cbn. destruct C. lia.
        * intros N. apply A13 in N. contradiction.
      + (* pp *)
        pose proof (sender_member _ _ _ Hh Ht H0) as Hin.
        assert (Eq : ppSubmissionCount s' = ppSubmissionCount s + 1 /\ ppList s' = ppList s ++ [pp]
          /\ ppListOrder s' = (if is_pre v then ppListOrder s else ppListOrder s ++ [sender t]) /\
          (forall a, statusPP (addrToNode s' a) = if a =? sender t then true else statusPP (addrToNode s a)) /\ vkList s' = vkList s /\ gpkVal s' = gpkVal s /\
          currentRoundNum s' = currentRoundNum s /\ roundInput s' = roundInput s /\ roundHash s' = roundHash s /\
          balance s' = balance s /\ contractPhase s' = if ppSubmissionCount s + 1 =? memberCount s then NidkgComplete else Nidkg).
        { subst s' s2 s1. destruct (is_pre v), (ppSubmissionCount s + 1 =? memberCount s); cbn; rewrite ?H1; repeat split; auto;
            try (intros a; unfold upd; destruct (Z.eqb_spec a (sender t)) as [->|]; reflexivity); reflexivity. }
        destruct Eq as (E1 & E2 & E3 & E4 & E5 & E6 & E7 & E8 & E9 & E10 & E11).
        assert (Nin : ~ In (sender t) (map psender (submissions tr))) by (intros I; apply A6 in I; congruence).
        assert (contractPhase s' <> Ready) by (rewrite E11; destruct (ppSubmissionCount s + 1 =? memberCount s); discriminate).
        split; autorewrite with tr; rewrite ?W, ?app_nil_r, ?E1, ?E2, ?E3, ?E5, ?E6, ?E7, ?E8, ?E9, ?E10; auto; try tauto.
        * rewrite app_length. cbn. lia.
        * rewrite map_app, A2. reflexivity.
        * rewrite map_app, A3. destruct (is_pre v); reflexivity.
        * rewrite map_app. apply NoDup_snoc; auto.
        * intros b. rewrite map_app, in_app_iff. cbn. intros [I|[<-|[]]]; auto.
        * intros b. rewrite E4, map_app, in_app_iff. unfold psender at 2. cbn.
          destruct (Z.eqb_spec b (sender t)) as [->|N]; [tauto|]. rewrite A6. intuition congruence.
        * rewrite E11. destruct (ppSubmissionCount s + 1 =? memberCount s); cbn; lia.
        * rewrite E11, app_length. cbn. destruct C. destruct (Z.eqb_spec (ppSubmissionCount s + 1) (memberCount s)); [discriminate|].
          specialize (A8 H1). lia.
        * rewrite E11, app_length. cbn. destruct C. destruct (Z.eqb_spec (ppSubmissionCount s + 1) (memberCount s)); cbn; lia.
        * intros _. apply A10. rewrite H1. discriminate.
        * intros N. apply A13 in N. congruence.
      + (* vk *)
        assert (NR : contractPhase s <> Ready) by (rewrite H0; discriminate). destruct (A10 NR) as (B1 & B2 & B3).
        subst s' ev. split; autorewrite with tr; rewrite ?W, ?app_nil_r; cbn; auto; try lia; try discriminate; try congruence.
        * intros _. apply A9. rewrite H0. reflexivity.
        * intros _. exists gpk. rewrite B1, B3. cbn. split; auto. destruct C. congruence.
      + (* init *)
        assert (Cu : currentRoundNum s + 1 = Z.of_nat (length (initiations tr ++ [tt]))) by (rewrite app_length; cbn; lia).
        assert (Inp : forall k, roundInput s1 k = if (1 <=? k) && (k <=? currentRoundNum s + 1) then round_input k else []).
        { subst s1. cbn. intros k. unfold upd. destruct (Z.eqb_spec k (currentRoundNum s + 1)) as [->|N].
          - destruct (Z.leb_spec 1 (currentRoundNum s + 1)), (Z.leb_spec (currentRoundNum s + 1) (currentRoundNum s + 1)); cbn; auto; lia.
          - rewrite A14. destruct (Z.leb_spec 1 k), (Z.leb_spec k (currentRoundNum s)), (Z.leb_spec k (currentRoundNum s + 1)); cbn; auto; lia. }
        assert (Hsh : forall k, if is_pre v && (1 <=? k) && (k <=? currentRoundNum s + 1) then hash_to_g1 E (round_input k) = Ok (roundHash s2 k)
                       else roundHash s2 k = (0, 0)).
        { intros k. specialize (A15 k). destruct (is_pre v) eqn:P.
          - destruct H5 as (h & Hh1 & ->). subst s1. cbn in *. unfold upd. destruct (Z.eqb_spec k (currentRoundNum s + 1)) as [->|N].
            + destruct (Z.leb_spec 1 (currentRoundNum s + 1)), (Z.leb_spec (currentRoundNum s + 1) (currentRoundNum s + 1)); cbn; auto; lia.
            + destruct (Z.leb_spec 1 k), (Z.leb_spec k (currentRoundNum s)), (Z.leb_spec k (currentRoundNum s + 1)); cbn in *; auto; lia.
          - subst s2 s1. cbn in *. auto. }
        assert (s2 = s1 \/ exists h, s2 = set_roundHash h s1) as D.
        { destruct (is_pre v); [right|left; auto]. destruct H5 as (h & _ & ->). eauto. }
        clear H5. subst s' ev. destruct D as [->|[h ->]]; subst s1; split; autorewrite with tr; rewrite ?W, ?app_nil_r; cbn in *; auto.
      + subst s' ev. split; autorewrite with tr; rewrite ?W, ?app_nil_r; cbn; auto.
      + subst s' ev. split; autorewrite with tr; rewrite ?W, ?app_nil_r; cbn; auto.
      + subst s' ev. split; autorewrite with tr; rewrite ?W, ?app_nil_r; cbn; auto.
      + subst s' ev. split; autorewrite with tr; rewrite ?W, ?app_nil_r; cbn; auto.
      + subst s' ev. split; autorewrite with tr; rewrite ?W, ?app_nil_r; cbn; auto.
        rewrite zsum_app. cbn. lia.
  Qed.
End Inv.
