(** Invariants of every history: configuration, membership, registration, phases. *)
From Coq Require Import ZArith String List Bool Lia.
From Verif.Model Require Import Monad Evm Strings Zkdvrf.
From Verif.Spec Require Import Histories.
From Verif.Proofs Require Import ZkdvrfStep.
Import ListNotations.
Open Scope Z_scope.
Lemma M32_M256 : M32 <= M256. Proof. unfold M32, M256; apply Z.pow_le_mono_r; lia. Qed.
Global Opaque to_dec INPUT_PREFIX M32 M256 M160.

(** nth position of a list as an option, by integer *)
Lemma at_ok {A} (l : list A) i x : at_ l i = Ok x <-> znth l i = Some x.
Proof.
  unfold at_, znth. destruct (i <? 0); [split; discriminate|]. destruct (nth_error l (Z.to_nat i)); split; congruence.
Qed.
Lemma znth_app_last {A} (l : list A) x : znth (l ++ [x]) (Z.of_nat (length l)) = Some x.
Proof.
  unfold znth. destruct (Z.ltb_spec (Z.of_nat (length l)) 0); [lia|]. rewrite Nat2Z.id, nth_error_app2, Nat.sub_diag; auto.
Qed.
Lemma znth_app_l {A} (l l' : list A) i x : znth l i = Some x -> znth (l ++ l') i = Some x.
Proof.
  unfold znth. destruct (i <? 0); [discriminate|]. intros H. rewrite nth_error_app1; auto.
  apply nth_error_Some. congruence.
Qed.
Lemma znth_range {A} (l : list A) i x : znth l i = Some x -> 0 <= i < Z.of_nat (length l).
Proof.
  unfold znth. destruct (Z.ltb_spec i 0); [discriminate|]. intros H1.
  assert (Z.to_nat i < length l)%nat by (apply nth_error_Some; congruence). lia.
Qed.
Lemma znth_in {A} (l : list A) i x : znth l i = Some x -> In x l.
Proof. unfold znth. destruct (i <? 0); [discriminate|]. apply nth_error_In. Qed.
Lemma in_znth {A} (l : list A) x : In x l -> exists i, znth l i = Some x.
Proof.
  intros H. apply In_nth_error in H as [n H]. exists (Z.of_nat n). unfold znth.
  destruct (Z.ltb_spec (Z.of_nat n) 0); [lia|]. rewrite Nat2Z.id. auto.
Qed.
Lemma znth_some {A} (l : list A) i : 0 <= i < Z.of_nat (length l) -> exists x, znth l i = Some x.
Proof.
  intros H. unfold znth. destruct (Z.ltb_spec i 0); [lia|].
  destruct (nth_error l (Z.to_nat i)) eqn:E; eauto. apply nth_error_None in E. lia.
Qed.
Lemma znth_map {A B} (f : A -> B) l i : znth (map f l) i = option_map f (znth l i).
Proof. unfold znth. destruct (i <? 0); auto. apply nth_error_map. Qed.
Lemma znth_app_inv {A} (l : list A) y i x : znth (l ++ [y]) i = Some x ->
  znth l i = Some x \/ (i = Z.of_nat (length l) /\ x = y).
Proof.
  intros H. pose proof (znth_range _ _ _ H) as R. rewrite app_length in R. cbn in R.
  destruct (Z.eq_dec i (Z.of_nat (length l))) as [->|N].
  - right. rewrite znth_app_last in H. inversion H. auto.
  - left. destruct (znth_some l i ltac:(lia)) as [z Hz]. rewrite (znth_app_l _ _ _ _ Hz) in H. congruence.
Qed.
Lemma znth_NoDup {A} (l : list A) i j x : NoDup l -> znth l i = Some x -> znth l j = Some x -> i = j.
Proof.
  intros N Hi Hj. pose proof (znth_range _ _ _ Hi). pose proof (znth_range _ _ _ Hj). unfold znth in *.
  destruct (Z.ltb_spec i 0), (Z.ltb_spec j 0); try lia.
  apply Z2Nat.inj; try lia. eapply NoDup_nth_error; eauto; [|congruence]. apply nth_error_Some. congruence.
Qed.

Lemma NoDup_snoc {A} (l : list A) x : NoDup l -> ~ In x l -> NoDup (l ++ [x]).
Proof.
  intros. apply NoDup_rev in H. rewrite <- (rev_involutive (l ++ [x])). apply NoDup_rev.
  rewrite rev_app_distr. cbn. constructor; auto. rewrite <- in_rev. auto.
Qed.

Section Inv.
  Variable v : variant.
  Variable E : env.
  Variable c : cfg.
  Notation hist := (hist v E c).

  Lemma hist_ind2 (P : list step -> st -> Prop) :
    (forall s, cfg_ok c = true -> construct c = Ok s -> P [] s) ->
    (forall tr s x, hist tr s -> P tr s -> accepted x = false -> P (tr ++ [x]) s) ->
    (forall tr s t s' ev, hist tr s -> P tr s -> tx_ok t = true -> stepR v E s t s' ev ->
        apply v E s t = Ok (s', ev) -> P (tr ++ [mkStep s t (Ok (s', ev))]) s') ->
    forall tr s, hist tr s -> P tr s.
  Proof.
    intros H0 H1 H2 tr s H. induction H as [s Hc Hs|tr s t H IH]; [auto|].
    unfold exec. destruct (apply v E s t) as [[s' ev]|m|m] eqn:A.
    - destruct (apply_ok _ _ _ _ _ _ A). eapply H2; eauto.
    - apply H1; auto.
    - apply H1; auto.
  Qed.

  Lemma construct_ok s : construct c = Ok s ->
    c_owner c <> 0 /\ 0 <= 7 * c_number c + 14 < M32 /\
    s = mkSt (c_owner c) (c_number c) (c_threshold c) (7 * c_number c + 14) 0 0 0 0 (c_minDeposit c) 0 [] [] [] [] []
       g2zero Unregistered
       (c_vk c) (fun _ => 0) (fun _ => node0) (fun _ => []) (fun _ => (0, 0)) (fun _ => 0) (fun _ _ => peval0)
       (fun _ => 0) (fun _ => prand0) 0.
  Proof.
    unfold construct. intros H. apply bind_ok in H as ([] & H1 & H). apply bind_ok in H as ([] & H2 & H).
    apply bind_ok in H as (x & H3 & H). apply bind_ok in H as (y & H4 & H).
    apply require_ok in H1. apply negb_true_iff, Z.eqb_neq in H1.
    apply chk_ok in H3 as [-> ?]. apply chk_ok in H4 as [-> ?]. inversion H. auto.
  Qed.

  (** lists grow at the end only *)
  Lemma added_app a b : added (a ++ b) = added a ++ added b. Proof. apply flat_map_app. Qed.
  Lemma registrations_app a b : registrations (a ++ b) = registrations a ++ registrations b. Proof. apply flat_map_app. Qed.
  Lemma submissions_app a b : submissions (a ++ b) = submissions a ++ submissions b. Proof. apply flat_map_app. Qed.
  Lemma evals_app a b k : evals (a ++ b) k = evals a k ++ evals b k. Proof. apply flat_map_app. Qed.
  Lemma randoms_app a b k : randoms (a ++ b) k = randoms a k ++ randoms b k. Proof. apply flat_map_app. Qed.
  Lemma initiations_app a b : initiations (a ++ b) = initiations a ++ initiations b. Proof. apply flat_map_app. Qed.
  Lemma forced_app a b : forced (a ++ b) = forced a ++ forced b. Proof. apply flat_map_app. Qed.
  Lemma computed_app a b : computed (a ++ b) = computed a ++ computed b. Proof. apply flat_map_app. Qed.
  Lemma log_app a b : log (a ++ b) = log a ++ log b. Proof. apply flat_map_app. Qed.
  Lemma rej_added x : accepted x = false -> added [x] = []. Proof. unfold added; cbn. now intros ->. Qed.
  Lemma rej_registrations x : accepted x = false -> registrations [x] = []. Proof. unfold registrations; cbn. now intros ->. Qed.
  Lemma rej_submissions x : accepted x = false -> submissions [x] = []. Proof. unfold submissions; cbn. now intros ->. Qed.
  Lemma rej_evals x k : accepted x = false -> evals [x] k = []. Proof. unfold evals; cbn. now intros ->. Qed.
  Lemma rej_randoms x k : accepted x = false -> randoms [x] k = []. Proof. unfold randoms; cbn. now intros ->. Qed.
  Lemma rej_initiations x : accepted x = false -> initiations [x] = []. Proof. unfold initiations; cbn. now intros ->. Qed.
  Lemma rej_forced x : accepted x = false -> forced [x] = []. Proof. unfold forced; cbn. now intros ->. Qed.
  Lemma rej_computed x : accepted x = false -> computed [x] = []. Proof. unfold computed; cbn. now intros ->. Qed.
  Lemma rej_log x : accepted x = false -> log [x] = [].
  Proof. unfold log, accepted; cbn. unfold emitted. destruct (outcome x) as [[]| |]; cbn; congruence. Qed.

  Lemma added_one s t r : added [mkStep s t (Ok r)] = match what t with AddPermissionedNodes a => [a] | _ => [] end.
  Proof. cbn. apply app_nil_r. Qed.
  Lemma registrations_one s t r : registrations [mkStep s t (Ok r)] = match what t with RegisterNode p => [(sender t, p, tvalue t)] | _ => [] end.
  Proof. cbn. apply app_nil_r. Qed.
  Lemma submissions_one s t r : submissions [mkStep s t (Ok r)] = match what t with SubmitPublicParams pp zk => [(sender t, pp, zk)] | _ => [] end.
  Proof. cbn. apply app_nil_r. Qed.
  Lemma evals_one s t r k : evals [mkStep s t (Ok r)] k =
    if currentRoundNum s =? k then match what t with SubmitPartialEval e => [(sender t, e)] | _ => [] end else [].
  Proof. cbn. apply app_nil_r. Qed.
  Lemma randoms_one s t r k : randoms [mkStep s t (Ok r)] k =
    if currentRoundNum s =? k then match what t with SubmitRandom e => [e] | _ => [] end else [].
  Proof. cbn. apply app_nil_r. Qed.
  Lemma initiations_one s t r : initiations [mkStep s t (Ok r)] = match what t with InitiateRandom => [tt] | _ => [] end.
  Proof. cbn. apply app_nil_r. Qed.
  Lemma forced_one s t r : forced [mkStep s t (Ok r)] = match what t with ForceEther => [tvalue t] | _ => [] end.
  Proof. cbn. apply app_nil_r. Qed.
  Lemma computed_one s t r : computed [mkStep s t (Ok r)] = match what t with ComputeVk g => [g] | _ => [] end.
  Proof. cbn. apply app_nil_r. Qed.
  Lemma log_one s t s' ev : log [mkStep s t (Ok (s', ev))] = ev.
  Proof. cbn. apply app_nil_r. Qed.

  Hint Rewrite added_app registrations_app submissions_app evals_app randoms_app initiations_app forced_app
    computed_app log_app : tr.
  Hint Rewrite added_one registrations_one submissions_one evals_one randoms_one initiations_one forced_one computed_one log_one : tr.
  Hint Rewrite rej_added rej_registrations rej_submissions rej_evals rej_randoms rej_initiations rej_forced
    rej_computed rej_log app_nil_r using assumption : rej.


  (** configuration never changes *)
  Record Inv0 (s : st) : Prop := {
    i_n : memberCount s = c_number c; i_t : threshold s = c_threshold c; i_min : minNodeDeposit s = c_minDeposit c;
    i_pp : ppLength s = 7 * c_number c + 14; i_ppr : 0 <= 7 * c_number c + 14 < M32; i_nr : 0 <= c_number c;
    i_vk : halo2VerifyingKey s = c_vk c }.
  Lemma inv0 tr s : hist tr s -> Inv0 s.
  Proof.
    apply (hist_ind2 (fun _ s => Inv0 s)); auto.
    - intros s0 Hc H. apply construct_ok in H as (H1 & H2 & ->).
      unfold cfg_ok in Hc. repeat (apply andb_prop in Hc; destruct Hc as [Hc ?]). unfold is_u32 in *. split; cbn; auto; lia.
    - intros tr0 s0 t s' ev _ [I1 I2 I3 I4 I5 I6 I7] _ R _.
      destruct R; subst; repeat match goal with |- context [if ?b then _ else _] => destruct b end; split; auto.
      all: destruct (is_pre v); [destruct H6 as (h & _ & ->)|subst s2]; auto.
  Qed.

  (** membership and registration *)
  Record Inv1 (tr : list step) (s : st) : Prop := {
    j_cnt : currentIndex s = Z.of_nat (length (added tr));
    j_le : Z.of_nat (length (added tr)) <= c_number c;
    j_nd : NoDup (added tr);
    j_0 : ~ In 0 (added tr);
    j_in : forall a, In a (added tr) -> nodeAddress (addrToNode s a) = a;
    j_out : forall a, ~ In a (added tr) -> addrToNode s a = node0;
    j_rc : registeredCount s = Z.of_nat (length (registrations tr));
    j_pi : pkListIndex s = Z.of_nat (length (registrations tr));
    j_pk : pkList s = map key (registrations tr);
    j_po : pkListOrder s = if is_pre v then [] else map who (registrations tr);
    j_rnd : NoDup (map who (registrations tr));
    j_rin : forall a, In a (map who (registrations tr)) -> In a (added tr);
    j_nodes : forall i, nodes s i = match znth (registrations tr) i with Some x => who x | None => 0 end;
    j_reg : forall i x, znth (registrations tr) i = Some x ->
            status (addrToNode s (who x)) = true /\ pkIndex (addrToNode s (who x)) = i /\ deposit (addrToNode s (who x)) = dep x /\
            c_minDeposit c <= dep x /\ isOnCurve (key x) = true;
    j_nreg : forall a, ~ In a (map who (registrations tr)) ->
            status (addrToNode s a) = false /\ pkIndex (addrToNode s a) = 0 /\ deposit (addrToNode s a) = 0;
    j_phase : phase_rank (contractPhase s) <> 0 -> Z.of_nat (length (registrations tr)) = c_number c;
    j_plain : is_pre v = false -> contractPhase s <> Registered;
    j_pre : is_pre v = true -> contractPhase s = Unregistered -> Z.of_nat (length (registrations tr)) < c_number c \/ c_number c = 0
  }.

  Lemma incl_length_nodup (l l' : list Z) : NoDup l -> (forall a, In a l -> In a l') -> (length l <= length l')%nat.
  Proof. intros N H. apply NoDup_incl_length; auto. Qed.

  Lemma inv1 tr s : hist tr s -> Inv1 tr s.
  Proof.
    apply hist_ind2; clear tr s.
    - intros s Hc H. apply construct_ok in H as (H1 & H2 & ->).
      unfold cfg_ok in Hc. repeat (apply andb_prop in Hc; destruct Hc as [Hc ?]). unfold is_u32 in *.
      split; cbn; auto; try (constructor; fail); try lia; try tauto.
      + destruct (is_pre v); auto.
      + intros i. unfold znth. destruct (i <? 0); auto. destruct (Z.to_nat i); auto.
      + intros i x. unfold znth. destruct (i <? 0); [discriminate|]. destruct (Z.to_nat i); discriminate.
      + intros _ D. discriminate D.
    - intros tr s x H [] X. split; autorewrite with tr rej; auto.
    - intros tr s t s' ev Hh IH Ht R _. pose proof (inv0 _ _ Hh) as C.
      pose proof (incl_length_nodup _ _ (j_rnd _ _ IH) (j_rin _ _ IH)) as LE. rewrite map_length in LE.
      destruct R as [a W|pk s1 s2 ev0 W|W|pp zk s1 s2 ev0 W|gpk gr vk W|s1 s2 W|e vk ev0 W|p W|a W|W|W]; cbn in W.
      + (* add *)
        destruct IH as [A1 A2 A3 A4 A5 A6 A7 A8 A9 A10 A11 A12 A13 A14 A15 A16 A17 A18]. destruct C as [C1 C2 C3 C4 C5 C6 C7].
        assert (Na : ~ In a (added tr)) by (intros I; rewrite (A5 _ I) in H3; contradiction).
        subst s' ev. split; autorewrite with tr; rewrite ?W, ?app_nil_r; cbn; auto.
        * rewrite app_length. cbn. lia.
        * rewrite app_length. cbn. lia.
        * apply NoDup_snoc; auto.
        * rewrite in_app_iff. cbn. intuition congruence.
        * intros b. rewrite in_app_iff. unfold upd. destruct (Z.eqb_spec b a); [subst; reflexivity|].
          cbn. intros [I|[I|[]]]; [auto|congruence].
        * intros b. rewrite in_app_iff. unfold upd. cbn. destruct (Z.eqb_spec b a); [subst; tauto|]. intros; apply A6; tauto.
        * intros b I. apply in_or_app; auto.
        * intros i x Hx. rewrite upd_other; [eapply A14; eauto|]. intros E1. apply Na. rewrite <- E1. apply A12.
          apply in_map_iff. exists x. split; auto. eapply znth_in; eauto.
        * intros b I. unfold upd. destruct (Z.eqb_spec b a); [subst; auto|]. auto.
      + (* register *)
        rename H into P, H0 into Hme, H1 into Hst, H2 into Hdep, H3 into Hcur, H4 into L1, H5 into L2, H6 into D1, H7 into D2.
        destruct IH as [A1 A2 A3 A4 A5 A6 A7 A8 A9 A10 A11 A12 A13 A14 A15 A16 A17 A18]. destruct C as [C1 C2 C3 C4 C5 C6 C7].
        set (me := sender t) in *.
        assert (Nz : me <> 0).
        { unfold tx_ok in Ht. repeat (apply andb_prop in Ht; destruct Ht as [Ht ?]). fold me in H1. lia. }
        assert (Hin : In me (added tr)).
        { destruct (in_dec Z.eq_dec me (added tr)); auto. rewrite (A6 _ n) in Hme. cbn in Hme. contradiction. }
        assert (Hnr : ~ In me (map who (registrations tr))).
        { intros I. apply in_map_iff in I as (x & Ex & I). apply in_znth in I as [i I]. apply A14 in I as [I _].
          rewrite Ex in I. congruence. }
        assert (LT : (length (registrations tr) < length (added tr))%nat).
        { pose proof (incl_length_nodup (me :: map who (registrations tr)) (added tr)) as L. cbn in L. rewrite map_length in L.
          apply L; [constructor; auto|]. intros b [<-|I]; auto. }
        assert (Hadd : addrToNode s' = upd (addrToNode s) me (mkNode (nodeAddress (addrToNode s me)) true (tvalue t) (statusPP (addrToNode s me)) (pkListIndex s))
           /\ nodes s' = upd (nodes s) (registeredCount s) me /\ currentIndex s' = currentIndex s
           /\ registeredCount s' = registeredCount s + 1 /\ pkListIndex s' = pkListIndex s + 1 /\ pkList s' = pkList s ++ [pk]
           /\ pkListOrder s' = (if is_pre v then pkListOrder s else pkListOrder s ++ [me])
           /\ contractPhase s' = if is_pre v && (registeredCount s + 1 =? memberCount s) then Registered else Unregistered).
        { subst s' s2 s1. destruct (is_pre v), (registeredCount s + 1 =? memberCount s); cbn; rewrite ?P; repeat split; auto. }
        destruct Hadd as (E1 & E2 & E3 & E4 & E5 & E6 & E7 & E8).
        split; autorewrite with tr; rewrite ?W, ?app_nil_r; rewrite ?E1, ?E2, ?E3, ?E4, ?E5, ?E6, ?E7, ?E8; fold me; auto.
        * intros b I. unfold upd. destruct (Z.eqb_spec b me); [|auto]. subst b. cbn. auto.
        * intros b I. rewrite upd_other; auto. intros ->; contradiction.
        * rewrite app_length. cbn. lia.
        * rewrite app_length. cbn. lia.
        * rewrite map_app, A9. reflexivity.
        * rewrite A10, map_app. destruct (is_pre v); auto.
        * rewrite map_app. apply NoDup_snoc; auto.
        * intros b. rewrite map_app, in_app_iff. cbn. intros [I|[<-|[]]]; auto.
        * intros i. unfold upd. rewrite A7. destruct (Z.eqb_spec i (Z.of_nat (length (registrations tr)))) as [->|N].
          -- rewrite znth_app_last. reflexivity.
          -- rewrite A13. destruct (znth (registrations tr) i) eqn:Z1.
             ++ rewrite (znth_app_l _ _ _ _ Z1). auto.
             ++ destruct (znth (registrations tr ++ [(me, pk, tvalue t)]) i) eqn:Z2; auto.
                apply znth_app_inv in Z2 as [Z2|[Z2 _]]; congruence.
        * intros i x Hx. apply znth_app_inv in Hx as [Hx|[-> ->]].
          -- rewrite upd_other; [eauto|]. intros Ex. apply Hnr. rewrite <- Ex. apply in_map. eapply znth_in; eauto.
          -- unfold who, key, dep; cbn. rewrite upd_same. cbn. rewrite <- C3. repeat split; auto.
        * intros b. rewrite map_app, in_app_iff. cbn. intros Nb. rewrite upd_other; [apply A15; tauto|]. intros ->. tauto.
        * rewrite app_length. cbn. destruct (is_pre v); cbn; [|lia].
          destruct (Z.eqb_spec (registeredCount s + 1) (memberCount s)); cbn; lia.
        * intros ->. cbn. discriminate.
        * intros ->. cbn. rewrite app_length. cbn. destruct (Z.eqb_spec (registeredCount s + 1) (memberCount s)); [discriminate|]. lia.
      + (* start *)
        destruct IH as [A1 A2 A3 A4 A5 A6 A7 A8 A9 A10 A11 A12 A13 A14 A15 A16 A17 A18]. destruct C as [C1 C2 C3 C4 C5 C6 C7].
        subst s' ev. split; autorewrite with tr; rewrite ?W, ?app_nil_r; cbn; auto; try congruence.
        intros _. destruct (is_pre v) eqn:P; [|specialize (H2 eq_refl); lia]. apply A16. rewrite H1. discriminate.
      + (* pp *)
        rename H into V0, H0 into Hme, H1 into P, H2 into Hst, H3 into Hck, H4 into Hv, H5 into L1, H6 into D1, H7 into D2.
        destruct IH as [A1 A2 A3 A4 A5 A6 A7 A8 A9 A10 A11 A12 A13 A14 A15 A16 A17 A18]. destruct C as [C1 C2 C3 C4 C5 C6 C7].
        set (me := sender t) in *.
        assert (Nz : me <> 0).
        { unfold tx_ok in Ht. repeat (apply andb_prop in Ht; destruct Ht as [Ht ?]). fold me in H1. lia. }
        assert (Hin : In me (added tr)).
        { destruct (in_dec Z.eq_dec me (added tr)); auto. rewrite (A6 _ n) in Hme. cbn in Hme. contradiction. }
        assert (Hadd : addrToNode s' = upd (addrToNode s) me (mkNode (nodeAddress (addrToNode s me)) (status (addrToNode s me)) (deposit (addrToNode s me)) true (pkIndex (addrToNode s me)))
           /\ nodes s' = nodes s /\ currentIndex s' = currentIndex s
           /\ registeredCount s' = registeredCount s /\ pkListIndex s' = pkListIndex s /\ pkList s' = pkList s
           /\ pkListOrder s' = pkListOrder s
           /\ contractPhase s' = if (ppSubmissionCount s + 1 =? memberCount s) then NidkgComplete else Nidkg).
        { subst s' s2 s1. destruct (is_pre v), (ppSubmissionCount s + 1 =? memberCount s); cbn; rewrite ?P; repeat split; auto. }
        destruct Hadd as (E1 & E2 & E3 & E4 & E5 & E6 & E7 & E8).
        split; autorewrite with tr; rewrite ?W, ?app_nil_r; rewrite ?E1, ?E2, ?E3, ?E4, ?E5, ?E6, ?E7, ?E8; fold me; auto.
        * intros b I. unfold upd. destruct (Z.eqb_spec b me); [|auto]. subst b. cbn. auto.
        * intros b I. rewrite upd_other; auto. intros ->; contradiction.
        * intros i x Hx. unfold upd. destruct (Z.eqb_spec (who x) me) as [<-|]; cbn; eauto.
        * intros b Hb. unfold upd. destruct (Z.eqb_spec b me) as [->|]; cbn; eauto.
        * intros _. apply A16. rewrite P. discriminate.
        * destruct (ppSubmissionCount s + 1 =? memberCount s); discriminate.
        * destruct (ppSubmissionCount s + 1 =? memberCount s); discriminate.
      + (* vk *)
        destruct IH as [A1 A2 A3 A4 A5 A6 A7 A8 A9 A10 A11 A12 A13 A14 A15 A16 A17 A18].
        subst s' ev. split; autorewrite with tr; rewrite ?W, ?app_nil_r; cbn; auto; try congruence.
        intros _. apply A16. rewrite H0. discriminate.
      + (* init *)
        destruct IH as [A1 A2 A3 A4 A5 A6 A7 A8 A9 A10 A11 A12 A13 A14 A15 A16 A17 A18].
        assert (s2 = s1 \/ exists h, s2 = set_roundHash h s1) as D.
        { destruct (is_pre v); [right|left; auto]. destruct H5 as (h & _ & ->). eauto. }
        clear H5. destruct D as [->|[h ->]]; subst; split; autorewrite with tr; rewrite ?W, ?app_nil_r; cbn; auto.
      + destruct IH; subst; split; autorewrite with tr; rewrite ?W, ?app_nil_r; cbn; auto.
      + destruct IH; subst; split; autorewrite with tr; rewrite ?W, ?app_nil_r; cbn; auto.
      + destruct IH; subst; split; autorewrite with tr; rewrite ?W, ?app_nil_r; cbn; auto.
      + destruct IH; subst; split; autorewrite with tr; rewrite ?W, ?app_nil_r; cbn; auto.
      + destruct IH; subst; split; autorewrite with tr; rewrite ?W, ?app_nil_r; cbn; auto.
  Qed.
End Inv.
#[export] Hint Rewrite added_app registrations_app submissions_app evals_app randoms_app initiations_app forced_app
    computed_app log_app : tr.
#[export] Hint Rewrite added_one registrations_one submissions_one evals_one randoms_one initiations_one forced_one computed_one log_one : tr.
#[export] Hint Rewrite rej_added rej_registrations rej_submissions rej_evals rej_randoms rej_initiations rej_forced
    rej_computed rej_log app_nil_r using assumption : rej.
