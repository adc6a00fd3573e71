(** The setup phase, executed by cooperating participants. *)
From Coq Require Import ZArith String List Bool Lia.
From Verif.Model Require Import Monad Evm Strings Zkdvrf.
From Verif.Spec Require Import Histories.
From Verif.Proofs Require Import ZkdvrfStep ZkdvrfInv1 ZkdvrfInv2 ZkdvrfThms Forward.
Import ListNotations.
Open Scope Z_scope.

Definition addr a := 0 < a < M160.
Lemma accepted_snoc tr s t r : forallb accepted tr = true -> forallb accepted (tr ++ [mkStep s t (Ok r)]) = true.
Proof. intros H. rewrite forallb_app, H. reflexivity. Qed.

Section S.
  Variable v : variant.
  Variable E : env.
  Variable c : cfg.
  Notation hist := (hist v E c).
  Hypothesis own : addr (c_owner c).
  Hypothesis dep256 : is_u256 (c_minDeposit c) = true.
  Hypothesis pos : 0 < c_number c.

  (** a state of the setup: everything accepted so far, the owner unchanged *)
  Record good (tr : list step) (s : st) : Prop := {
    g_hist : hist tr s; g_acc : forallb accepted tr = true; g_own : owner s = c_owner c;
    g_init : initiations tr = [] }.

  Lemma good_step tr s t s' ev : good tr s -> apply v E s t = Ok (s', ev) -> owner s' = owner s -> what t <> InitiateRandom ->
    good (tr ++ [mkStep s t (Ok (s', ev))]) s'.
  Proof.
    intros [H A O I] X Y W. constructor.
    - apply hist_ok; auto.
    - apply accepted_snoc; auto.
    - congruence.
    - rewrite initiations_app, I, initiations_one. destruct (what t); auto. congruence.
  Qed.

  Lemma add_all as_ : forall tr s, good tr s -> contractPhase s = Unregistered -> registrations tr = [] -> submissions tr = [] -> Forall addr as_ ->
    NoDup (added tr ++ as_) -> Z.of_nat (length (added tr ++ as_)) <= c_number c ->
    exists tr' s', good tr' s' /\ contractPhase s' = Unregistered /\ added tr' = added tr ++ as_ /\ registrations tr' = [] /\ submissions tr' = [].
  Proof.
    induction as_ as [|a as_ IH]; intros tr s G P R S F N L.
    - exists tr, s. rewrite app_nil_r. auto.
    - inversion F as [|? ? Fa F']; subst.
      destruct (F_add v E c tr s a (g_hist _ _ G)) as (s1 & A & O & P1); auto.
      { rewrite (g_own _ _ G). exact own. } { rewrite app_length in L. cbn [length] in L. lia. } { intros I. apply NoDup_remove_2 in N. apply N, in_or_app. auto. }
      set (t := mkTx (owner s) 0 (AddPermissionedNodes a)) in *. set (tr1 := tr ++ [mkStep s t (Ok (s1, []))]).
      assert (G1 : good tr1 s1) by (apply good_step; auto; discriminate).
      assert (A1 : added tr1 = added tr ++ [a]) by (unfold tr1; rewrite added_app, added_one; reflexivity).
      destruct (IH tr1 s1 G1) as (tr' & s' & G' & P' & A' & R' & S'); auto.
      + congruence.
      + unfold tr1. rewrite registrations_app, R, registrations_one. reflexivity.
      + unfold tr1. rewrite submissions_app, S, submissions_one. reflexivity.
      + rewrite A1, <- app_assoc. exact N.
      + rewrite A1, <- app_assoc. exact L.
      + exists tr', s'. rewrite A', A1, <- app_assoc. auto.
  Qed.

  Lemma register_all ks : forall tr s, good tr s -> contractPhase s = Unregistered -> submissions tr = [] -> Forall (fun '(a, p) => addr a /\ isOnCurve p = true /\ pt_ok256 p = true) ks ->
    ks <> [] -> incl (map fst ks) (added tr) -> NoDup (map who (registrations tr) ++ map fst ks) -> Z.of_nat (length (registrations tr) + length ks) = c_number c ->
    exists tr' s', good tr' s' /\ contractPhase s' = (if is_pre v then Registered else Unregistered) /\ added tr' = added tr /\
      registrations tr' = registrations tr ++ map (fun '(a, p) => (a, p, c_minDeposit c)) ks /\ submissions tr' = [].
  Proof.
    induction ks as [|[a p] ks IH]; intros tr s G P S F NE I N L; [congruence|]. inversion F as [|? ? F0 F']; subst. cbv beta iota in F0. destruct F0 as (Fa & Fc & Fp). cbn [map fst] in *.
    destruct (F_register v E c tr s a p (g_hist _ _ G)) as (s1 & ev & A & O & P1); auto.
    { apply I. left. reflexivity. } { intros X. apply NoDup_remove_2 in N. apply N, in_or_app. auto. }
    set (t := mkTx a (c_minDeposit c) (RegisterNode p)) in *. set (tr1 := tr ++ [mkStep s t (Ok (s1, ev))]).
    assert (G1 : good tr1 s1) by (apply good_step; auto; discriminate).
    assert (A1 : added tr1 = added tr) by (unfold tr1; rewrite added_app, added_one; apply app_nil_r).
    assert (R1 : registrations tr1 = registrations tr ++ [(a, p, c_minDeposit c)]) by (unfold tr1; rewrite registrations_app, registrations_one; reflexivity).
    assert (S1 : submissions tr1 = []) by (unfold tr1; rewrite submissions_app, submissions_one, S; reflexivity).
    cbn [length] in L. destruct ks as [|k ks].
    - exists tr1, s1. split; auto. split; [|split; [exact A1|split; [exact R1|exact S1]]]. rewrite P1.
      destruct (is_pre v); auto. cbn [andb length] in *. destruct (Z.eqb_spec (Z.of_nat (length (registrations tr)) + 1) (c_number c)); auto. lia.
    - destruct (IH tr1 s1 G1) as (tr' & s' & G' & P' & A' & R' & S'); auto.
      + rewrite P1. destruct (is_pre v); auto. cbn [andb length] in *. destruct (Z.eqb_spec (Z.of_nat (length (registrations tr)) + 1) (c_number c)); auto. lia.
      + discriminate.
      + rewrite A1. intros x Hx. apply I. right. exact Hx.
      + rewrite R1, map_app, <- app_assoc. exact N.
      + rewrite R1, app_length. cbn [length] in *. lia.
      + exists tr', s'. rewrite R', R1, <- app_assoc, A', A1. auto.
  Qed.

  Lemma submit_all ps : forall tr s, good tr s -> contractPhase s = Nidkg ->
    Forall (fun '(a, pp, zk) => addr a /\ forallb is_u256 pp = true /\ forallb is_byte zk = true /\ Z.of_nat (length pp) = 7 * c_number c + 14 /\
      skipn (Z.to_nat (5 * c_number c + 14)) pp = flat (map key (registrations tr)) /\ verify_proof E (c_vk c) zk pp = Ok true) ps ->
    ps <> [] -> incl (map psender ps) (added tr) -> NoDup (map psender (submissions tr) ++ map psender ps) -> Z.of_nat (length (submissions tr) + length ps) = c_number c ->
    exists tr' s', good tr' s' /\ contractPhase s' = NidkgComplete /\ registrations tr' = registrations tr /\ submissions tr' = submissions tr ++ ps.
  Proof.
    induction ps as [|[[a pp] zk] ps IH]; intros tr s G P F NE I N L; [congruence|]. inversion F as [|? ? F0 F']; subst. cbv beta iota in F0. destruct F0 as (Fa & Fu & Fb & Fl & Ft & Fv). cbn [map psender fst] in *.
    destruct (F_submit v E c tr s a pp zk (g_hist _ _ G)) as (s1 & ev & A & O & P1); auto.
    { apply I. left. reflexivity. } { intros X. apply NoDup_remove_2 in N. apply N, in_or_app. auto. }
    set (t := mkTx a 0 (SubmitPublicParams pp zk)) in *. set (tr1 := tr ++ [mkStep s t (Ok (s1, ev))]).
    assert (G1 : good tr1 s1) by (apply good_step; auto; discriminate).
    assert (A1 : added tr1 = added tr) by (unfold tr1; rewrite added_app, added_one; apply app_nil_r).
    assert (R1 : registrations tr1 = registrations tr) by (unfold tr1; rewrite registrations_app, registrations_one; apply app_nil_r).
    assert (S1 : submissions tr1 = submissions tr ++ [(a, pp, zk)]) by (unfold tr1; rewrite submissions_app, submissions_one; reflexivity).
    cbn [length] in L. destruct ps as [|k ps].
    - exists tr1, s1. split; auto. split; [|split; [exact R1|exact S1]]. rewrite P1.
      cbn [length] in *. destruct (Z.eqb_spec (Z.of_nat (length (submissions tr)) + 1) (c_number c)); auto. lia.
    - destruct (IH tr1 s1 G1) as (tr' & s' & G' & P' & R' & S'); auto.
      + rewrite P1. cbn [length] in *. destruct (Z.eqb_spec (Z.of_nat (length (submissions tr)) + 1) (c_number c)); auto. lia.
      + rewrite R1. exact F'.
      + discriminate.
      + rewrite A1. intros x Hx. apply I. right. exact Hx.
      + rewrite S1, map_app, <- app_assoc. exact N.
      + rewrite S1, app_length. cbn [length] in *. lia.
      + exists tr', s'. rewrite S', S1, <- app_assoc, R', R1. auto.
  Qed.

  Lemma setup_all s0 (as_ : list Z) (ks : list pt) (subs : list (list Z * bytes)) : cfg_ok c = true -> construct c = Ok s0 ->
    Z.of_nat (length as_) = c_number c -> length ks = length as_ -> length subs = length as_ -> NoDup as_ -> Forall addr as_ ->
    Forall (fun p => isOnCurve p = true /\ pt_ok256 p = true) ks ->
    Forall (fun '(pp, zk) => forallb is_u256 pp = true /\ forallb is_byte zk = true /\ Z.of_nat (length pp) = 7 * c_number c + 14 /\
      skipn (Z.to_nat (5 * c_number c + 14)) pp = flat ks /\ verify_proof E (c_vk c) zk pp = Ok true) subs ->
    exists tr s, good tr s /\ contractPhase s = NidkgComplete /\ map who (registrations tr) = as_ /\ map key (registrations tr) = ks /\ ppList s = map fst subs.
  Proof.
    intros CO C L Lk Ls N Fa Fk Fs. pose proof (construct_ok c s0 C) as (_ & _ & E0).
    assert (G0 : good [] s0) by (constructor; [constructor; auto|reflexivity|rewrite E0; reflexivity|reflexivity]).
    assert (P0 : contractPhase s0 = Unregistered) by (rewrite E0; reflexivity).
    destruct (add_all as_ [] s0 G0 P0 eq_refl eq_refl Fa N) as (tr1 & s1 & G1 & P1 & A1 & R1 & S1); [cbn [app added flat_map]; lia|]. cbn [app added flat_map] in A1.
    assert (M1 : map fst (combine as_ ks) = as_).
    { clear -Lk. revert ks Lk. induction as_ as [|x l IH]; intros [|k ks] Lk; cbn in *; try lia; auto. f_equal. apply IH. lia. }
    assert (Fk' : Forall (fun '(a, p) => addr a /\ isOnCurve p = true /\ pt_ok256 p = true) (combine as_ ks)).
    { rewrite Forall_forall in *. intros [x p] I. split; [apply Fa; eapply in_combine_l; eauto|apply Fk; eapply in_combine_r; eauto]. }
    assert (NE : as_ <> []) by (intros ->; cbn in L; lia).
    destruct (register_all (combine as_ ks) tr1 s1 G1 P1 S1 Fk') as (tr2 & s2 & G2 & P2 & A2 & R2 & S2).
    { intros X. rewrite X in M1. cbn in M1. congruence. } { rewrite M1, A1. apply incl_refl. } { rewrite R1, M1. exact N. } { rewrite R1, combine_length, Lk, Nat.min_id. exact L. }
    rewrite R1 in R2. cbn [app] in R2.
    assert (W2 : map who (registrations tr2) = as_).
    { rewrite R2, map_map. rewrite <- M1 at 2. apply map_ext. intros [x p]. reflexivity. }
    assert (K2 : map key (registrations tr2) = ks).
    { rewrite R2, map_map. transitivity (map snd (combine as_ ks)); [apply map_ext; intros [x p]; reflexivity|].
      clear -Lk. revert ks Lk. induction as_ as [|x l IH]; intros [|k ks] Lk; cbn in *; try lia; auto. f_equal. apply IH. lia. }
    assert (L2 : Z.of_nat (length (registrations tr2)) = c_number c) by (rewrite <- L, <- W2, map_length; reflexivity).
    destruct (F_start v E c tr2 s2 (g_hist _ _ G2)) as (s3 & ev & X & O & P3); auto. { rewrite (g_own _ _ G2). exact own. }
    set (t := mkTx (owner s2) 0 StartNidkg) in *. set (tr3 := tr2 ++ [mkStep s2 t (Ok (s3, ev))]).
    assert (G3 : good tr3 s3) by (apply good_step; auto; discriminate).
    assert (A3 : added tr3 = as_) by (unfold tr3; rewrite added_app, added_one, A2, A1; apply app_nil_r).
    assert (R3 : registrations tr3 = registrations tr2) by (unfold tr3; rewrite registrations_app, registrations_one; apply app_nil_r).
    assert (S3 : submissions tr3 = []) by (unfold tr3; rewrite submissions_app, submissions_one, S2; reflexivity).
    set (ps := map (fun '(a, (pp, zk)) => (a, pp, zk)) (combine as_ subs) : list (Z * list Z * bytes)).
    assert (Mp : map psender ps = as_).
    { unfold ps. rewrite map_map. clear -Ls. revert subs Ls. induction as_ as [|x l IH]; intros [|[k ks] subs] Ls; cbn in *; try lia; auto. f_equal. apply IH. lia. }
    assert (Mv : map pvec ps = map fst subs).
    { unfold ps. rewrite map_map. clear -Ls. revert subs Ls. induction as_ as [|x l IH]; intros [|[k ks] subs] Ls; cbn in *; try lia; auto. f_equal. apply IH. lia. }
    destruct (submit_all ps tr3 s3 G3 P3) as (tr4 & s4 & G4 & P4 & R4 & S4).
    - rewrite R3, K2. unfold ps. apply Forall_forall. intros y I. apply in_map_iff in I as ([x [pp zk]] & <- & I). split; [rewrite Forall_forall in Fa; apply Fa; eapply in_combine_l; eauto|].
      apply in_combine_r in I. rewrite Forall_forall in Fs. exact (Fs _ I).
    - intros X'. rewrite X' in Mp. cbn in Mp. congruence.
    - rewrite Mp, A3. apply incl_refl.
    - rewrite S3, Mp. exact N.
    - rewrite S3. rewrite <- L, <- Mp, map_length. reflexivity.
    - exists tr4, s4. split; auto. split; auto. rewrite R4, R3. split; auto. split; auto.
      rewrite (k_pp _ _ _ _ _ (inv2 _ _ _ _ _ (g_hist _ _ G4))), S4, S3. exact Mv.
  Qed.
End S.
