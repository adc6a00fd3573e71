(** A transaction that the contract would accept stays acceptable while other transactions are executed. *)
From Coq Require Import ZArith String List Bool Lia.
From Verif.Model Require Import Monad Evm Strings Zkdvrf.
From Verif.Spec Require Import Histories.
From Verif.Proofs Require Import ZkdvrfStep ZkdvrfInv1 ZkdvrfInv2 ZkdvrfInv3 ZkdvrfThms Forward.
Import ListNotations.
Open Scope Z_scope.

Lemma app_same {A} (a b : list A) : length (a ++ b) = length a -> b = [].
Proof. rewrite app_length. intros H. destruct b; [reflexivity|cbn in H; lia]. Qed.

Section S.
  Variable v : variant.
  Variable E : env.
  Variable c : cfg.
  Notation hist := (hist v E c).

  Lemma hist_fun tr s s' : hist tr s -> hist tr s' -> s = s'.
  Proof.
    intros H. revert s'. induction H as [s Hc C|tr s t H IH]; intros s' H'.
    - inversion H' as [s0 _ C' Eq|tr0 s0 t0 _ Eq]; [congruence|]. destruct tr0; discriminate Eq.
    - inversion H' as [s0 _ C' Eq|tr0 s0 t0 H0 Eq Es]; [destruct tr; discriminate Eq|]. apply app_inj_tail in Eq as [-> Eq]. injection Eq as -> -> _. reflexivity.
  Qed.
  Lemma rank_later tr s t' : forall s', hist tr s -> hist (tr ++ t') s' -> phase_rank (contractPhase s) <= phase_rank (contractPhase s').
  Proof.
    induction t' as [|x t' IH] using rev_ind; intros s' H H'.
    - rewrite app_nil_r in H'. rewrite (hist_fun _ _ _ H H'). lia.
    - rewrite app_assoc in H'. inversion H' as [s0 _ C' Eq|tr0 s0 t0 H0 Eq Es]; [destruct (tr ++ t'); discriminate Eq|].
      apply app_inj_tail in Eq as [-> Eq]. specialize (IH _ H H0). pose proof (phase_mono v E s0 t0). lia.
  Qed.
  Lemma all_submitted tr s a : hist tr s -> Z.of_nat (length (submissions tr)) = c_number c -> In a (added tr) -> In a (map psender (submissions tr)).
  Proof.
    intros H L Ha. pose proof (inv1 _ _ _ _ _ H) as J1. pose proof (inv2 _ _ _ _ _ H) as J2. pose proof (j_le _ _ _ _ J1).
    destruct (in_dec Z.eq_dec a (map psender (submissions tr))) as [|N]; [assumption|]. exfalso.
    assert (X : (length (a :: map psender (submissions tr)) <= length (added tr))%nat).
    { apply NoDup_incl_length; [constructor; [exact N|apply (k_nd _ _ _ _ _ J2)]|]. intros b [<-|Ib]; [exact Ha|apply (k_in _ _ _ _ _ J2), Ib]. }
    cbn [length] in X. rewrite map_length in X. lia.
  Qed.
  Lemma regs_frozen tr s t' s' : hist tr s -> hist (tr ++ t') s' -> phase_rank (contractPhase s) <> 0 -> registrations (tr ++ t') = registrations tr.
  Proof.
    intros H H' P. pose proof (j_phase _ _ _ _ (inv1 _ _ _ _ _ H) P) as L. pose proof (rank_later _ _ _ _ H H') as Mo.
    assert (P' : phase_rank (contractPhase s') <> 0) by (destruct (contractPhase s), (contractPhase s'); cbn in *; lia).
    pose proof (j_phase _ _ _ _ (inv1 _ _ _ _ _ H') P') as L'. rewrite registrations_app in *.
    rewrite (app_same (registrations tr) (registrations t')), app_nil_r by lia. reflexivity.
  Qed.
  Lemma added_later tr t' a : In a (added tr) -> In a (added (tr ++ t')).
  Proof. intros I. rewrite added_app. apply in_or_app. left. exact I. Qed.
  Lemma sender_ok t : tx_ok t = true -> 0 < sender t < M160.
  Proof. unfold tx_ok, is_addr. intros H. repeat (apply andb_prop in H as [H ?]). destruct (Z.eqb_spec (sender t) 0); [discriminate|]. lia. Qed.
  Lemma member_added tr s a : hist tr s -> 0 < a -> a = nodeAddress (addrToNode s a) -> In a (added tr).
  Proof.
    intros H A X. destruct (in_dec Z.eq_dec a (added tr)) as [|N]; [assumption|]. rewrite (j_out _ _ _ _ (inv1 _ _ _ _ _ H) a N) in X. cbn in X. lia.
  Qed.

  Lemma stable_register tr s t' s' a value pk x : hist tr s -> apply v E s (mkTx a value (RegisterNode pk)) = Ok x -> hist (tr ++ t') s' ->
    ~ In a (map who (registrations (tr ++ t'))) -> exists x', apply v E s' (mkTx a value (RegisterNode pk)) = Ok x'.
  Proof.
    intros H A H' N. destruct x as [s1 ev1]. destruct (apply_ok _ _ _ _ _ _ A) as [T R]. pose proof (sender_ok _ T) as Ra. cbn [sender] in Ra.
    pose proof T as T'. unfold tx_ok in T. cbn [sender tvalue what] in T. apply andb_prop in T as [_ U].
    inversion R; try discriminate. match goal with X : what _ = _ |- _ => cbn [what] in X; injection X as <- end. cbn [sender tvalue] in *.
    pose proof (inv0 _ _ _ _ _ H') as J0. pose proof (inv1 _ _ _ _ _ H') as J1. pose proof (i_ppr _ _ J0) as B.
    assert (I : In a (added (tr ++ t'))) by (apply added_later, (member_added tr s a H); [lia|assumption]).
    assert (P : contractPhase s' = Unregistered).
    { destruct (contractPhase s') eqn:P; [reflexivity|..]; exfalso; apply N, (all_registered v E c (tr ++ t') s' a H'); try exact I; rewrite P; discriminate. }
    assert (LE : Z.of_nat (length (registrations (tr ++ t'))) < c_number c).
    { assert (L : (length (map who (registrations (tr ++ t')) ++ [a]) <= length (added (tr ++ t')))%nat).
      { apply NoDup_incl_length; [apply NoDup_snoc; [apply (j_rnd _ _ _ _ J1)|exact N]|]. intros b Hb. apply in_app_or in Hb as [Hb|[<-|[]]]; auto. apply (j_rin _ _ _ _ J1), Hb. }
      rewrite app_length, map_length in L. cbn [length] in L. pose proof (j_le _ _ _ _ J1). lia. }
    destruct (j_nreg _ _ _ _ J1 a N) as (St & _ & _).
    assert (Mv : c_minDeposit c <=? value = true).
    { apply Z.leb_le. match goal with X : minNodeDeposit s <= value |- _ => rewrite (i_min _ _ (inv0 _ _ _ _ _ H)) in X; exact X end. }
    unfold apply. rewrite T'. cbn [require bind payable what tvalue orb]. unfold dispatch. cbn [what]. unfold registerNode.
    cbn [sender tvalue set_balance contractPhase addrToNode minNodeDeposit]. rewrite P, (j_in _ _ _ _ J1 a I), St, (i_min _ _ J0), Mv, Z.eqb_refl.
    match goal with X : isOnCurve _ = true |- _ => rewrite X end. rewrite !require_true by reflexivity. cbn [bind].
    destruct v eqn:Ev; cbn [is_pre andb];
      cbn [set_pkListOrder set_pkList set_addrToNode set_nodes set_balance pkListIndex set_pkListIndex registeredCount set_registeredCount memberCount];
      rewrite (j_pi _ _ _ _ J1), (j_rc _ _ _ _ J1), (i_n _ _ J0); unfold add32; rewrite chk_ok by lia; cbn [bind]; rewrite ?chk_ok by lia; cbn [bind];
      match goal with |- context [if ?b then _ else _] => destruct b end; eexists; reflexivity.
  Qed.

  Lemma stable_dealing tr s t' s' a pp zk x : hist tr s -> apply v E s (mkTx a 0 (SubmitPublicParams pp zk)) = Ok x -> hist (tr ++ t') s' ->
    ~ In a (map psender (submissions (tr ++ t'))) -> exists x', apply v E s' (mkTx a 0 (SubmitPublicParams pp zk)) = Ok x'.
  Proof.
    intros H A H' N. destruct x as [s1 ev1]. destruct (apply_ok _ _ _ _ _ _ A) as [T R]. pose proof (sender_ok _ T) as Ra. cbn [sender] in Ra.
    unfold tx_ok in T. cbn [sender tvalue what] in T. apply andb_prop in T as [_ T]. apply andb_prop in T as [T Z]. apply andb_prop in T as [U _].
    inversion R; try discriminate. match goal with X : what _ = _ |- _ => cbn [what] in X; injection X as <- <- end. cbn [sender tvalue] in *.
    assert (Rk : phase_rank (contractPhase s) = 2) by (match goal with X : contractPhase s = _ |- _ => rewrite X end; reflexivity).
    pose proof (regs_frozen _ _ _ _ H H' ltac:(lia)) as Fz. pose proof (rank_later _ _ _ _ H H') as Mo. pose proof (inv0 _ _ _ _ _ H) as J0. pose proof (inv1 _ _ _ _ _ H) as J1.
    assert (I : In a (added (tr ++ t'))) by (apply added_later, (member_added tr s a H); [lia|assumption]).
    match goal with X : checkPublicParams s pp = _ |- _ => apply (checkPublicParams_ok c s pp J0) in X as (_ & L & Tl) end. rewrite (j_pk _ _ _ _ J1) in Tl.
    assert (P : contractPhase s' = Nidkg).
    { destruct (contractPhase s') eqn:P; cbn [phase_rank] in Mo; try lia; auto; exfalso; apply N, (all_submitted _ s'); auto; apply (k_eq _ _ _ _ _ (inv2 _ _ _ _ _ H')); rewrite P; cbn; lia. }
    destruct (F_submit v E c (tr ++ t') s' a pp zk H' P Ra I N U Z L) as (s9 & ev9 & X9 & _).
    - rewrite Fz. exact Tl.
    - rewrite <- (i_vk _ _ J0). assumption.
    - eauto.
  Qed.

  Lemma keys_frozen tr s t' s' : hist tr s -> hist (tr ++ t') s' -> contractPhase s = Ready -> contractPhase s' = Ready /\ vkList s' = vkList s /\ gpkVal s' = gpkVal s.
  Proof.
    intros H H' P. pose proof (rank_later _ _ _ _ H H') as Mo. rewrite P in Mo. assert (P' : contractPhase s' = Ready) by (destruct (contractPhase s'); cbn in Mo; try lia; reflexivity).
    split; [exact P'|]. destruct (k_ready _ _ _ _ _ (inv2 _ _ _ _ _ H) P) as (g & C & V). destruct (k_ready _ _ _ _ _ (inv2 _ _ _ _ _ H') P') as (g' & C' & V').
    pose proof (k_eq _ _ _ _ _ (inv2 _ _ _ _ _ H)) as L. rewrite P in L. specialize (L ltac:(cbn; lia)). pose proof (k_eq _ _ _ _ _ (inv2 _ _ _ _ _ H')) as L'. rewrite P' in L'. specialize (L' ltac:(cbn; lia)).
    assert (S : submissions (tr ++ t') = submissions tr).
    { rewrite submissions_app in *. rewrite (app_same (submissions tr) (submissions t')), app_nil_r by lia. reflexivity. }
    rewrite computed_app, C in C'. cbn [app] in C'. injection C' as <- _. rewrite (k_pp _ _ _ _ _ (inv2 _ _ _ _ _ H)) in V. rewrite (k_pp _ _ _ _ _ (inv2 _ _ _ _ _ H')), S, V in V'.
    injection V' as -> ->. auto.
  Qed.

  Lemma stable_evaluation tr s t' s' a e x : hist tr s -> apply v E s (mkTx a 0 (SubmitPartialEval e)) = Ok x -> hist (tr ++ t') s' ->
    currentRoundNum s' = currentRoundNum s -> rvalue (roundToRandom s' (currentRoundNum s')) = 0 -> ~ In a (map fst (evals (tr ++ t') (currentRoundNum s'))) ->
    exists x', apply v E s' (mkTx a 0 (SubmitPartialEval e)) = Ok x'.
  Proof.
    intros H A H' Rn NR N. destruct x as [s1 ev1]. destruct (apply_ok _ _ _ _ _ _ A) as [T R]. pose proof (sender_ok _ T) as Ra. cbn [sender] in Ra.
    inversion R; try discriminate. match goal with X : what _ = _ |- _ => cbn [what] in X; injection X as <- end. cbn [sender tvalue] in *.
    pose proof (inv0 _ _ _ _ _ H') as J0. pose proof (inv1 _ _ _ _ _ H) as I1. pose proof (inv2 _ _ _ _ _ H) as I2. pose proof (inv3 _ _ _ _ _ H) as I3.
    pose proof (inv1 _ _ _ _ _ H') as J1. pose proof (inv2 _ _ _ _ _ H') as J2. pose proof (inv3 _ _ _ _ _ H') as J3. pose proof (i_ppr _ _ J0) as BN.
    assert (Cur : 0 < currentRoundNum s) by (pose proof (m_last _ _ _ _ _ I3 a); lia).
    assert (P : contractPhase s = Ready) by (apply (k_curready _ _ _ _ _ I2); lia).
    destruct (keys_frozen _ _ _ _ H H' P) as (P' & Vk & _). pose proof (regs_frozen _ _ _ _ H H') as Fz. rewrite P in Fz. specialize (Fz ltac:(discriminate)).
    assert (Ia : In a (added (tr ++ t'))) by (apply added_later, (member_added tr s a H); [lia|assumption]).
    assert (Ir : In a (map who (registrations tr))) by (rewrite <- Fz; apply (all_registered v E c (tr ++ t') s' a H'); [rewrite P'; discriminate|exact Ia]).
    apply in_map_iff in Ir as (y & Wy & Iy). apply in_znth in Iy as [i Iy]. pose proof Iy as Iy'. rewrite <- Fz in Iy'.
    destruct (j_reg _ _ _ _ I1 i y Iy) as (_ & Pk & _). destruct (j_reg _ _ _ _ J1 i y Iy') as (_ & Pk' & _). rewrite Wy in Pk, Pk'. rewrite Pk in *.
    assert (La : lastSubmittedRound s' a < currentRoundNum s').
    { pose proof (m_last _ _ _ _ _ J3 a) as Rl. destruct (Z.eq_dec (lastSubmittedRound s' a) (currentRoundNum s')) as [Eq|]; [|lia]. exfalso. apply N. rewrite <- Eq.
      apply (m_lastin _ _ _ _ _ J3). lia. }
    assert (Cn : 0 <= roundSubmissionCount s' (currentRoundNum s') + 1 < M32).
    { rewrite (m_cnt _ _ _ _ _ J3). assert (Z.of_nat (length (evals (tr ++ t') (currentRoundNum s'))) <= c_number c); [|lia].
      pose proof (j_le _ _ _ _ J1). assert (length (map fst (evals (tr ++ t') (currentRoundNum s'))) <= length (added (tr ++ t')))%nat; [|rewrite map_length in *; lia].
      apply NoDup_incl_length; [apply (m_nd _ _ _ _ _ J3)|]. intros b Hb. apply (j_rin _ _ _ _ J1). apply in_map_iff in Hb as ((b' & eb) & <- & Hb).
      destruct (m_ev _ _ _ _ _ J3 _ b' eb Hb) as (ib & vb & Zb & _). eapply znth_in. exact Zb. }
    assert (RI : roundInput s' (currentRoundNum s) = roundInput s (currentRoundNum s)).
    { rewrite (k_input _ _ _ _ _ I2), (k_input _ _ _ _ _ J2), Rn. reflexivity. }
    assert (RH : is_pre v = true -> roundHash s' (currentRoundNum s) = roundHash s (currentRoundNum s)).
    { intros Ip. pose proof (k_hash _ _ _ _ _ I2 (currentRoundNum s)) as X. pose proof (k_hash _ _ _ _ _ J2 (currentRoundNum s)) as X'. rewrite Rn in X'. rewrite Ip in X, X'.
      destruct (Z.leb_spec 1 (currentRoundNum s)); [|lia]. rewrite Z.leb_refl in X, X'. cbn [andb] in X, X'. congruence. }
    unfold apply. rewrite T. cbn [require bind payable what tvalue]. rewrite require_true by reflexivity. cbn [bind]. unfold dispatch. cbn [what]. unfold submitPartialEval.
    cbn [sender set_balance currentRoundNum addrToNode roundToRandom lastSubmittedRound roundInput vkList roundHash].
    rewrite (j_in _ _ _ _ J1 a Ia), Z.eqb_refl, NR, Z.eqb_refl, !require_true by (auto; apply Z.ltb_lt; exact La). cbn [bind].
    rewrite Pk'. unfold add32. rewrite chk_ok by lia. cbn [bind]. match goal with X : indexPlus e = _ |- _ => rewrite X end. rewrite Z.eqb_refl, require_true by reflexivity. cbn [bind].
    rewrite Vk. match goal with X : at_ (vkList s) i = _ |- _ => rewrite X end. cbn [bind]. rewrite Rn, RI.
    match goal with X : (if is_pre v then _ else _) = Ok true |- _ => rename X into Ver end.
    assert (Ver' : (if is_pre v then verify_partial_eval_fast E (roundHash s' (currentRoundNum s)) (evalue e) (proof_z e) (proof_c e) vk
                    else verify_partial_eval E (roundInput s (currentRoundNum s)) (evalue e) (proof_z e) (proof_c e) vk) = Ok true).
    { destruct (is_pre v) eqn:Ip; [rewrite (RH eq_refl)|]; exact Ver. }
    rewrite Ver'. cbn [bind]. rewrite require_true by reflexivity. cbn [bind].
    cbn [set_roundToEval set_lastSubmittedRound set_balance roundSubmissionCount roundToEval]. rewrite chk_ok by (rewrite <- Rn; exact Cn). cbn [bind].
    match goal with |- context [if ?b then _ else _] => destruct b end; eexists; reflexivity.
  Qed.
End S.
