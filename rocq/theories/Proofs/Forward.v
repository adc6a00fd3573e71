(** Acceptance of well-formed transactions (the converse direction of ZkdvrfStep). *)
From Coq Require Import ZArith String List Bool Lia.
From Verif.Model Require Import Monad Evm Strings Zkdvrf.
From Verif.Spec Require Import Histories.
From Verif.Proofs Require Import ZkdvrfStep ZkdvrfInv1 ZkdvrfInv2 ZkdvrfThms.
Import ListNotations.
Open Scope Z_scope.

Lemma addr_ok a : 0 < a < M160 -> is_addr a && negb (a =? 0) = true.
Proof. intros H. unfold is_addr. destruct (Z.leb_spec 0 a), (Z.ltb_spec a M160), (Z.eqb_spec a 0); auto; lia. Qed.
Lemma require_true m b : b = true -> require b m = Ok tt. Proof. intros ->. reflexivity. Qed.
Lemma chk_ok m x : 0 <= x < m -> chk m x = Ok x.
Proof. intros H. unfold chk. destruct (Z.leb_spec 0 x), (Z.ltb_spec x m); auto; lia. Qed.

Section F.
  Variable v : variant.
  Variable E : env.
  Variable c : cfg.
  Notation hist := (hist v E c).

  Lemma hist_ok tr s t s' ev : hist tr s -> apply v E s t = Ok (s', ev) -> hist (tr ++ [mkStep s t (Ok (s', ev))]) s'.
  Proof.
    intros H A. pose proof (hist_tx v E c tr s t H) as X. rewrite A in X. unfold exec in X. rewrite A in X. exact X.
  Qed.

  Lemma F_add tr s a : hist tr s -> 0 < owner s < M160 -> 0 < a < M160 -> Z.of_nat (length (added tr)) < c_number c -> ~ In a (added tr) ->
    exists s', apply v E s (mkTx (owner s) 0 (AddPermissionedNodes a)) = Ok (s', []) /\ owner s' = owner s /\ contractPhase s' = contractPhase s.
  Proof.
    intros H O A L N. pose proof (inv0 _ _ _ _ _ H) as J0. pose proof (inv1 _ _ _ _ _ H) as J1. pose proof (i_ppr _ _ J0).
    unfold apply. rewrite require_true by (unfold tx_ok; cbn [sender tvalue what]; rewrite addr_ok by auto; pose proof (addr_ok a A) as X; apply andb_prop in X as [-> _]; reflexivity).
    cbn [bind payable what tvalue]. rewrite require_true by reflexivity. cbn [bind]. unfold dispatch. cbn [what]. unfold addPermissionedNodes, onlyOwner.
    cbn [sender owner set_balance currentIndex memberCount addrToNode set_addrToNode]. rewrite (i_n _ _ J0), (j_cnt _ _ _ _ J1), (j_out _ _ _ _ J1 a N). cbn [nodeAddress node0].
    rewrite Z.eqb_refl, !require_true; [|reflexivity|destruct (Z.eqb_spec a 0); [lia|reflexivity]|apply Z.ltb_lt; lia|reflexivity].
    cbn [bind]. unfold add32. rewrite chk_ok by lia. cbn [bind]. eexists. split; [reflexivity|]. split; reflexivity.
  Qed.

  Lemma F_register tr s a pk : hist tr s -> contractPhase s = Unregistered -> 0 < a < M160 -> is_u256 (c_minDeposit c) = true -> In a (added tr) -> ~ In a (map who (registrations tr)) ->
    isOnCurve pk = true -> pt_ok256 pk = true ->
    exists s' ev, apply v E s (mkTx a (c_minDeposit c) (RegisterNode pk)) = Ok (s', ev) /\ owner s' = owner s /\
      contractPhase s' = (if is_pre v && (Z.of_nat (length (registrations tr)) + 1 =? c_number c) then Registered else Unregistered).
  Proof.
    intros H P A D I N C U. pose proof (inv0 _ _ _ _ _ H) as J0. pose proof (inv1 _ _ _ _ _ H) as J1. pose proof (i_ppr _ _ J0) as B.
    assert (LE : Z.of_nat (length (registrations tr)) < c_number c).
    { assert (L : (length (map who (registrations tr) ++ [a]) <= length (added tr))%nat).
      { apply NoDup_incl_length; [apply NoDup_snoc; [apply (j_rnd _ _ _ _ J1)|exact N]|]. intros b Hb. apply in_app_or in Hb as [Hb|[<-|[]]]; auto. apply (j_rin _ _ _ _ J1), Hb. }
      rewrite app_length, map_length in L. cbn [length] in L. pose proof (j_le _ _ _ _ J1). lia. }
    destruct (j_nreg _ _ _ _ J1 a N) as (St & _ & _).
    unfold apply. rewrite require_true by (unfold tx_ok; cbn [sender tvalue what]; rewrite addr_ok, D, U by auto; reflexivity).
    cbn [bind payable what tvalue]. rewrite require_true by reflexivity. cbn [bind]. unfold dispatch. cbn [what]. unfold registerNode.
    cbn [sender tvalue set_balance contractPhase addrToNode minNodeDeposit]. rewrite P, (j_in _ _ _ _ J1 a I), St, C, (i_min _ _ J0), Z.eqb_refl, Z.leb_refl, !require_true by reflexivity. cbn [bind].
    destruct v eqn:Ev; cbn [is_pre andb];
      cbn [set_pkListOrder set_pkList set_addrToNode set_nodes set_balance pkListIndex set_pkListIndex registeredCount set_registeredCount memberCount];
      rewrite (j_pi _ _ _ _ J1), (j_rc _ _ _ _ J1), (i_n _ _ J0); unfold add32; rewrite chk_ok by lia; cbn [bind]; rewrite ?chk_ok by lia; cbn [bind];
      destruct (_ =? _); do 2 eexists; (split; [reflexivity|]); split; try reflexivity; exact P.
  Qed.

  Lemma F_start tr s : hist tr s -> 0 < owner s < M160 -> contractPhase s = (if is_pre v then Registered else Unregistered) ->
    Z.of_nat (length (registrations tr)) = c_number c ->
    exists s' ev, apply v E s (mkTx (owner s) 0 StartNidkg) = Ok (s', ev) /\ owner s' = owner s /\ contractPhase s' = Nidkg.
  Proof.
    intros H O P L. pose proof (inv0 _ _ _ _ _ H) as J0. pose proof (inv1 _ _ _ _ _ H) as J1.
    unfold apply. rewrite require_true by (unfold tx_ok; cbn [sender tvalue what]; rewrite addr_ok by auto; reflexivity).
    cbn [bind payable what tvalue]. rewrite require_true by reflexivity. cbn [bind]. unfold dispatch. cbn [what]. unfold startNidkg, onlyOwner.
    cbn [sender owner set_balance contractPhase registeredCount memberCount]. rewrite Z.eqb_refl, P, (j_rc _ _ _ _ J1), (i_n _ _ J0), L, Z.eqb_refl, require_true by reflexivity. cbn [bind].
    destruct (is_pre v); cbn [phase_eqb]; rewrite !require_true by reflexivity; cbn [bind]; do 2 eexists; split; try reflexivity; split; reflexivity.
  Qed.

  Lemma F_submit tr s a pp zk : hist tr s -> contractPhase s = Nidkg -> 0 < a < M160 -> In a (added tr) -> ~ In a (map psender (submissions tr)) ->
    forallb is_u256 pp = true -> forallb is_byte zk = true ->
    Z.of_nat (length pp) = 7 * c_number c + 14 -> skipn (Z.to_nat (5 * c_number c + 14)) pp = flat (map key (registrations tr)) ->
    verify_proof E (c_vk c) zk pp = Ok true ->
    exists s' ev, apply v E s (mkTx a 0 (SubmitPublicParams pp zk)) = Ok (s', ev) /\ owner s' = owner s /\
      contractPhase s' = (if Z.of_nat (length (submissions tr)) + 1 =? c_number c then NidkgComplete else Nidkg).
  Proof.
    intros H P A I N U Z L T V. pose proof (inv0 _ _ _ _ _ H) as J0. pose proof (inv1 _ _ _ _ _ H) as J1. pose proof (inv2 _ _ _ _ _ H) as J2. pose proof (i_ppr _ _ J0) as B.
    assert (LE : Z.of_nat (length (submissions tr)) < c_number c).
    { assert (X : (length (map psender (submissions tr) ++ [a]) <= length (added tr))%nat).
      { apply NoDup_incl_length; [apply NoDup_snoc; [apply (k_nd _ _ _ _ _ J2)|exact N]|]. intros b Hb. apply in_app_or in Hb as [Hb|[<-|[]]]; auto. apply (k_in _ _ _ _ _ J2), Hb. }
      rewrite app_length, map_length in X. cbn [length] in X. pose proof (j_le _ _ _ _ J1). lia. }
    assert (SP : statusPP (addrToNode s a) = false).
    { destruct (statusPP (addrToNode s a)) eqn:X; auto. apply (k_st _ _ _ _ _ J2) in X. contradiction. }
    assert (BL : Z.of_nat (length pp) <? M256 = true) by (apply Z.ltb_lt; pose proof M32_M256; lia).
    set (sb := set_balance (balance s + 0) s).
    assert (CP : checkPublicParams sb pp = Ok true).
    { apply (checkPublicParams_ok c).
      - destruct J0. constructor; assumption.
      - cbn [pkList set_balance sb]. rewrite (j_pk _ _ _ _ J1), map_length. split; [|auto]. apply (j_phase _ _ _ _ J1). rewrite P. discriminate. }
    unfold apply. rewrite require_true by (unfold tx_ok; cbn [sender tvalue what]; rewrite addr_ok, U, Z, BL by auto; reflexivity).
    cbn [bind payable what tvalue]. rewrite require_true by reflexivity. cbn [bind]. unfold dispatch. cbn [what]. unfold submitPublicParams.
    fold sb. cbn [sender]. change (addrToNode sb a) with (addrToNode s a). change (contractPhase sb) with (contractPhase s).
    rewrite (j_in _ _ _ _ J1 a I), P, SP, Z.eqb_refl, !require_true by reflexivity. cbn [bind]. rewrite CP. cbn [bind]. rewrite require_true by reflexivity. cbn [bind].
    change (halo2VerifyingKey sb) with (halo2VerifyingKey s). rewrite (i_vk _ _ J0), V. cbn [bind]. rewrite require_true by reflexivity. cbn [bind].
    destruct (is_pre v); cbn [set_ppListOrder set_ppList set_addrToNode ppSubmissionCount set_ppSubmissionCount memberCount sb set_balance];
      rewrite (k_cnt _ _ _ _ _ J2), (i_n _ _ J0); unfold add32; rewrite chk_ok by lia; cbn [bind];
      destruct (_ =? _); do 2 eexists; (split; [reflexivity|]); split; try reflexivity; exact P.
  Qed.
End F.
