(** Inversion of one accepted transaction. *)
From Coq Require Import ZArith String List Bool Lia.
From Verif.Model Require Import Monad Evm Strings Zkdvrf.
Import ListNotations.
Open Scope Z_scope.

Section Step.
  Variable v : variant.
  Variable E : env.

  Inductive stepR (s : st) (t : tx) (s' : st) (ev' : list event) : Prop :=
  | R_add a : what t = AddPermissionedNodes a -> tvalue t = 0 -> sender t = owner s -> currentIndex s < memberCount s -> a <> 0 ->
      nodeAddress (addrToNode s a) = 0 -> 0 <= currentIndex s + 1 < M32 ->
      s' = (set_currentIndex (currentIndex s + 1)
                 (set_addrToNode (upd (addrToNode s) a (mkNode a false 0 false 0)) s)) ->
      ev' = [] -> stepR s t s' ev'
  | R_reg pk s1 s2 ev : what t = RegisterNode pk -> contractPhase s = Unregistered ->
      sender t = nodeAddress (addrToNode s (sender t)) -> status (addrToNode s (sender t)) = false ->
      minNodeDeposit s <= tvalue t -> isOnCurve pk = true ->
      0 <= pkListIndex s + 1 < M32 -> 0 <= registeredCount s + 1 < M32 ->
      s1 = set_registeredCount (registeredCount s + 1) (set_pkListIndex (pkListIndex s + 1)
             (set_pkList (pkList s ++ [pk])
               (set_addrToNode (upd (addrToNode s) (sender t)
                   (mkNode (nodeAddress (addrToNode s (sender t))) true (tvalue t) (statusPP (addrToNode s (sender t))) (pkListIndex s)))
                 (set_nodes (upd (nodes s) (registeredCount s) (sender t)) (set_balance (balance s + tvalue t) s))))) ->
      s2 = (if is_pre v then s1 else set_pkListOrder (pkListOrder s ++ [sender t]) s1) ->
      ev = (if registeredCount s + 1 =? memberCount s then [RegistrationCompleted (registeredCount s + 1)] else []) ->
      s' = (if is_pre v && (registeredCount s + 1 =? memberCount s) then set_contractPhase Registered s2 else s2) ->
      ev' = ev -> stepR s t s' ev'
  | R_start : what t = StartNidkg -> tvalue t = 0 -> sender t = owner s ->
      contractPhase s = (if is_pre v then Registered else Unregistered) ->
      (is_pre v = false -> registeredCount s = memberCount s) ->
      s' = (set_contractPhase Nidkg s) ->
      ev' = [NidkgStarted] -> stepR s t s' ev'
  | R_pp pp zk s1 s2 ev : what t = SubmitPublicParams pp zk -> tvalue t = 0 ->
      sender t = nodeAddress (addrToNode s (sender t)) -> contractPhase s = Nidkg ->
      statusPP (addrToNode s (sender t)) = false ->
      checkPublicParams s pp = Ok true -> verify_proof E (halo2VerifyingKey s) zk pp = Ok true ->
      0 <= ppSubmissionCount s + 1 < M32 ->
      s1 = set_ppSubmissionCount (ppSubmissionCount s + 1) (set_ppList (ppList s ++ [pp])
             (set_addrToNode (upd (addrToNode s) (sender t)
                   (mkNode (nodeAddress (addrToNode s (sender t))) (status (addrToNode s (sender t)))
                      (deposit (addrToNode s (sender t))) true (pkIndex (addrToNode s (sender t))))) s)) ->
      s2 = (if is_pre v then s1 else set_ppListOrder (ppListOrder s ++ [sender t]) s1) ->
      ev = (if ppSubmissionCount s + 1 =? memberCount s then [NidkgCompleted (ppSubmissionCount s + 1)] else []) ->
      s' = (if ppSubmissionCount s + 1 =? memberCount s then set_contractPhase NidkgComplete s2 else s2) ->
      ev' = ev -> stepR s t s' ev'
  | R_vk gpk gpkRet vk : what t = ComputeVk gpk -> tvalue t = 0 -> contractPhase s = NidkgComplete ->
      create_gpp E (memberCount s) gpk (ppList s) = Ok (gpkRet, vk) ->
      s' = (set_contractPhase Ready (set_gpkVal gpkRet (set_vkList (vkList s ++ vk) s))) ->
      ev' = [GlobalPublicParamsCreated] -> stepR s t s' ev'
  | R_init s1 s2 : what t = InitiateRandom -> tvalue t = 0 -> sender t = owner s -> contractPhase s = Ready ->
      (currentRoundNum s <> 0 -> rvalue (roundToRandom s (currentRoundNum s)) <> 0) ->
      0 <= currentRoundNum s + 1 < M256 ->
      s1 = set_roundInput (upd (roundInput s) (currentRoundNum s + 1) (INPUT_PREFIX ++ to_dec (currentRoundNum s + 1)))
             (set_currentRoundNum (currentRoundNum s + 1) s) ->
      (if is_pre v then exists h, hash_to_g1 E (INPUT_PREFIX ++ to_dec (currentRoundNum s + 1)) = Ok h /\
                        s2 = set_roundHash (upd (roundHash s) (currentRoundNum s + 1) h) s1
       else s2 = s1) ->
      s' = s2 ->
      ev' = [RandomInitiated (currentRoundNum s + 1) (INPUT_PREFIX ++ to_dec (currentRoundNum s + 1))] -> stepR s t s' ev'
  | R_eval e vk ev : what t = SubmitPartialEval e -> tvalue t = 0 ->
      sender t = nodeAddress (addrToNode s (sender t)) ->
      rvalue (roundToRandom s (currentRoundNum s)) = 0 ->
      lastSubmittedRound s (sender t) < currentRoundNum s ->
      0 <= pkIndex (addrToNode s (sender t)) + 1 < M32 ->
      indexPlus e = pkIndex (addrToNode s (sender t)) + 1 ->
      at_ (vkList s) (pkIndex (addrToNode s (sender t))) = Ok vk ->
      (if is_pre v then verify_partial_eval_fast E (roundHash s (currentRoundNum s)) (evalue e) (proof_z e) (proof_c e) vk
       else verify_partial_eval E (roundInput s (currentRoundNum s)) (evalue e) (proof_z e) (proof_c e) vk) = Ok true ->
      0 <= roundSubmissionCount s (currentRoundNum s) + 1 < M32 ->
      ev = (if roundSubmissionCount s (currentRoundNum s) + 1 =? threshold s
            then [RandomThresholdReached (currentRoundNum s) (roundInput s (currentRoundNum s))] else []) ->
      s' = (set_roundSubmissionCount (upd (roundSubmissionCount s) (currentRoundNum s) (roundSubmissionCount s (currentRoundNum s) + 1))
                 (set_roundToEval (upd (roundToEval s) (currentRoundNum s)
                                    (upd (roundToEval s (currentRoundNum s)) (pkIndex (addrToNode s (sender t))) e))
                 (set_lastSubmittedRound (upd (lastSubmittedRound s) (sender t) (currentRoundNum s)) s))) ->
      ev' = ev -> stepR s t s' ev'
  | R_rand p : what t = SubmitRandom p -> tvalue t = 0 -> sender t = owner s ->
      rvalue (roundToRandom s (currentRoundNum s)) = 0 ->
      (is_pre v = true -> threshold s <= roundSubmissionCount s (currentRoundNum s)) ->
      (if is_pre v then verify_pseudo_rand_fast E (roundHash s (currentRoundNum s)) (rproof p) (gpkVal s)
       else verify_pseudo_rand E (roundInput s (currentRoundNum s)) (rproof p) (gpkVal s)) = Ok true ->
      rvalue p = keccak E (word (fst (rproof p)) ++ word (snd (rproof p))) ->
      s' = (set_roundToRandom (upd (roundToRandom s) (currentRoundNum s) p) s) ->
      ev' = [RandomReady (currentRoundNum s) (roundInput s (currentRoundNum s))] -> stepR s t s' ev'
  | R_transfer a : what t = TransferOwnership a -> tvalue t = 0 -> sender t = owner s -> a <> 0 ->
      s' = (set_owner a s) ->
      ev' = [OwnershipTransferred (owner s) a] -> stepR s t s' ev'
  | R_renounce : what t = RenounceOwnership -> tvalue t = 0 -> sender t = owner s ->
      s' = (set_owner 0 s) ->
      ev' = [OwnershipTransferred (owner s) 0] -> stepR s t s' ev'
  | R_force : what t = ForceEther -> s' = set_balance (balance s + tvalue t) s -> ev' = [] -> stepR s t s' ev'.

  Lemma st_eta s : set_balance (balance s + 0) s = s.
  Proof. rewrite Z.add_0_r. destruct s; reflexivity. Qed.
  Lemma chk_ok m x y : chk m x = Ok y -> y = x /\ 0 <= x < m.
  Proof.
    unfold chk. destruct ((0 <=? x) && (x <? m)) eqn:H; [|discriminate]. intros E1; inversion E1; subst.
    apply andb_prop in H as [H1 H2]. split; auto. lia.
  Qed.
  Lemma phase_eqb_eq a b : phase_eqb a b = true -> a = b.
  Proof. destruct a, b; cbn; congruence. Qed.

  Local Opaque to_dec INPUT_PREFIX.
  Ltac inv1 H :=
    lazymatch type of H with
    | bind ?r _ = Ok _ => let x := fresh "x" in let Hx := fresh "Hx" in
        apply bind_ok in H; destruct H as (x & Hx & H)
    end.
  Ltac boolz :=
    repeat match goal with
    | H : require _ _ = Ok _ |- _ => apply require_ok in H
    | H : (_ =? _) = true |- _ => apply Z.eqb_eq in H
    | H : (_ <? _) = true |- _ => apply Z.ltb_lt in H
    | H : (_ <=? _) = true |- _ => apply Z.leb_le in H
    | H : negb _ = true |- _ => apply negb_true_iff in H
    | H : (_ =? _) = false |- _ => apply Z.eqb_neq in H
    | H : phase_eqb _ _ = true |- _ => apply phase_eqb_eq in H
    | H : add32 _ _ = Ok _ |- _ => apply chk_ok in H; destruct H as [-> H]
    | H : add256 _ _ = Ok _ |- _ => apply chk_ok in H; destruct H as [-> H]
    | x : unit |- _ => destruct x
    end.
  Ltac inv H := repeat inv1 H; boolz.

  Lemma apply_ok s t s' ev : apply v E s t = Ok (s', ev) -> tx_ok t = true /\ stepR s t s' ev.
  Proof.
    unfold apply. intros H. apply bind_ok in H as ([] & Ht & H). apply require_ok in Ht. split; [exact Ht|].
    apply bind_ok in H as ([] & Hp & H). apply require_ok in Hp. unfold dispatch in H.
    destruct (what t) as [a|pk| |pp zk|gpk| |e|p|a| |] eqn:W; cbn [payable orb] in Hp;
      try (apply Z.eqb_eq in Hp; rewrite Hp, st_eta in H).
    - unfold addPermissionedNodes, onlyOwner in H. inv H. injection H as <- <-. cbn in *. eapply R_add; eauto.
    - clear Hp. unfold registerNode in H. destruct v eqn:V; cbn [is_pre] in H; inv H; cbn -[M32 M256] in * |-;
        destruct (registeredCount s + 1 =? memberCount s) eqn:C; injection H as <- <-;
        (eapply (R_reg s t _ _ pk); try reflexivity; eauto; rewrite ?V, ?C; reflexivity).
    - unfold startNidkg, onlyOwner in H. destruct v eqn:V; cbn [is_pre] in H; inv H; cbn -[M32 M256] in * |-;
        injection H as <- <-; inv Hx0; (eapply R_start; eauto; rewrite ?V; cbn; try reflexivity; auto). discriminate.
    - unfold submitPublicParams in H. destruct v eqn:V; cbn [is_pre] in H; inv H; cbn -[M32 M256] in * |-; subst;
        destruct (ppSubmissionCount s + 1 =? memberCount s) eqn:C; injection H as <- <-;
        (eapply (R_pp s t _ _ pp zk); try reflexivity; eauto; rewrite ?V, ?C; reflexivity).
    - unfold computeVk in H. inv H. destruct x0 as [gr vk]. injection H as <- <-. eapply R_vk; eauto.
    - unfold initiateRandom, onlyOwner in H. inv H.
      assert (G : currentRoundNum s <> 0 -> rvalue (roundToRandom s (currentRoundNum s)) <> 0).
      { intros N. destruct (Z.eqb_spec (currentRoundNum s) 0); [contradiction|]. boolz. auto. }
      destruct v eqn:V; cbn [is_pre] in *; inv Hx3; injection H as <- <-; injection Hx3 as <-; cbn -[M256 to_dec INPUT_PREFIX] in *;
        (eapply R_init; eauto; rewrite ?V; cbn -[to_dec INPUT_PREFIX]; rewrite ?upd_same; eauto).
    - unfold submitPartialEval in H. inv H. cbn -[M32 M256] in * |-. subst.
      eapply (R_eval s t _ _ e); eauto.
      + destruct (roundSubmissionCount s (currentRoundNum s) + 1 =? threshold s); injection H as <- <-; reflexivity.
      + destruct (roundSubmissionCount s (currentRoundNum s) + 1 =? threshold s); injection H as <- <-; reflexivity.
    - unfold submitRandom, onlyOwner in H. inv H. subst. injection H as <- <-. eapply R_rand; eauto.
      intros P. rewrite P in Hx1. boolz. auto.
    - unfold transferOwnership, onlyOwner in H. inv H. injection H as <- <-. eapply R_transfer; eauto.
    - unfold renounceOwnership, onlyOwner in H. inv H. injection H as <- <-. eapply R_renounce; eauto.
    - injection H as <- <-. eapply R_force; eauto.
  Qed.
End Step.
