(** Consequences used by the property file. *)
From Coq Require Import ZArith String List Bool Lia.
From Verif.Model Require Import Monad Evm Strings Zkdvrf.
From Verif.Spec Require Import Histories.
From Verif.Proofs Require Import ZkdvrfStep ZkdvrfInv1 ZkdvrfInv2 ZkdvrfInv3 DecimalProofs.
Import ListNotations.
Open Scope Z_scope.

Section T.
  Variable v : variant.
  Variable E : env.

  Lemma exec_cases s t : (accepted (mkStep s t (apply v E s t)) = false /\ exec v E s t = s) \/
    (exists s' ev, apply v E s t = Ok (s', ev) /\ exec v E s t = s' /\ tx_ok t = true /\ stepR v E s t s' ev).
  Proof.
    unfold exec, accepted. cbn. destruct (apply v E s t) as [[s' ev]| |] eqn:A; cbn; auto.
    right. destruct (apply_ok _ _ _ _ _ _ A). eauto 8.
  Qed.

  Lemma hist_run c tr s l : hist v E c tr s -> exists tr', hist v E c (tr ++ tr') (run v E s l) /\ map txn tr' = l.
  Proof.
    revert tr s. induction l as [|t l IH]; intros tr s H; cbn.
    - exists []. rewrite app_nil_r. auto.
    - destruct (IH _ _ (hist_tx _ _ _ _ _ t H)) as (tr' & H' & M). exists (mkStep s t (apply v E s t) :: tr').
      rewrite <- app_assoc in H'. cbn in *. rewrite M. auto.
  Qed.

  Ltac cs R := destruct R as [a W|pk s1 s2 ev0 W|W|pp zk s1 s2 ev0 W|gpk gr vk W|s1 s2 W|e vk ev0 W|p W|a W|W|W]; subst.
  Ltac ifs := repeat match goal with |- context [if ?b then _ else _] => destruct b end.
  Ltac initc := match goal with H : (if is_pre v then _ else _) |- _ => destruct (is_pre v); [destruct H as (? & ? & ?)|]; subst end.

  Lemma random_once s t k : rvalue (roundToRandom s k) <> 0 -> roundToRandom (exec v E s t) k = roundToRandom s k.
  Proof.
    intros N. destruct (exec_cases s t) as [[_ ->]|(s' & ev & _ & -> & _ & R)]; auto.
    cs R; ifs; cbn; auto; try (initc; reflexivity). rewrite upd_other; auto. intros ->. contradiction.
  Qed.
  Lemma random_once_run s l k : rvalue (roundToRandom s k) <> 0 -> roundToRandom (run v E s l) k = roundToRandom s k.
  Proof.
    revert s. induction l as [|t l IH]; intros s N; cbn; auto. pose proof (random_once s t k N) as H.
    rewrite IH; rewrite H; auto.
  Qed.
  Lemma phase_mono s t : phase_rank (contractPhase s) <= phase_rank (contractPhase (exec v E s t)).
  Proof.
    destruct (exec_cases s t) as [[_ ->]|(s' & ev & _ & -> & _ & R)]; [lia|].
    cs R; ifs; cbn; try lia; try (initc; cbn; lia);
    match goal with H : contractPhase s = _ |- _ => rewrite H; cbn; lia | _ => idtac end.
    destruct (is_pre v); rewrite H1; cbn; lia.
  Qed.
  Lemma ready_frozen s t : contractPhase s = Ready ->
    contractPhase (exec v E s t) = Ready /\ vkList (exec v E s t) = vkList s /\ gpkVal (exec v E s t) = gpkVal s /\
    pkList (exec v E s t) = pkList s /\ ppList (exec v E s t) = ppList s.
  Proof.
    intros P. destruct (exec_cases s t) as [[_ ->]|(s' & ev & _ & -> & _ & R)]; auto.
    cs R; try congruence; ifs; cbn; auto; try (initc; cbn; auto).
    destruct (is_pre v); congruence.
  Qed.
  Lemma ready_frozen_run s l : contractPhase s = Ready ->
    contractPhase (run v E s l) = Ready /\ vkList (run v E s l) = vkList s /\ gpkVal (run v E s l) = gpkVal s /\
    pkList (run v E s l) = pkList s /\ ppList (run v E s l) = ppList s.
  Proof.
    revert s. induction l as [|t l IH]; intros s P; cbn; auto.
    destruct (ready_frozen s t P) as (A1 & A2 & A3 & A4 & A5). rewrite <- A2, <- A3, <- A4, <- A5. auto.
  Qed.
  Lemma balance_mono c tr s t : hist v E c tr s -> balance s <= balance (exec v E s t).
  Proof.
    intros _. destruct (exec_cases s t) as [[_ ->]|(s' & ev & _ & -> & Ht & R)]; [lia|].
    assert (0 <= tvalue t) by (unfold tx_ok, is_u256 in Ht; repeat (apply andb_prop in Ht; destruct Ht as [Ht ?]); lia).
    cs R; ifs; cbn; try lia; initc; cbn; lia.
  Qed.
  Lemma round_step s t : currentRoundNum (exec v E s t) = currentRoundNum s \/
    (currentRoundNum (exec v E s t) = currentRoundNum s + 1 /\ what t = InitiateRandom /\ sender t = owner s /\ contractPhase s = Ready /\
     (currentRoundNum s <> 0 -> rvalue (roundToRandom s (currentRoundNum s)) <> 0)).
  Proof.
    destruct (exec_cases s t) as [[_ ->]|(s' & ev & _ & -> & Ht & R)]; auto.
    cs R; ifs; cbn; auto. right. initc; cbn; auto 10.
  Qed.

  (** the only transactions that change a field *)
  Lemma owner_only s t : sender t <> owner s ->
    let s' := exec v E s t in
    owner s' = owner s /\ currentRoundNum s' = currentRoundNum s /\ currentIndex s' = currentIndex s /\
    (forall a, nodeAddress (addrToNode s' a) = nodeAddress (addrToNode s a)) /\
    roundToRandom s' = roundToRandom s /\ (contractPhase s' = Nidkg -> contractPhase s = Nidkg).
  Proof.
    intros N s'. unfold s'. destruct (exec_cases s t) as [[_ ->]|(sx & ev & _ & -> & Ht & R)]; auto 10.
    cs R; try contradiction; ifs; cbn; repeat split; auto; try congruence;
      intros; unfold upd; match goal with |- context [if ?b then _ else _] => destruct b eqn:Eb end; auto; apply Z.eqb_eq in Eb; subst; auto.
  Qed.

  Definition owner_call (x : call) : bool :=
    match x with AddPermissionedNodes _ | StartNidkg | InitiateRandom | SubmitRandom _ | TransferOwnership _ | RenounceOwnership => true | _ => false end.
  Definition member_call (x : call) : bool :=
    match x with RegisterNode _ | SubmitPublicParams _ _ | SubmitPartialEval _ => true | _ => false end.
  Lemma owner_call_rejected s t : owner_call (what t) = true -> sender t <> owner s -> is_ok (apply v E s t) = false.
  Proof.
    intros O N. destruct (apply v E s t) as [[s' ev]| |] eqn:A; auto. destruct (apply_ok _ _ _ _ _ _ A) as [_ R].
    cs R; try contradiction; rewrite W in O; discriminate.
  Qed.
  Lemma member_call_rejected c tr s t : hist v E c tr s -> member_call (what t) = true -> ~ In (sender t) (added tr) -> is_ok (apply v E s t) = false.
  Proof.
    intros Hh O N. destruct (apply v E s t) as [[s' ev]| |] eqn:A; auto. destruct (apply_ok _ _ _ _ _ _ A) as [Ht R].
    exfalso. apply N. eapply sender_member; eauto.
    cs R; rewrite W in O; try discriminate; auto.
  Qed.
End T.

(** the key check accepts exactly the vectors ending with the key list *)
Lemma check_keys_ok f : forall pp pkl i j, (Z.of_nat (length pp) < M256) -> 0 <= i -> 0 <= j ->
  i + Z.of_nat f = Z.of_nat (length pkl) -> j + 2 * Z.of_nat f = Z.of_nat (length pp) ->
  check_keys f pp pkl i j = Ok true <-> skipn (Z.to_nat j) pp = flat (skipn (Z.to_nat i) pkl).
Proof.
  induction f as [|f IH]; intros pp pkl i j Hm Hi Hj Hf Hl.
  - cbn. rewrite !skipn_all2 by lia. tauto.
  - cbn [check_keys].
    destruct (znth_some pkl i ltac:(lia)) as [p Hp]. destruct (znth_some pp j ltac:(lia)) as [a Ha].
    destruct (znth_some pp (j + 1) ltac:(lia)) as [b Hb].
    assert (S1 : skipn (Z.to_nat i) pkl = p :: skipn (Z.to_nat (i + 1)) pkl).
    { unfold znth in Hp. destruct (i <? 0); [discriminate|]. replace (Z.to_nat (i + 1)) with (S (Z.to_nat i)) by lia.
      clear -Hp. revert Hp. generalize (Z.to_nat i). induction pkl as [|x l IH]; intros [|n]; cbn; try discriminate.
      - intros E; inversion E; auto. - intros; apply IH; auto. }
    assert (S2 : skipn (Z.to_nat j) pp = a :: b :: skipn (Z.to_nat (j + 2)) pp).
    { unfold znth in Ha, Hb. destruct (Z.ltb_spec j 0); [lia|]. destruct (Z.ltb_spec (j + 1) 0); [lia|].
      replace (Z.to_nat (j + 2)) with (S (S (Z.to_nat j))) by lia. replace (Z.to_nat (j + 1)) with (S (Z.to_nat j)) in Hb by lia.
      clear -Ha Hb. revert Ha Hb. generalize (Z.to_nat j). intros n. revert n. induction pp as [|x l IH]; intros [|n]; cbn; try discriminate.
      - intros E F. inversion E; subst. destruct l; [discriminate|]. cbn in F. inversion F. auto.
      - intros; apply IH; auto. }
    assert (Ra : at_ pp j = Ok a) by (apply at_ok; auto). assert (Rp : at_ pkl i = Ok p) by (apply at_ok; auto).
    assert (Rb : at_ pp (j + 1) = Ok b) by (apply at_ok; auto).
    rewrite Ra. cbn [bind]. rewrite Rp. cbn [bind].
    assert (C1 : add256 j 1 = Ok (j + 1)).
    { unfold add256, chk. destruct (Z.leb_spec 0 (j + 1)), (Z.ltb_spec (j + 1) M256); auto; lia. }
    assert (C2 : add256 j 2 = Ok (j + 2)).
    { unfold add256, chk. destruct (Z.leb_spec 0 (j + 2)), (Z.ltb_spec (j + 2) M256); auto; lia. }
    rewrite S1, S2. change (flat (p :: skipn (Z.to_nat (i + 1)) pkl)) with (fst p :: snd p :: flat (skipn (Z.to_nat (i + 1)) pkl)).
    destruct (Z.eqb_spec a (fst p)) as [->|Na]; cbn [require bind].
    + rewrite C1. cbn [bind]. rewrite Rb. cbn [bind]. destruct (Z.eqb_spec b (snd p)) as [->|Nb]; cbn [require bind negb orb].
      * rewrite C2. cbn [bind]. rewrite (IH pp pkl (i + 1) (j + 2)) by lia. split; [intros ->; auto|intros F; inversion F; auto].
      * split; [discriminate|]. intros F; inversion F; contradiction.
    + split; [discriminate|]. intros F; inversion F; contradiction.
Qed.
Lemma checkPublicParams_ok c s pp : Inv0 c s ->
  checkPublicParams s pp = Ok true <->
  Z.of_nat (length (pkList s)) = c_number c /\ Z.of_nat (length pp) = 7 * c_number c + 14 /\
  skipn (Z.to_nat (5 * c_number c + 14)) pp = flat (pkList s).
Proof.
  intros [C1 C2 C3 C4 C5 C6 C7]. unfold checkPublicParams. rewrite C1, C4.
  pose proof M32_M256.
  destruct (Z.eqb_spec (Z.of_nat (length (pkList s))) (c_number c)) as [E1|N1]; cbn [require bind]; [|split; [discriminate|tauto]].
  destruct (Z.eqb_spec (Z.of_nat (length pp)) (7 * c_number c + 14)) as [E2|N2]; cbn [require bind]; [|split; [discriminate|tauto]].
  assert (M1 : mul32 2 (c_number c) = Ok (2 * c_number c)).
  { unfold mul32, chk. destruct (Z.leb_spec 0 (2 * c_number c)), (Z.ltb_spec (2 * c_number c) M32); auto; lia. }
  assert (M2 : sub256 (Z.of_nat (length pp)) (2 * c_number c) = Ok (5 * c_number c + 14)).
  { unfold sub256, chk. destruct (Z.leb_spec 0 (Z.of_nat (length pp) - 2 * c_number c)), (Z.ltb_spec (Z.of_nat (length pp) - 2 * c_number c) M256); auto; try lia.
    cbn [andb]. f_equal. lia. }
  rewrite M1. cbn [bind]. rewrite M2. cbn [bind]. rewrite check_keys_ok by lia.
  change (skipn (Z.to_nat 0) (pkList s)) with (pkList s). tauto.
Qed.
