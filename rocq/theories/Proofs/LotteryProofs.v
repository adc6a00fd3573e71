(** Invariants of the lottery, including the re-entrant states inside pickWinner. *)
From Coq Require Import ZArith String List Bool Lia Permutation.
From Verif.Model Require Import Monad Evm Zkdvrf Lottery.
From Verif.Spec Require Import Histories LotterySpec.
From Verif.Proofs Require Import ZkdvrfStep ZkdvrfInv1 ZkdvrfInv2 ZkdvrfInv3 ZkdvrfThms ShuffleProofs.
Import ListNotations.
Open Scope Z_scope.

(** induction over call trees *)
Section ActInd.
  Variable P : act -> Prop.
  Hypothesis HZ : forall t, P (ZkTx t).
  Hypothesis HS : forall b r m, P (Setup b r m).
  Hypothesis HE : forall b x, P (Enter b x).
  Hypothesis HP : forall b calls acc, Forall P calls -> P (PickWinner b calls acc).
  Hypothesis HT : forall b a, P (LTransferOwnership b a).
  Hypothesis HR : forall b, P (LRenounceOwnership b).
  Hypothesis HF : forall x, P (LForceEther x).
  Fixpoint act_ind' (a : act) : P a :=
    match a with
    | ZkTx t => HZ t | Setup b r m => HS b r m | Enter b x => HE b x
    | PickWinner b calls acc => HP b calls acc
        ((fix go (l : list act) : Forall P l := match l with [] => Forall_nil P | a :: r => Forall_cons a (act_ind' a) (go r) end) calls)
    | LTransferOwnership b a => HT b a | LRenounceOwnership b => HR b | LForceEther x => HF x
    end.
End ActInd.

Lemma zsum_app a b : zsum (a ++ b) = zsum a + zsum b.
Proof. induction a as [|x a IH]; cbn; [auto|]. unfold zsum in *. lia. Qed.
Lemma entrants_app a b : entrants (a ++ b) = entrants a ++ entrants b. Proof. apply flat_map_app. Qed.
Lemma payments_app a b : payments (a ++ b) = payments a ++ payments b. Proof. apply flat_map_app. Qed.
Lemma bets_app a b : bets (a ++ b) = bets a + bets b. Proof. unfold bets. rewrite flat_map_app. apply zsum_app. Qed.
Lemma forced_app a b : forced_in (a ++ b) = forced_in a + forced_in b. Proof. unfold forced_in. rewrite flat_map_app. apply zsum_app. Qed.
Lemma paid_app a b : paid (a ++ b) = paid a + paid b. Proof. unfold paid. rewrite payments_app, map_app. apply zsum_app. Qed.

Lemma lphase_eqb_eq a b : lphase_eqb a b = true <-> a = b.
Proof. destruct a, b; cbn; split; congruence. Qed.

Section Lot.
  Variable v : variant.
  Variable E : env.
  Variable c : cfg.
  Notation perform := (perform v E).
  Notation perform_all := (perform_all v E).

  Lemma perform_pick b calls acc w : perform (PickWinner b calls acc) w =
    (let* _ := from_ok b in
     let* (w1, winner, amount) := pick_begin E w b in
     let '(w2, g) := perform_all calls w1 in
     let* w3 := pick_end w2 acc in Ok (w3, Paid winner amount :: g)).
  Proof. reflexivity. Qed.

  Lemma pick_index_le rv i : (pick_index E rv i <= i)%nat.
  Proof. unfold pick_index. pose proof (Z.mod_pos_bound (keccak E (word rv ++ word (Z.of_nat i))) (Z.of_nat i + 1) ltac:(lia)). lia. Qed.

  (** holds in every state, also during the callback *)
  Record LInv (G : list lev) (w : world) : Prop := {
    i_zk : exists tr, hist v E c tr (zk w);
    i_perm : Permutation (players (lot w)) (entrants G);
    i_nd : NoDup (entrants G);
    i_has : forall a, hasEntered (lot w) a = true <-> In a (entrants G);
    i_bal : lbalance (lot w) = bets G + forced_in G - paid G;
    i_setup : lphase_of (lot w) = LSetup -> entrants G = [] /\ payments G = [];
    i_min : forall a x k, In (Entered a x k) G -> minBet (lot w) <= x /\ k < randRoundNum (lot w) /\ a <> 0;
    i_paid : payments G <> [] -> rvalue (roundToRandom (zk w) (randRoundNum (lot w))) <> 0;
    i_close : lphase_of (lot w) = LClose -> payments G <> [];
    i_split : forall G1 a x G2, G = G1 ++ Paid a x :: G2 ->
        entrants G2 = [] /\ In a (entrants G1) /\ x = bets G1 + forced_in G1 - paid G1 /\ 0 <= x }.

  Lemma split_snoc {A} (G : list A) e G1 y G2 : G ++ [e] = G1 ++ y :: G2 ->
    (G1 = G /\ y = e /\ G2 = []) \/ exists G2', G2 = G2' ++ [e] /\ G = G1 ++ y :: G2'.
  Proof.
    intros H. destruct G2 as [|z G2 _] using rev_ind.
    - left. apply app_inj_tail in H. intuition congruence.
    - right. exists G2. replace (G1 ++ y :: G2 ++ [z]) with ((G1 ++ y :: G2) ++ [z]) in H by (rewrite <- app_assoc; auto).
      apply app_inj_tail in H as [-> ->]. auto.
  Qed.

  Lemma random_round tr s k : hist v E c tr s -> rvalue (roundToRandom s k) <> 0 -> k <= currentRoundNum s.
  Proof.
    intros H R. pose proof (inv3 _ _ _ _ _ H) as M. apply (r_range _ _ _ _ _ M). intros Z0.
    rewrite (r_last _ _ _ _ _ M), Z0 in R. apply R. reflexivity.
  Qed.

  Lemma zk_exec s t s' ev : apply v E s t = Ok (s', ev) -> exec v E s t = s'.
  Proof. unfold exec. intros ->. auto. Qed.

  Ltac inv H := inversion H; subst; clear H.

  (** nothing in the lottery depends on the part of the world a zkdvrf transaction touches, except what only grows *)
  Lemma LInv_zk G w t s' ev : LInv G w -> apply v E (zk w) t = Ok (s', ev) -> LInv G (mkW s' (lot w)).
  Proof.
    intros I H. pose proof (zk_exec _ _ _ _ H) as X. destruct I. constructor; cbn; auto.
    - destruct i_zk0 as [tr Ht]. rewrite <- X. eexists. apply hist_tx. exact Ht.
    - intros Hp. rewrite <- X. rewrite (random_once v E); auto.
  Qed.

  (** balance is never negative *)
  Definition nonneg (w : world) : Prop := 0 <= lbalance (lot w) /\ 0 <= minBet (lot w).

  Definition good (a : act) : Prop := forall G w w' g, LInv G w -> nonneg w -> perform a w = Ok (w', g) ->
    LInv (G ++ g) w' /\ nonneg w' /\ (lphase_of (lot w) = LOpen -> lphase_of (lot w') <> LSetup) /\
    (lphase_of (lot w) <> LSetup -> randRoundNum (lot w') = randRoundNum (lot w) /\ minBet (lot w') = minBet (lot w)).

  Lemma good_all l : Forall good l -> forall G w, LInv G w -> nonneg w ->
    LInv (G ++ snd (perform_all l w)) (fst (perform_all l w)) /\ nonneg (fst (perform_all l w)) /\
    (lphase_of (lot w) <> LSetup -> lphase_of (lot (fst (perform_all l w))) <> LSetup /\
       randRoundNum (lot (fst (perform_all l w))) = randRoundNum (lot w) /\ minBet (lot (fst (perform_all l w))) = minBet (lot w)).
  Proof.
    induction 1 as [|a l Ha Hl IH]; intros G w I N; cbn [perform_all].
    - cbn. rewrite app_nil_r. auto.
    - destruct (Lottery.perform v E a w) as [[w1 g]| |] eqn:P; auto.
      destruct (Ha _ _ _ _ I N P) as (I1 & N1 & P1 & R1). specialize (IH _ _ I1 N1).
      destruct (perform_all l w1) as [w2 g2]. cbn [fst snd] in *. rewrite app_assoc. destruct IH as (A & B & C).
      split; auto. split; auto. intros Hs. destruct (R1 Hs) as [R2 R3].
      assert (Hs1 : lphase_of (lot w1) <> LSetup).
      { destruct (lphase_of (lot w)) eqn:Ph; [congruence|auto|].
        destruct I1. intros Z0. destruct (i_setup0 Z0) as [_ Z1]. rewrite payments_app in Z1. apply app_eq_nil in Z1 as [Z1 _].
        destruct I. apply i_close1; auto. }
      destruct (C Hs1) as (C1 & C2 & C3). rewrite C2, C3. auto.
  Qed.

  Lemma good_pick b calls acc : Forall good calls -> good (PickWinner b calls acc).
  Proof.
    intros Hc G w w' g I N H. rewrite perform_pick in H. apply bind_ok in H as (u0 & _ & H).
    apply bind_ok in H as ([[w1 winner] amount] & Hb & H).
    unfold pick_begin in Hb. apply bind_ok in Hb as (u1 & Q1 & Hb). apply bind_ok in Hb as (u2 & Q2 & Hb). apply bind_ok in Hb as (u3 & Q3 & Hb).
    apply bind_ok in Hb as (rnd & Q4 & Hb). apply bind_ok in Hb as (u5 & Q5 & Hb).
    apply require_ok in Q1, Q2, Q3, Q5. apply lphase_eqb_eq in Q2. apply Z.ltb_lt in Q3. apply negb_true_iff, Z.eqb_neq in Q5.
    unfold getRandomAtRound in Q4. destruct (Z.eqb_spec (rvalue (roundToRandom (zk w) (randRoundNum (lot w)))) 0) as [|Hr]; cbn in Q4; [discriminate|].
    inversion Q4; subst rnd; clear Q4.
    set (rv := rvalue (roundToRandom (zk w) (randRoundNum (lot w)))) in *.
    set (ps := fisher_yates (pick_index E rv) (players (lot w))) in *.
    assert (Eb : w1 = mkW (zk w) (mkL (l_owner (lot w)) ps (hasEntered (lot w)) (minBet (lot w)) (randRoundNum (lot w)) rv (lphase_of (lot w)) 0)
      /\ winner = hd 0 ps /\ amount = lbalance (lot w)) by (inversion Hb; auto). clear Hb. destruct Eb as (-> & -> & ->).
    assert (Hps : Permutation (players (lot w)) ps) by (apply fisher_yates_perm; intros; apply pick_index_le).
    assert (I1 : LInv (G ++ [Paid (hd 0 ps) (lbalance (lot w))]) (mkW (zk w) (mkL (l_owner (lot w)) ps (hasEntered (lot w)) (minBet (lot w)) (randRoundNum (lot w)) rv (lphase_of (lot w)) 0))).
    { destruct I. constructor; cbn; auto; rewrite ?entrants_app, ?payments_app, ?bets_app, ?forced_app, ?paid_app; cbn; rewrite ?app_nil_r; auto.
      - rewrite <- Hps. auto.
      - unfold bets, forced_in, paid; cbn. unfold bets, forced_in, paid in i_bal0. lia.
      - rewrite Q2. discriminate.
      - intros a x k Hi. apply in_app_iff in Hi as [Hi|[Hi|[]]]; [eauto|discriminate].
      - rewrite Q2. discriminate.
      - intros G1 a x G2 Hs. apply split_snoc in Hs as [(-> & Y & ->)|(G2' & -> & Hs)].
        + inversion Y; subst. cbn. split; auto. split; [|split; [auto|apply N]].
          eapply Permutation_in; [exact i_perm0|]. eapply Permutation_in; [symmetry; exact Hps|].
          apply Permutation_length in Hps. destruct ps; [cbn in Hps; lia|left; auto].
        + destruct (i_split0 _ _ _ _ Hs) as (A & B & C & D). rewrite entrants_app. cbn. rewrite A. auto. }
    set (w1 := mkW (zk w) _) in *.
    assert (N1 : nonneg w1) by (split; cbn; [lia|apply N]).
    destruct (good_all calls Hc _ _ I1 N1) as (I2 & N2 & P2).
    destruct (perform_all calls w1) as [w2 g2]. cbn [fst snd] in *.
    assert (Hw1 : lphase_of (lot w1) <> LSetup) by (cbn; rewrite Q2; discriminate).
    destruct (P2 Hw1) as (A & B & C).
    unfold pick_end in H. apply bind_ok in H as (w3 & H3 & H). apply bind_ok in H3 as (u6 & Q6 & H3). inv H3. inv H.
    rewrite <- app_assoc in I2. cbn in I2. split; [|split; [|split]]; cbn; auto; try discriminate.
    destruct I2. constructor; cbn; auto.
    - discriminate.
    - intros _. rewrite payments_app. cbn. intros Z0. apply app_eq_nil in Z0 as [_ Z0]. discriminate.
  Qed.

  Lemma all_good a : good a.
  Proof.
    induction a using act_ind'; [| | |apply good_pick; auto| | |]; intros G w w' g I N H; cbn [Lottery.perform] in H.
    - apply bind_ok in H as ([s' ev] & H1 & H). inv H. rewrite app_nil_r. split; [eapply LInv_zk; eauto|]. split; auto.
      split; [cbn; congruence|auto].
    - apply bind_ok in H as (u0 & _ & H). apply bind_ok in H as (u1 & Q1 & H). apply require_ok in Q1. apply andb_prop in Q1 as [Q1 Q1'].
      unfold setup in H. apply bind_ok in H as (u2 & Q2 & H). apply bind_ok in H as (u3 & Q3 & H). inv H.
      apply require_ok in Q3. apply lphase_eqb_eq in Q3. rewrite app_nil_r.
      assert (0 <= m) by (unfold is_u256 in Q1'; apply andb_prop in Q1' as [Q _]; apply Z.leb_le in Q; auto).
      split; [|split; [split; cbn; [apply N|auto]|split; cbn; congruence]].
      destruct I. destruct (i_setup0 Q3) as [Z1 Z2]. constructor; cbn; auto; try congruence; try discriminate.
      intros a x k Hi. exfalso. assert (Y : In a (entrants G)) by (apply in_flat_map; exists (Entered a x k); split; [auto|left; auto]).
      rewrite Z1 in Y. contradiction.
    - apply bind_ok in H as (u0 & Q0 & H). apply bind_ok in H as (u1 & Q1 & H).
      unfold enter in H. apply bind_ok in H as (u2 & Q2 & H). apply bind_ok in H as (u3 & Q3 & H). apply bind_ok in H as (u4 & Q4 & H).
      apply bind_ok in H as (u5 & Q5 & H). inv H.
      unfold from_ok in Q0. apply require_ok in Q0, Q1, Q2, Q3, Q4, Q5. apply lphase_eqb_eq in Q2. apply negb_true_iff in Q3, Q4. apply Z.leb_le in Q5.
      apply andb_prop in Q0 as [_ Q0]. apply negb_true_iff, Z.eqb_neq in Q0.
      unfold roundReached in Q3. apply Z.leb_gt in Q3.
      assert (0 <= x) by (unfold is_u256 in Q1; apply andb_prop in Q1 as [Q _]; apply Z.leb_le in Q; auto).
      split; [|split; [split; cbn; [destruct N; lia|apply N]|split; cbn; [congruence|auto]]].
      destruct I.
      assert (Hnp : payments G = []).
      { destruct (payments G) eqn:Pg; auto. exfalso. destruct i_zk0 as [tr Ht].
        assert (R : rvalue (roundToRandom (zk w) (randRoundNum (lot w))) <> 0) by (apply i_paid0; discriminate).
        pose proof (random_round _ _ _ Ht R). lia. }
      assert (Hni : ~ In b (entrants G)) by (intros Y; apply i_has0 in Y; congruence).
      constructor; cbn; auto; rewrite ?entrants_app, ?payments_app, ?bets_app, ?forced_app, ?paid_app; cbn; rewrite ?app_nil_r; auto.
      + apply Permutation_app; auto.
      + eapply Permutation_NoDup; [apply Permutation_cons_append|]. constructor; auto.
      + intros a. unfold upd. rewrite in_app_iff. destruct (Z.eqb_spec a b) as [->|Hab]; [intuition (cbn; auto)|].
        rewrite i_has0. cbn. intuition congruence.
      + unfold bets, forced_in, paid; cbn. unfold bets, forced_in, paid in i_bal0. rewrite Hnp in *. cbn in *. lia.
      + congruence.
      + intros a y k Hi. apply in_app_iff in Hi as [Hi|[Hi|[]]]; [eauto|]. inv Hi. auto.
      + intros G1 a y G2 Hs. apply split_snoc in Hs as [(-> & Y & ->)|(G2' & -> & Hs)]; [discriminate|].
        exfalso. rewrite Hs, payments_app in Hnp. cbn in Hnp. apply app_eq_nil in Hnp as [_ Hnp]. discriminate.
    - apply bind_ok in H as (u0 & _ & H). apply bind_ok in H as (u1 & _ & H). apply bind_ok in H as (u2 & _ & H). inv H. rewrite app_nil_r.
      split; [destruct I; constructor; cbn; auto|]. split; auto. split; cbn; [congruence|auto].
    - apply bind_ok in H as (u0 & _ & H). apply bind_ok in H as (u1 & _ & H). inv H. rewrite app_nil_r.
      split; [destruct I; constructor; cbn; auto|]. split; auto. split; cbn; [congruence|auto].
    - apply bind_ok in H as (u1 & Q1 & H). inv H. apply require_ok in Q1.
      assert (0 <= x) by (unfold is_u256 in Q1; apply andb_prop in Q1 as [Q _]; apply Z.leb_le in Q; auto).
      split; [|split; [split; cbn; [destruct N; lia|apply N]|split; cbn; [congruence|auto]]].
      destruct I. constructor; cbn; auto; rewrite ?entrants_app, ?payments_app, ?bets_app, ?forced_app, ?paid_app; cbn; rewrite ?app_nil_r; auto.
      + unfold bets, forced_in, paid; cbn. unfold bets, forced_in, paid in i_bal0. lia.
      + intros a y k Hi. apply in_app_iff in Hi as [Hi|[Hi|[]]]; [eauto|]. discriminate.
      + intros G1 a y G2 Hs. apply split_snoc in Hs as [(-> & Y & ->)|(G2' & -> & Hs)]; [discriminate|].
        destruct (i_split0 _ _ _ _ Hs) as (A & B & C & D). rewrite entrants_app. cbn. rewrite A. auto.
  Qed.

  Lemma good_Forall l : Forall (good) l.
  Proof. apply Forall_forall. intros a _. apply all_good. Qed.

  Lemma perform_all_app l1 : forall l2 w, perform_all (l1 ++ l2) w =
    (fst (perform_all l2 (fst (perform_all l1 w))), snd (perform_all l1 w) ++ snd (perform_all l2 (fst (perform_all l1 w)))).
  Proof.
    induction l1 as [|a l1 IH]; intros l2 w; cbn [Lottery.perform_all app].
    - cbn. destruct (perform_all l2 w); auto.
    - destruct (Lottery.perform v E a w) as [[w1 g]| |]; auto. rewrite IH. destruct (perform_all l1 w1) as [w2 g2]. cbn [fst snd].
      rewrite app_assoc. auto.
  Qed.

  Lemma LInv_init tr s d : hist v E c tr s -> LInv [] (mkW s (lconstruct d)) /\ nonneg (mkW s (lconstruct d)).
  Proof.
    intros H. split; [|split; cbn; lia]. constructor; cbn; try (solve [eauto | discriminate | constructor | congruence]).
    - intros a. split; [discriminate|contradiction].
    - intros a x k [].
    - intros G1 a x G2 Hs. destruct G1; discriminate.
  Qed.

  (** top level *)
  Lemma pick_ok b calls acc w w' g : perform (PickWinner b calls acc) w = Ok (w', g) ->
    b = l_owner (lot w) /\ lphase_of (lot w) = LOpen /\ players (lot w) <> [] /\ acc = true /\ lphase_of (lot w') = LClose /\
    exists p g', getRandomAtRound (zk w) (randRoundNum (lot w)) = Ok p /\
      g = Paid (hd 0 (fisher_yates (pick_index E (rvalue p)) (players (lot w)))) (lbalance (lot w)) :: g' /\
      exists w1, g' = snd (perform_all calls w1).
  Proof.
    intros H. rewrite perform_pick in H. apply bind_ok in H as (u0 & _ & H).
    apply bind_ok in H as ([[w1 winner] amount] & Hb & H).
    unfold pick_begin in Hb. apply bind_ok in Hb as (u1 & Q1 & Hb). apply bind_ok in Hb as (u2 & Q2 & Hb). apply bind_ok in Hb as (u3 & Q3 & Hb).
    apply bind_ok in Hb as (rnd & Q4 & Hb). apply bind_ok in Hb as (u5 & Q5 & Hb). inv Hb.
    apply require_ok in Q1, Q2, Q3. apply lphase_eqb_eq in Q2. apply Z.ltb_lt in Q3. apply Z.eqb_eq in Q1.
    destruct (perform_all calls _) as [w2 g2] eqn:Pc. unfold pick_end in H. apply bind_ok in H as (w3 & H3 & H).
    apply bind_ok in H3 as (u6 & Q6 & H3). inv H3. inv H. apply require_ok in Q6.
    repeat split; auto. { intros Z0. rewrite Z0 in Q3. cbn in Q3. lia. }
    exists rnd, g2. repeat split; auto. eexists. rewrite Pc. reflexivity.
  Qed.

  Lemma top_step a w w' g : perform a w = Ok (w', g) ->
    (payments g <> [] -> lphase_of (lot w') = LClose) /\
    (lphase_of (lot w) = LClose -> lphase_of (lot w') = LClose /\ entrants g = [] /\ payments g = []) /\
    (picks_again a = false -> (length (payments g) <= 1)%nat).
  Proof.
    intros H. destruct a as [t|b r m|b x|b calls acc|b a|b|x]; [| | |destruct (pick_ok _ _ _ _ _ _ H) as (_ & Ph & _ & _ & Cl & p & g' & Hr & -> & w1 & ->)| | |];
      [| | | |cbn [Lottery.perform] in H..]; cbn [Lottery.perform] in H.
    - apply bind_ok in H as ([s' ev] & H1 & H). inv H. cbn. repeat split; auto; congruence.
    - apply bind_ok in H as (u0 & _ & H). apply bind_ok in H as (u1 & Q1 & H).
      unfold setup in H. apply bind_ok in H as (u2 & Q2 & H). apply bind_ok in H as (u3 & Q3 & H). inv H.
      apply require_ok in Q3. apply lphase_eqb_eq in Q3. cbn. repeat split; auto; congruence.
    - apply bind_ok in H as (u0 & Q0 & H). apply bind_ok in H as (u1 & Q1 & H).
      unfold enter in H. apply bind_ok in H as (u2 & Q2 & H). apply bind_ok in H as (u3 & Q3 & H). apply bind_ok in H as (u4 & Q4 & H).
      apply bind_ok in H as (u5 & Q5 & H). inv H. apply require_ok in Q2. apply lphase_eqb_eq in Q2. cbn. repeat split; auto; congruence.
    - split; [auto|]. split; [congruence|]. intros Hn. cbn [payments flat_map app length]. fold (payments (snd (perform_all calls w1))).
      cbn in Hn. apply le_n_S. clear -Hn. revert w1. induction calls as [|a l IH]; intros w; cbn [Lottery.perform_all]; [cbn; lia|].
      cbn in Hn. apply orb_false_iff in Hn as [Ha Hn].
      destruct (Lottery.perform v E a w) as [[w1 g]| |] eqn:P; [|apply IH; auto|apply IH; auto].
      specialize (IH Hn w1). destruct (perform_all l w1) as [w2 g2]. cbn [snd] in *. rewrite payments_app, app_length.
      enough (payments g = []) as -> by (cbn; lia).
      destruct a as [t|b r m|b x|b cs acc|b a|b|x]; cbn [Lottery.perform] in P; try discriminate Ha.
      + apply bind_ok in P as ([s' ev] & H1 & P). inv P. auto.
      + apply bind_ok in P as (u0 & _ & P). apply bind_ok in P as (u1 & Q1 & P).
        unfold setup in P. apply bind_ok in P as (u2 & Q2 & P). apply bind_ok in P as (u3 & Q3 & P). inv P. auto.
      + apply bind_ok in P as (u0 & Q0 & P). apply bind_ok in P as (u1 & Q1 & P).
        unfold enter in P. apply bind_ok in P as (u2 & Q2 & P). apply bind_ok in P as (u3 & Q3 & P). apply bind_ok in P as (u4 & Q4 & P).
        apply bind_ok in P as (u5 & Q5 & P). inv P. auto.
      + apply bind_ok in P as (u0 & _ & P). apply bind_ok in P as (u1 & _ & P). apply bind_ok in P as (u2 & _ & P). inv P. auto.
      + apply bind_ok in P as (u0 & _ & P). apply bind_ok in P as (u1 & _ & P). inv P. auto.
      + apply bind_ok in P as (u0 & _ & P). inv P. auto.
    - apply bind_ok in H as (u0 & _ & H). apply bind_ok in H as (u1 & _ & H). apply bind_ok in H as (u2 & _ & H). inv H. cbn. repeat split; auto; congruence.
    - apply bind_ok in H as (u0 & _ & H). apply bind_ok in H as (u1 & _ & H). inv H. cbn. repeat split; auto; congruence.
    - apply bind_ok in H as (u1 & Q1 & H). inv H. cbn. repeat split; auto; congruence.
  Qed.

  Lemma lreach_step w G : lreach v E c w G -> forall a w' g, perform a w = Ok (w', g) -> lreach v E c w' (G ++ g).
  Proof.
    intros (tr & s & d & l & Hh & H) a w' g P. exists tr, s, d, (l ++ [a]). split; auto.
    rewrite perform_all_app, H. cbn [fst snd Lottery.perform_all]. rewrite P. cbn. rewrite app_nil_r. auto.
  Qed.
  (** induction over top-level histories *)
  Lemma lreach_ind' (P : world -> list lev -> Prop) :
    (forall tr s d, hist v E c tr s -> P (mkW s (lconstruct d)) []) ->
    (forall w G a w' g, lreach v E c w G -> P w G -> perform a w = Ok (w', g) -> P w' (G ++ g)) ->
    forall w G, lreach v E c w G -> P w G.
  Proof.
    intros H0 H1 w G (tr & s & d & l & Hh & H). revert w G H. induction l as [|a l IH] using rev_ind; intros w G H.
    - cbn in H. inv H. eauto.
    - rewrite perform_all_app in H. destruct (perform_all l (mkW s (lconstruct d))) as [w1 g1] eqn:E1. cbn [fst snd Lottery.perform_all] in H.
      specialize (IH _ _ eq_refl). destruct (Lottery.perform v E a w1) as [[w2 g2]| |] eqn:P2; cbn in H; inv H; rewrite ?app_nil_r; auto.
      eapply H1; eauto. exists tr, s, d, l. auto.
  Qed.
  Lemma lreach_inv w G : lreach v E c w G -> LInv G w /\ nonneg w /\ (payments G <> [] -> lphase_of (lot w) = LClose).
  Proof.
    revert w G. apply lreach_ind'.
    - intros tr s d Hh. destruct (LInv_init tr s d Hh). split; [auto|]. split; [auto|]. cbn. congruence.
    - intros w G a w' g _ (I & N & T) P. destruct (all_good a _ _ _ _ I N P) as (I' & N' & _ & _). split; auto. split; auto.
      destruct (top_step _ _ _ _ P) as (A & B & _). rewrite payments_app. intros Hp.
      destruct (payments g) eqn:Pg; [|apply A; congruence]. rewrite app_nil_r in Hp. apply B. auto.
  Qed.

  (** once the random of the chosen round exists, nothing but a successful pickWinner changes who would win *)
  Lemma settled_step w G a w' g : lreach v E c w G -> perform a w = Ok (w', g) -> lphase_of (lot w) = LOpen ->
    rvalue (roundToRandom (zk w) (randRoundNum (lot w))) <> 0 -> lphase_of (lot w') = LOpen ->
    players (lot w') = players (lot w) /\ randRoundNum (lot w') = randRoundNum (lot w) /\
    roundToRandom (zk w') (randRoundNum (lot w)) = roundToRandom (zk w) (randRoundNum (lot w)) /\ lbalance (lot w) <= lbalance (lot w').
  Proof.
    intros R H Ho Hr Ho'. destruct (lreach_inv _ _ R) as (I & N & _).
    destruct a as [t|b r m|b x|b calls acc|b a|b|x];
      [| | |destruct (pick_ok _ _ _ _ _ _ H) as (_ & _ & _ & _ & Cl & _); congruence| | |]; cbn [Lottery.perform] in H.
    - apply bind_ok in H as ([s' ev] & H1 & H). inv H. cbn. repeat split; auto; [|lia].
      apply zk_exec in H1. rewrite <- H1. apply random_once. auto.
    - apply bind_ok in H as (u0 & _ & H). apply bind_ok in H as (u1 & Q1 & H).
      unfold setup in H. apply bind_ok in H as (u2 & Q2 & H). apply bind_ok in H as (u3 & Q3 & H).
      apply require_ok in Q3. apply lphase_eqb_eq in Q3. congruence.
    - apply bind_ok in H as (u0 & Q0 & H). apply bind_ok in H as (u1 & Q1 & H).
      unfold enter in H. apply bind_ok in H as (u2 & Q2 & H). apply bind_ok in H as (u3 & Q3 & H).
      apply require_ok in Q3. apply negb_true_iff in Q3. unfold roundReached in Q3. apply Z.leb_gt in Q3.
      destruct I. destruct i_zk0 as [tr Ht]. pose proof (random_round _ _ _ Ht Hr). lia.
    - apply bind_ok in H as (u0 & _ & H). apply bind_ok in H as (u1 & _ & H). apply bind_ok in H as (u2 & _ & H). inv H. cbn. repeat split; auto; lia.
    - apply bind_ok in H as (u0 & _ & H). apply bind_ok in H as (u1 & _ & H). inv H. cbn. repeat split; auto; lia.
    - apply bind_ok in H as (u1 & Q1 & H). inv H. apply require_ok in Q1. cbn. repeat split; auto.
      unfold is_u256 in Q1; apply andb_prop in Q1 as [Q _]; apply Z.leb_le in Q; lia.
  Qed.
  Lemma settled l : forall w G, lreach v E c w G -> lphase_of (lot w) = LOpen -> rvalue (roundToRandom (zk w) (randRoundNum (lot w))) <> 0 ->
    let w' := fst (perform_all l w) in lphase_of (lot w') = LOpen ->
    players (lot w') = players (lot w) /\ randRoundNum (lot w') = randRoundNum (lot w) /\
    roundToRandom (zk w') (randRoundNum (lot w)) = roundToRandom (zk w) (randRoundNum (lot w)) /\ lbalance (lot w) <= lbalance (lot w').
  Proof.
    cbv zeta. induction l as [|a l IH]; intros w G R Ho Hr; cbn [Lottery.perform_all].
    - cbn. repeat split; auto; lia.
    - destruct (Lottery.perform v E a w) as [[w1 g]| |] eqn:P; [|eapply IH; eauto|eapply IH; eauto].
      pose proof (lreach_step _ _ R _ _ _ P) as R1. specialize (IH _ _ R1).
      destruct (perform_all l w1) as [w2 g2] eqn:E2. cbn [fst] in *. intros Ho2.
      assert (Ho1 : lphase_of (lot w1) = LOpen).
      { destruct (lphase_of (lot w1)) eqn:Ph; auto.
        - exfalso. destruct (lreach_inv _ _ R) as (I & N & _). destruct (all_good a _ _ _ _ I N P) as (_ & _ & A & _). apply A; auto.
        - exfalso. clear -Ph E2 Ho2. revert w1 w2 g2 E2 Ph Ho2. induction l as [|b l IH]; intros w1 w2 g2 E2 Ph Ho2; cbn [Lottery.perform_all] in E2; [inv E2; congruence|].
          destruct (Lottery.perform v E b w1) as [[w3 g3]| |] eqn:P; [|eapply IH; eauto|eapply IH; eauto].
          destruct (perform_all l w3) as [w4 g4] eqn:E4. inv E2. destruct (top_step _ _ _ _ P) as (_ & B & _). destruct (B Ph) as [B' _].
          eapply IH; eauto. }
      destruct (settled_step _ _ _ _ _ R P Ho Hr Ho1) as (A1 & A2 & A3 & A4).
      destruct (IH Ho1 ltac:(rewrite A2, A3; auto) Ho2) as (B1 & B2 & B3 & B4). rewrite A2 in B3. rewrite B1, B2, B3, A1, A2, A3. repeat split; auto; lia.
  Qed.
End Lot.
