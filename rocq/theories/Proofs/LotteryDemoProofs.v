(** Invariants of the lottery demo, for every schedule. *)
From Coq Require Import ZArith String List Bool Lia Permutation.
From Verif.Model Require Import Monad Evm Zkdvrf Lottery LotteryDemo.
From Verif.Spec Require Import Histories LotterySpec LotteryDemoSpec.
From Verif.Proofs Require Import ZkdvrfStep ZkdvrfInv1 ZkdvrfInv2 ZkdvrfInv3 ZkdvrfThms ShuffleProofs LotteryProofs.
Import ListNotations.
Open Scope Z_scope.

Section D.
  Variable v : variant.
  Variable E : env.
  Variable c : cfg.
  Variable admin : Z.
  Variable keys : list Z.
  Notation perform := (perform v E).
  Notation perform_all := (perform_all v E).
  Notation step := (LotteryDemo.step v E admin keys).
  Notation moves := (moves v E admin keys).
  Ltac inv H := inversion H; subst; clear H.

  (** the random of a round appears with its event *)
  Lemma random_event s t s' ev k : apply v E s t = Ok (s', ev) -> rvalue (roundToRandom s k) = 0 -> rvalue (roundToRandom s' k) <> 0 ->
    In k (flat_map (fun e => match e with RandomReady k _ => [k] | _ => [] end) ev).
  Proof.
    intros A Z0 N. destruct (apply_ok _ _ _ _ _ _ A) as [_ R].
    destruct R as [a W|pk s1 s2 ev0 W|W|pp zk s1 s2 ev0 W|gpk gr vk W|s1 s2 W|e vk ev0 W|p W|a W|W|W]; subst;
      repeat match goal with H : context [if ?b then _ else _] |- _ => destruct b end; repeat match goal with H : exists _, _ |- _ => destruct H | H : _ /\ _ |- _ => destruct H end; subst; cbn in N; try congruence.
    all: destruct (Z.eq_dec k (currentRoundNum s)) as [->|D0]; [left; reflexivity|]; rewrite upd_other in N by auto; congruence.
  Qed.
  Lemma round_le s t s' ev : apply v E s t = Ok (s', ev) -> currentRoundNum s <= currentRoundNum s'.
  Proof. intros A. destruct (round_step v E s t) as [X|[X _]]; rewrite (zk_exec _ _ _ _ _ _ A) in X; lia. Qed.

  (** what a call by somebody who is not the owner does *)
  Inductive others (a : act) (w w' : world) (g : list lev) : Prop :=
  | o_zk t s' ev : a = ZkTx t -> apply v E (zk w) t = Ok (s', ev) -> w' = mkW s' (lot w) -> g = [] -> others a w w' g
  | o_enter b x : a = Enter b x -> lphase_of (lot w) = LOpen -> currentRoundNum (zk w) < randRoundNum (lot w) ->
      w' = mkW (zk w) (mkL (l_owner (lot w)) (players (lot w) ++ [b]) (upd (hasEntered (lot w)) b true) (minBet (lot w)) (randRoundNum (lot w)) (randValue (lot w)) (lphase_of (lot w)) (lbalance (lot w) + x)) ->
      g = [Entered b x (currentRoundNum (zk w))] -> others a w w' g
  | o_force x : a = LForceEther x ->
      w' = mkW (zk w) (mkL (l_owner (lot w)) (players (lot w)) (hasEntered (lot w)) (minBet (lot w)) (randRoundNum (lot w)) (randValue (lot w)) (lphase_of (lot w)) (lbalance (lot w) + x)) ->
      g = [Forced x] -> others a w w' g.
  Lemma enter_ok b x w w' g : perform (Enter b x) w = Ok (w', g) -> others (Enter b x) w w' g.
  Proof.
    cbn [Lottery.perform]. intros H. apply bind_ok in H as (u0 & Q0 & H). apply bind_ok in H as (u1 & Q1 & H).
    unfold enter in H. apply bind_ok in H as (u2 & Q2 & H). apply bind_ok in H as (u3 & Q3 & H). apply bind_ok in H as (u4 & Q4 & H). apply bind_ok in H as (u5 & Q5 & H).
    apply require_ok in Q2, Q3. apply lphase_eqb_eq in Q2. apply negb_true_iff in Q3. unfold roundReached in Q3. apply Z.leb_gt in Q3. inv H.
    eapply o_enter; try reflexivity; assumption.
  Qed.
  Lemma others_ok a w w' g : not_by [l_owner (lot w)] a -> perform a w = Ok (w', g) -> others a w w' g.
  Proof.
    intros N H. destruct a as [t|b r m|b x|b calls acc|b a|b|x]; cbn [not_by lsender] in N.
    - cbn [Lottery.perform] in H. apply bind_ok in H as ([s' ev] & H1 & H). inv H. eapply o_zk; eauto.
    - exfalso. cbn [Lottery.perform] in H. apply bind_ok in H as (u0 & _ & H). apply bind_ok in H as (u1 & Q1 & H).
      unfold setup in H. apply bind_ok in H as (u2 & Q2 & H). apply require_ok in Q2. apply Z.eqb_eq in Q2. apply (N b eq_refl). left. auto.
    - apply enter_ok. exact H.
    - exfalso. destruct (pick_ok _ _ _ _ _ _ _ _ H) as (X & _). apply (N b eq_refl). left. auto.
    - exfalso. cbn [Lottery.perform] in H. apply bind_ok in H as (u0 & _ & H). apply bind_ok in H as (u1 & Q1 & H). apply require_ok in Q1. apply Z.eqb_eq in Q1. apply (N b eq_refl). left. auto.
    - exfalso. cbn [Lottery.perform] in H. apply bind_ok in H as (u0 & _ & H). apply bind_ok in H as (u1 & Q1 & H). apply require_ok in Q1. apply Z.eqb_eq in Q1. apply (N b eq_refl). left. auto.
    - cbn [Lottery.perform] in H. apply bind_ok in H as (u1 & Q1 & H). inv H. eapply o_force; reflexivity.
  Qed.
  (** what such calls have in common *)
  Definition quiet (w w' : world) (g : list lev) : Prop :=
    l_owner (lot w') = l_owner (lot w) /\ lphase_of (lot w') = lphase_of (lot w) /\ minBet (lot w') = minBet (lot w) /\ randRoundNum (lot w') = randRoundNum (lot w) /\
    players (lot w') = players (lot w) ++ entrants g /\ payments g = [] /\ currentRoundNum (zk w) <= currentRoundNum (zk w') /\
    (forall k, rvalue (roundToRandom (zk w) k) <> 0 -> roundToRandom (zk w') k = roundToRandom (zk w) k) /\
    (entrants g <> [] -> currentRoundNum (zk w) < randRoundNum (lot w)).
  Lemma others_quiet a w w' g : others a w w' g -> quiet w w' g.
  Proof.
    intros [t s' ev -> A -> ->|b x -> P L -> ->|x -> -> ->]; unfold quiet; cbn; rewrite ?app_nil_r; repeat split; auto; try lia; try congruence.
    - exact (round_le _ _ _ _ A).
    - intros k N. rewrite <- (zk_exec _ _ _ _ _ _ A). apply random_once, N.
  Qed.
  Lemma quiet_all l : forall w w' g, Forall (not_by [l_owner (lot w)]) l -> perform_all l w = (w', g) -> quiet w w' g.
  Proof.
    induction l as [|a l IH]; intros w w' g F H; cbn [Lottery.perform_all] in H.
    - inv H. unfold quiet. cbn. rewrite app_nil_r. repeat split; auto; try lia; try congruence.
    - inversion F as [|? ? N F']; subst. destruct (perform a w) as [[w1 g1]| |] eqn:P; [|eapply IH; eauto|eapply IH; eauto].
      destruct (perform_all l w1) as [w2 g2] eqn:P2. inv H. pose proof (others_quiet _ _ _ _ (others_ok _ _ _ _ N P)) as (A1 & A2 & A3 & A4 & A5 & A6 & A7 & A8 & A9).
      assert (F1 : Forall (not_by [l_owner (lot w1)]) l) by (rewrite A1; exact F').
      destruct (IH _ _ _ F1 P2) as (B1 & B2 & B3 & B4 & B5 & B6 & B7 & B8 & B9).
      unfold quiet. rewrite B1, B2, B3, B4, B5, A5, entrants_app, payments_app, A6, B6, <- app_assoc. repeat split; auto; try lia.
      + intros k Nk. rewrite B8, A8; auto. rewrite A8; auto.
      + destruct (entrants g1) eqn:Eg; [|intros _; apply A9; congruence]. cbn [app]. intros X. specialize (B9 X). lia.
  Qed.

  (** pickWinner by the owner *)
  Lemma pick_state calls acc w w' g : l_owner (lot w) = admin -> Forall (not_by [admin]) calls -> perform (PickWinner admin calls acc) w = Ok (w', g) ->
    exists p g', getRandomAtRound (zk w) (randRoundNum (lot w)) = Ok p /\ g = Paid (hd 0 (fisher_yates (pick_index E (rvalue p)) (players (lot w)))) (lbalance (lot w)) :: g' /\
      payments g' = [] /\ acc = true /\ lphase_of (lot w) = LOpen /\ lphase_of (lot w') = LClose /\ l_owner (lot w') = admin /\ minBet (lot w') = minBet (lot w) /\ randRoundNum (lot w') = randRoundNum (lot w) /\
      currentRoundNum (zk w) <= currentRoundNum (zk w') /\ (forall k, rvalue (roundToRandom (zk w) k) <> 0 -> roundToRandom (zk w') k = roundToRandom (zk w) k).
  Proof.
    intros O F H. rewrite perform_pick in H. apply bind_ok in H as (u0 & _ & H).
    apply bind_ok in H as ([[w1 winner] amount] & Hb & H).
    unfold pick_begin in Hb. apply bind_ok in Hb as (u1 & Q1 & Hb). apply bind_ok in Hb as (u2 & Q2 & Hb). apply bind_ok in Hb as (u3 & Q3 & Hb).
    apply bind_ok in Hb as (rnd & Q4 & Hb). apply bind_ok in Hb as (u5 & Q5 & Hb). apply require_ok in Q2. apply lphase_eqb_eq in Q2. inv Hb.
    destruct (perform_all calls _) as [w2 g2] eqn:Pc. unfold pick_end in H. apply bind_ok in H as (w3 & H3 & H).
    apply bind_ok in H3 as (u6 & Q6 & H3). inv H3. inv H. apply require_ok in Q6.
    apply quiet_all in Pc; [|cbn [lot l_owner]; exact F]. destruct Pc as (A1 & A2 & A3 & A4 & A5 & A6 & A7 & A8 & A9). cbn [lot zk l_owner lphase_of minBet randRoundNum players] in *.
    exists rnd, g2. repeat split; auto.
  Qed.

  (** what holds after every schedule *)
  Record DI (D : demo) : Prop := {
    d_reach : lreach v E c (both D) (trail D);
    d_owner : l_owner (lot (both D)) = admin;
    d_args : lphase_of (lot (both D)) <> LSetup -> randRoundNum (lot (both D)) = rand_round /\ minBet (lot (both D)) = min_bet;
    d_order : lphase_of (lot (both D)) <> LClose -> players (lot (both D)) = entrants (trail D) /\ payments (trail D) = [];
    d_closed : lphase_of (lot (both D)) = LClose -> exists G1 G2 x p, trail D = G1 ++ Paid (winner_of (keccak E) p (entrants G1)) x :: G2 /\
      payments G1 = [] /\ payments G2 = [] /\ getRandomAtRound (zk (both D)) rand_round = Ok p }.
  Lemma entrants_paid G1 x y G2 w : lreach v E c w (G1 ++ Paid x y :: G2) -> entrants G2 = [].
  Proof. intros R. destruct (lreach_inv _ _ _ _ _ R) as ([] & _ & _). destruct (i_split _ _ _ _ eq_refl) as (A & _). exact A. Qed.

  Lemma DI_quiet w G w' g a p q a' p' q' : DI (Demo w G a p q) -> lreach v E c w' (G ++ g) -> quiet w w' g -> DI (Demo w' (G ++ g) a' p' q').
  Proof.
    intros [R O A1 B C0] R' (Q1 & Q2 & Q3 & Q4 & Q5 & Q6 & Q7 & Q8 & Q9). cbn [both trail] in *. constructor; cbn [both trail]; auto; try congruence.
    - rewrite Q2, Q3, Q4. exact A1.
    - rewrite Q2, Q5. intros N. destruct (B N) as [-> X]. rewrite entrants_app, payments_app, X, Q6. auto.
    - rewrite Q2. intros N. destruct (C0 N) as (G1 & G2 & x & pr & -> & P1 & P2 & Gr). exists G1, (G2 ++ g), x, pr. rewrite <- app_assoc, payments_app, P2, Q6. repeat split; auto.
      unfold getRandomAtRound in *. destruct (Z.eqb_spec (rvalue (roundToRandom (zk w) rand_round)) 0) as [|Hn]; cbn in Gr; [discriminate|]. rewrite Q8 by exact Hn.
      destruct (Z.eqb_spec (rvalue (roundToRandom (zk w) rand_round)) 0); [contradiction|exact Gr].
  Qed.
  Lemma DI_same w G a p q a' p' q' : DI (Demo w G a p q) -> DI (Demo w G a' p' q').
  Proof. intros [R O A1 B C0]. constructor; assumption. Qed.
  Lemma setup_ok w w' g r m : perform (Setup admin r m) w = Ok (w', g) -> lphase_of (lot w) = LSetup /\ g = [] /\
    w' = mkW (zk w) (mkL (l_owner (lot w)) (players (lot w)) (hasEntered (lot w)) m r (randValue (lot w)) LOpen (lbalance (lot w))).
  Proof.
    cbn [Lottery.perform]. intros H. apply bind_ok in H as (u0 & _ & H). apply bind_ok in H as (u1 & Q1 & H).
    unfold setup in H. apply bind_ok in H as (u2 & Q2 & H). apply bind_ok in H as (u3 & Q3 & H). apply require_ok in Q3. apply lphase_eqb_eq in Q3. inv H. auto.
  Qed.
  Lemma not_by_weak l l' a : (forall b, In b l -> In b l') -> not_by l' a -> not_by l a.
  Proof. intros S N b H I. exact (N b H (S b I)). Qed.
  Lemma DI_step m D : allowed admin keys m -> DI D -> DI (step m D).
  Proof.
    intros Al I. destruct D as [w G a p q]. pose proof I as [R O A1 B C0]. cbn [both trail] in *.
    destruct m as [x| | |calls acc| | |]; cbn [LotteryDemo.step allowed] in *.
    - destruct (perform x w) as [[w' g]| |] eqn:P; auto. eapply DI_quiet; [exact I|eapply lreach_step; eauto|]. eapply others_quiet, others_ok; [|exact P].
      rewrite O. eapply not_by_weak; [|exact Al]. intros b [<-|[]]. left. reflexivity.
    - destruct a; auto. destruct (perform (Setup admin rand_round min_bet) w) as [[w' g]| |] eqn:P; [|eapply DI_same; eauto|eapply DI_same; eauto].
      pose proof (lreach_step _ _ _ _ _ R _ _ _ P) as R'. apply setup_ok in P as (Ph & -> & ->). rewrite app_nil_r in *.
      constructor; cbn [both trail lot zk l_owner randRoundNum minBet lphase_of players]; auto; [|discriminate]. intros _. apply B. congruence.
    - destruct a; auto. eapply DI_same; eauto.
    - destruct a; auto. destruct q as [|k q]; auto. destruct (k =? rand_round); [|eapply DI_same; eauto].
      destruct (perform (PickWinner admin calls acc) w) as [[w' g]| |] eqn:P; [|eapply DI_same; eauto|eapply DI_same; eauto].
      pose proof (lreach_step _ _ _ _ _ R _ _ _ P) as R'. destruct (pick_state _ _ _ _ _ O Al P) as (pr & g' & Gr & -> & Pg & _ & Ph & Ph' & O' & M' & N' & _ & Rm).
      assert (Nc : lphase_of (lot w) <> LClose) by congruence. assert (Ns : lphase_of (lot w) <> LSetup) by congruence. destruct (B Nc) as [Bp Bq]. destruct (A1 Ns) as [A2 A3].
      constructor; cbn [both trail]; auto; try congruence.
      + intros _. rewrite M', N'. auto.
      + intros _. exists G, g', (lbalance (lot w)), pr. rewrite Bp. repeat split; auto. rewrite A2 in Gr.
        unfold getRandomAtRound in *. destruct (Z.eqb_spec (rvalue (roundToRandom (zk w) rand_round)) 0) as [|Hn]; cbn in Gr; [discriminate|]. rewrite Rm by exact Hn.
        destruct (Z.eqb_spec (rvalue (roundToRandom (zk w) rand_round)) 0); [contradiction|exact Gr].
    - eapply DI_same; eauto.
    - destruct p; auto. eapply DI_same; eauto.
    - destruct p as [| |bet [|x l]|]; auto; try (eapply DI_same; eauto).
      destruct (perform (Enter x bet) w) as [[w' g]| |] eqn:P; [|eapply DI_same; eauto|eapply DI_same; eauto].
      eapply DI_quiet; [exact I|eapply lreach_step; eauto|]. eapply others_quiet, enter_ok. exact P.
  Qed.
  Lemma moves_app l1 l2 D : moves (l1 ++ l2) D = moves l2 (moves l1 D).
  Proof. apply fold_left_app. Qed.
  Lemma DI_moves l : forall D, Forall (allowed admin keys) l -> DI D -> DI (moves l D).
  Proof. induction l as [|m l IH]; intros D F I; [exact I|]. inversion F; subst. cbn [LotteryDemo.moves fold_left]. apply IH; auto. apply DI_step; auto. Qed.
  Lemma DI_deploy tr s : hist v E c tr s -> DI (deploy_lottery admin s).
  Proof.
    intros H. unfold deploy_lottery. constructor; cbn [both trail lot zk lconstruct l_owner lphase_of players].
    - exists tr, s, admin, []. split; [exact H|reflexivity].
    - reflexivity.
    - intros N. contradiction N. reflexivity.
    - intros _. split; reflexivity.
    - discriminate.
  Qed.

  (** the rounds and the randoms of the contract only grow *)
  Lemma step_grows m D : allowed admin keys m -> DI D ->
    currentRoundNum (zk (both D)) <= currentRoundNum (zk (both (step m D))) /\
    (forall k, rvalue (roundToRandom (zk (both D)) k) <> 0 -> roundToRandom (zk (both (step m D))) k = roundToRandom (zk (both D)) k) /\
    (lphase_of (lot (both D)) = LClose -> lphase_of (lot (both (step m D))) = LClose) /\
    (lphase_of (lot (both D)) <> LSetup -> lphase_of (lot (both (step m D))) <> LSetup).
  Proof.
    intros Al I. destruct D as [w G a p q]. pose proof I as [R O A1 B C0]. cbn [both trail] in *.
    assert (Same : currentRoundNum (zk w) <= currentRoundNum (zk w) /\ (forall k, rvalue (roundToRandom (zk w) k) <> 0 -> roundToRandom (zk w) k = roundToRandom (zk w) k) /\
      (lphase_of (lot w) = LClose -> lphase_of (lot w) = LClose) /\ (lphase_of (lot w) <> LSetup -> lphase_of (lot w) <> LSetup)) by (repeat split; auto; lia).
    destruct m as [x| | |calls acc| | |]; cbn [LotteryDemo.step allowed] in *.
    - destruct (perform x w) as [[w' g]| |] eqn:P; auto. cbn [both].
      assert (N : not_by [l_owner (lot w)] x) by (rewrite O; eapply not_by_weak; [|exact Al]; intros b [<-|[]]; left; reflexivity).
      destruct (others_quiet _ _ _ _ (others_ok _ _ _ _ N P)) as (_ & -> & _ & _ & _ & _ & Q7 & Q8 & _). repeat split; auto.
    - destruct a; auto. destruct (perform (Setup admin rand_round min_bet) w) as [[w' g]| |] eqn:P; auto. apply setup_ok in P as (Ph & -> & ->). cbn. repeat split; auto; try lia; congruence.
    - destruct a; auto.
    - destruct a; auto. destruct q as [|k q]; auto. destruct (k =? rand_round); auto.
      destruct (perform (PickWinner admin calls acc) w) as [[w' g]| |] eqn:P; auto.
      destruct (pick_state _ _ _ _ _ O Al P) as (pr & g' & Gr & _ & _ & _ & Ph & Ph' & _ & _ & _ & X & Y). cbn [both]. repeat split; auto; congruence.
    - auto.
    - destruct p; auto.
    - destruct p as [| |bet [|x l]|]; auto.
      destruct (perform (Enter x bet) w) as [[w' g]| |] eqn:P; auto. cbn [both].
      destruct (others_quiet _ _ _ _ (enter_ok _ _ _ _ _ P)) as (_ & -> & _ & _ & _ & _ & Q7 & Q8 & _). repeat split; auto.
  Qed.

  (** an admin that listens has the event of the random in its inbox, or has paid *)
  Definition awaits (D : demo) : Prop :=
    match adm D with
    | AListening => rvalue (roundToRandom (zk (both D)) rand_round) <> 0 -> In rand_round (inbox D) \/ lphase_of (lot (both D)) = LClose
    | ADead => True
    | _ => False
    end.
  Lemma awaits_step m D : allowed admin keys m -> m <> AdminRestart -> DI D -> awaits D -> awaits (step m D).
  Proof.
    intros Al Nr I Aw. destruct D as [w G a p q]. pose proof I as [R O A1 B C0]. unfold awaits in *. cbn [both trail adm inbox] in *.
    destruct m as [x| | |calls acc| | |]; cbn [LotteryDemo.step allowed] in *; try congruence.
    - destruct (perform x w) as [[w' g]| |] eqn:P; auto. cbn [both adm inbox]. destruct a; auto. intros N.
      assert (Nb : not_by [l_owner (lot w)] x) by (rewrite O; eapply not_by_weak; [|exact Al]; intros b [<-|[]]; left; reflexivity).
      pose proof (others_ok _ _ _ _ Nb P) as Ho. destruct (others_quiet _ _ _ _ Ho) as (_ & Ph & _).
      destruct (Z.eq_dec (rvalue (roundToRandom (zk w) rand_round)) 0) as [Z0|N0].
      + left. apply in_or_app. right. destruct Ho as [t s' ev -> A -> ->|b x0 -> _ _ -> ->|x0 -> -> ->]; cbn [zk] in N; [|congruence|congruence].
        unfold ready_rounds. rewrite A. eapply random_event; eauto.
      + destruct (Aw N0) as [L|L]; [left; apply in_or_app; auto|right; congruence].
    - destruct a; auto. contradiction.
    - destruct a; auto. contradiction.
    - destruct a; auto. destruct q as [|k q]; auto. destruct (Z.eqb_spec k rand_round) as [->|Nk].
      + destruct (perform (PickWinner admin calls acc) w) as [[w' g]| |] eqn:P; [|exact Logic.I|exact Logic.I].
        destruct (pick_state _ _ _ _ _ O Al P) as (pr & g' & Gr & _ & _ & _ & Ph & Ph' & _). cbn [both adm inbox]. auto.
      + cbn [both adm inbox]. intros N. destruct (Aw N) as [[L|L]|L]; auto. congruence.
    - destruct p; cbn [both adm inbox]; auto.
    - destruct p as [| |bet [|x l]|]; cbn [both adm inbox]; auto.
      destruct (perform (Enter x bet) w) as [[w' g]| |] eqn:P; cbn [both adm inbox]; auto.
      destruct (others_quiet _ _ _ _ (enter_ok _ _ _ _ _ P)) as (_ & -> & _). pose proof (enter_ok _ _ _ _ _ P) as [? ? ? ? ? ? ?|? ? _ _ _ -> _|? ? ? ?]; try discriminate. cbn [zk]. exact Aw.
  Qed.
  Lemma awaits_moves l : forall D, Forall (allowed admin keys) l -> ~ In AdminRestart l -> DI D -> awaits D -> awaits (moves l D).
  Proof.
    induction l as [|m l IH]; intros D F N I Aw; [exact Aw|]. inversion F; subst. cbn [LotteryDemo.moves fold_left]. apply IH; auto; [intros X; apply N; right; exact X|apply DI_step; auto|].
    apply awaits_step; auto. intros ->. apply N. left. reflexivity.
  Qed.

  (** while the chosen round is not open, the players that play.ts has gone through have all entered *)
  Definition ours (G : list lev) : list Z := filter (fun a => existsb (Z.eqb a) keys) (entrants G).
  Definition entering (D : demo) : Prop :=
    currentRoundNum (zk (both D)) < rand_round ->
    match plr D with
    | POff | PWaiting => ours (trail D) = []
    | PEntering bet l => bet = min_bet /\ lphase_of (lot (both D)) <> LSetup /\ keys = ours (trail D) ++ l
    | PExit => ours (trail D) = keys
    end.
  Hypothesis Dk : NoDup keys.
  Hypothesis Ak : Forall (fun a => 0 < a < M160) keys.
  Lemma known a : existsb (Z.eqb a) keys = true <-> In a keys.
  Proof. rewrite existsb_exists. split; [intros (x & I & X); apply Z.eqb_eq in X; subst; exact I|intros I; exists a; split; [exact I|apply Z.eqb_refl]]. Qed.
  Lemma open_before D : DI D -> lphase_of (lot (both D)) <> LSetup -> currentRoundNum (zk (both D)) < rand_round -> lphase_of (lot (both D)) = LOpen.
  Proof.
    intros I N L. destruct (lphase_of (lot (both D))) eqn:Ph; [congruence|reflexivity|]. exfalso.
    destruct (d_closed _ I Ph) as (G1 & G2 & x & p & _ & _ & _ & Gr).
    destruct (lreach_inv _ _ _ _ _ (d_reach _ I)) as ([] & _ & _). destruct i_zk as [tr Ht]. unfold getRandomAtRound in Gr.
    destruct (Z.eqb_spec (rvalue (roundToRandom (zk (both D)) rand_round)) 0) as [|Hn]; cbn in Gr; [discriminate|].
    pose proof (random_round _ _ _ _ _ _ Ht Hn). lia.
  Qed.
  Lemma ours_app G g : ours (G ++ g) = ours G ++ ours g.
  Proof. unfold ours. rewrite entrants_app, filter_app. reflexivity. Qed.
  Lemma ours_in G a : In a keys -> (In a (ours G) <-> In a (entrants G)).
  Proof. intros I. unfold ours. rewrite filter_In, known. tauto. Qed.
  Lemma enter_works D x : DI D -> In x keys -> lphase_of (lot (both D)) = LOpen -> currentRoundNum (zk (both D)) < rand_round -> ~ In x (entrants (trail D)) ->
    exists w', perform (Enter x min_bet) (both D) = Ok (w', [Entered x min_bet (currentRoundNum (zk (both D)))]).
  Proof.
    intros I Ix Ph L N. destruct (lreach_inv _ _ _ _ _ (d_reach _ I)) as ([] & _ & _). destruct (d_args _ I) as [A1 A2]; [congruence|].
    cbn [Lottery.perform]. unfold from_ok, is_addr. rewrite Forall_forall in Ak. specialize (Ak x Ix).
    rewrite (proj2 (Z.leb_le 0 x)), (proj2 (Z.ltb_lt x M160)), (proj2 (Z.eqb_neq x 0)) by lia. cbn [andb negb require bind].
    change (is_u256 min_bet) with true. cbn [require bind]. unfold enter, roundReached. rewrite Ph, A1, A2, (proj2 (Z.leb_gt _ _) L), Z.leb_refl. cbn [lphase_eqb negb require bind].
    destruct (hasEntered (lot (both D)) x) eqn:H; [apply i_has in H; contradiction|]. cbn [negb require bind]. eauto.
  Qed.
  Lemma entering_step m D : allowed admin keys m -> DI D -> entering D -> entering (step m D).
  Proof.
    intros Al I En L. destruct (step_grows m D Al I) as (Lr & _ & _ & Sp). assert (L0 : currentRoundNum (zk (both D)) < rand_round) by lia. specialize (En L0).
    pose proof (open_before D I) as Ob.
    destruct D as [w G a p q]. pose proof I as [R O A1 B C0]. cbn [both trail plr] in *.
    destruct m as [x| | |calls acc| | |]; cbn [LotteryDemo.step allowed] in *.
    - destruct (perform x w) as [[w' g]| |] eqn:P; auto. cbn [both trail plr].
      assert (N : not_by [l_owner (lot w)] x) by (rewrite O; eapply not_by_weak; [|exact Al]; intros b [<-|[]]; left; reflexivity).
      pose proof (others_ok _ _ _ _ N P) as Ho. destruct (others_quiet _ _ _ _ Ho) as (_ & Ph & _).
      assert (Og : ours g = []). { destruct Ho as [t s' ev -> A -> ->|b x0 -> _ _ -> ->|x0 -> -> ->]; try reflexivity. unfold ours. cbn.
        destruct (existsb (Z.eqb b) keys) eqn:Eb; [|reflexivity]. apply known in Eb. exfalso. apply (Al b eq_refl). right. exact Eb. }
      rewrite ours_app, Og, app_nil_r, Ph. exact En.
    - destruct a; auto. destruct (perform (Setup admin rand_round min_bet) w) as [[w' g]| |] eqn:P; auto. apply setup_ok in P as (Ph & -> & ->). rewrite app_nil_r.
      cbn [both trail plr lot zk lphase_of]. destruct p as [| |bet l|]; auto; [|destruct En as (_ & X & _); contradiction].
      rewrite En. repeat split; auto. discriminate.
    - destruct a; auto.
    - destruct a; auto. destruct q as [|k q]; auto. destruct (k =? rand_round); auto.
      destruct (perform (PickWinner admin calls acc) w) as [[w' g]| |] eqn:P; auto. exfalso.
      destruct (pick_state _ _ _ _ _ O Al P) as (pr & g' & Gr & _ & _ & _ & Ph & _).
      destruct (A1 ltac:(congruence)) as [A2 _]. rewrite A2 in Gr. unfold getRandomAtRound in Gr.
      destruct (Z.eqb_spec (rvalue (roundToRandom (zk w) rand_round)) 0) as [|Hn]; cbn in Gr; [discriminate|].
      destruct (lreach_inv _ _ _ _ _ R) as ([] & _ & _). destruct i_zk as [tr Ht]. pose proof (random_round _ _ _ _ _ _ Ht Hn). lia.
    - auto.
    - destruct p; auto.
    - destruct p as [| |bet [|x l]|]; auto.
      + cbn [both trail plr]. destruct En as (_ & _ & ->). rewrite app_nil_r. reflexivity.
      + destruct En as (-> & Ns & K). specialize (Ob Ns L0).
        assert (Ix : In x keys) by (rewrite K; apply in_or_app; right; left; reflexivity).
        assert (Nx : ~ In x (entrants G)). { intros X. apply (ours_in _ _ Ix) in X. pose proof Dk as Dk'. rewrite K in Dk'. apply NoDup_remove_2 in Dk'. apply Dk', in_or_app. left. exact X. }
        destruct (enter_works (Demo w G a (PEntering min_bet (x :: l)) q) x I Ix Ob L0 Nx) as [w' P]. cbn [both] in P. rewrite P. cbn [both trail plr].
        destruct (others_quiet _ _ _ _ (enter_ok _ _ _ _ _ P)) as (_ & Ph & _). repeat split; [congruence|].
        rewrite ours_app. unfold ours at 2. cbn. rewrite (proj2 (known x) Ix), <- app_assoc. exact K.
  Qed.
  Lemma entering_moves l : forall D, Forall (allowed admin keys) l -> DI D -> entering D -> entering (moves l D).
  Proof.
    induction l as [|m l IH]; intros D F I En; [exact En|]. inversion F; subst. cbn [LotteryDemo.moves fold_left].
    apply IH; auto; [apply DI_step; auto|apply entering_step; auto].
  Qed.

  (** the players of play.ts pay exactly the minimum bet *)
  Definition stakes (D : demo) : Prop :=
    (forall a x k, In (Entered a x k) (trail D) -> In a keys -> x = min_bet) /\ match plr D with PEntering bet _ => bet = min_bet | _ => True end.
  Lemma no_entry g a x k : entrants g = [] -> ~ In (Entered a x k) g.
  Proof. intros N I. assert (X : In a (entrants g)) by (unfold entrants; apply in_flat_map; eexists; split; [exact I|left; reflexivity]). rewrite N in X. contradiction. Qed.
  Lemma stakes_step m D : allowed admin keys m -> DI D -> stakes D -> stakes (step m D).
  Proof.
    intros Al I [S T]. destruct D as [w G a p q]. pose proof I as [R O A1 B C0]. unfold stakes in *. cbn [both trail plr] in *.
    destruct m as [x| | |calls acc| | |]; cbn [LotteryDemo.step allowed] in *.
    - destruct (perform x w) as [[w' g]| |] eqn:P; auto. cbn [both trail plr]. split; [|exact T].
      assert (N : not_by [l_owner (lot w)] x) by (rewrite O; eapply not_by_weak; [|exact Al]; intros b [<-|[]]; left; reflexivity).
      pose proof (others_ok _ _ _ _ N P) as Ho. intros b y k Ib Kb. apply in_app_or in Ib as [Ib|Ib]; [eauto|]. exfalso.
      destruct Ho as [t s' ev -> A -> ->|b' x0 -> _ _ -> ->|x0 -> -> ->]; [contradiction| |].
      + destruct Ib as [Ib|[]]. inv Ib. apply (Al b eq_refl). right. exact Kb.
      + destruct Ib as [Ib|[]]. discriminate.
    - destruct a; auto. destruct (perform (Setup admin rand_round min_bet) w) as [[w' g]| |] eqn:P; auto. apply setup_ok in P as (Ph & -> & ->). rewrite app_nil_r.
      cbn [both trail plr]. split; [exact S|]. destruct p; auto.
    - destruct a; auto.
    - destruct a; auto. destruct q as [|k q]; auto. destruct (k =? rand_round); auto.
      destruct (perform (PickWinner admin calls acc) w) as [[w' g]| |] eqn:P; auto. cbn [both trail plr]. split; [|exact T].
      pose proof (lreach_step _ _ _ _ _ R _ _ _ P) as R'. destruct (pick_state _ _ _ _ _ O Al P) as (pr & g' & Gr & -> & _). apply entrants_paid in R'.
      intros b y k0 Ib Kb. apply in_app_or in Ib as [Ib|[Ib|Ib]]; [eauto|discriminate|]. exfalso. exact (no_entry _ _ _ _ R' Ib).
    - auto.
    - destruct p; cbn [both trail plr]; auto.
    - destruct p as [| |bet [|x l]|]; auto.
      destruct (perform (Enter x bet) w) as [[w' g]| |] eqn:P; auto. cbn [both trail plr]. split; [|exact T].
      pose proof (enter_ok _ _ _ _ _ P) as [? ? ? ? ? ? ?|b' x0 Eq _ _ _ ->|? ? ? ?]; try discriminate. inv Eq.
      intros b y k0 Ib Kb. apply in_app_or in Ib as [Ib|[Ib|[]]]; [eauto|]. inv Ib. reflexivity.
  Qed.
  Lemma stakes_moves l : forall D, Forall (allowed admin keys) l -> DI D -> stakes D -> stakes (moves l D).
  Proof.
    induction l as [|m l IH]; intros D F I En; [exact En|]. inversion F; subst. cbn [LotteryDemo.moves fold_left].
    apply IH; auto; [apply DI_step; auto|apply stakes_step; auto].
  Qed.

  (** a lottery without players whose round has been reached never gets any *)
  Definition barren (w : world) : Prop := lphase_of (lot w) = LOpen /\ players (lot w) = [] /\ randRoundNum (lot w) <= currentRoundNum (zk w).
  Lemma barren_step a w w' g : barren w -> perform a w = Ok (w', g) -> barren w' /\ entrants g = [] /\ payments g = [].
  Proof.
    intros (B1 & B2 & B3) H. unfold barren. destruct a as [t|b r m|b x|b calls acc|b a|b|x].
    - cbn [Lottery.perform] in H. apply bind_ok in H as ([s' ev] & H1 & H). inv H. cbn [lot zk]. pose proof (round_le _ _ _ _ H1). repeat split; auto; lia.
    - exfalso. cbn [Lottery.perform] in H. apply bind_ok in H as (u0 & _ & H). apply bind_ok in H as (u1 & Q1 & H).
      unfold setup in H. apply bind_ok in H as (u2 & Q2 & H). apply bind_ok in H as (u3 & Q3 & H). apply require_ok in Q3. apply lphase_eqb_eq in Q3. congruence.
    - exfalso. apply enter_ok in H as [? ? ? ? ? ? ?|? ? _ _ X _ _|? ? ? ?]; try discriminate. lia.
    - exfalso. destruct (pick_ok _ _ _ _ _ _ _ _ H) as (_ & _ & X & _). contradiction.
    - cbn [Lottery.perform] in H. apply bind_ok in H as (u0 & _ & H). apply bind_ok in H as (u1 & _ & H). apply bind_ok in H as (u2 & _ & H). inv H. cbn. auto.
    - cbn [Lottery.perform] in H. apply bind_ok in H as (u0 & _ & H). apply bind_ok in H as (u1 & _ & H). inv H. cbn. auto.
    - cbn [Lottery.perform] in H. apply bind_ok in H as (u1 & Q1 & H). inv H. cbn. auto.
  Qed.
  Lemma barren_all l : forall w, barren w -> barren (fst (perform_all l w)) /\ entrants (snd (perform_all l w)) = [] /\ payments (snd (perform_all l w)) = [].
  Proof.
    induction l as [|a l IH]; intros w B; cbn [Lottery.perform_all]; [auto|].
    destruct (perform a w) as [[w1 g1]| |] eqn:P; [|apply IH; auto|apply IH; auto]. destruct (barren_step _ _ _ _ B P) as (B1 & E1 & P1). specialize (IH w1 B1).
    destruct (perform_all l w1) as [w2 g2]. cbn [fst snd] in *. rewrite entrants_app, payments_app, E1, P1. exact IH.
  Qed.
  Lemma step_calls m D : exists l, perform_all l (both D) = (both (step m D), snd (perform_all l (both D))) /\ trail (step m D) = trail D ++ snd (perform_all l (both D)).
  Proof.
    assert (Z0 : forall D', both D' = both D -> trail D' = trail D -> exists l, perform_all l (both D) = (both D', snd (perform_all l (both D))) /\ trail D' = trail D ++ snd (perform_all l (both D))).
    { intros D' X Y. exists []. cbn. rewrite X, Y, app_nil_r. auto. }
    assert (Z1 : forall D' a g, perform a (both D) = Ok (both D', g) -> trail D' = trail D ++ g -> exists l, perform_all l (both D) = (both D', snd (perform_all l (both D))) /\ trail D' = trail D ++ snd (perform_all l (both D))).
    { intros D' a g X Y. exists [a]. cbn [Lottery.perform_all]. rewrite X. cbn. rewrite app_nil_r. auto. }
    destruct D as [w G a p q]. cbn [both trail] in *. destruct m as [x| | |calls acc| | |]; cbn [LotteryDemo.step].
    - destruct (perform x w) as [[w' g]| |] eqn:P; [eapply Z1; [exact P|reflexivity]|apply Z0; reflexivity|apply Z0; reflexivity].
    - destruct a; try (apply Z0; reflexivity). destruct (perform (Setup admin rand_round min_bet) w) as [[w' g]| |] eqn:P; [eapply Z1; [exact P|reflexivity]|apply Z0; reflexivity|apply Z0; reflexivity].
    - destruct a; apply Z0; reflexivity.
    - destruct a; try (apply Z0; reflexivity). destruct q as [|k q]; try (apply Z0; reflexivity). destruct (k =? rand_round); try (apply Z0; reflexivity).
      destruct (perform (PickWinner admin calls acc) w) as [[w' g]| |] eqn:P; [eapply Z1; [exact P|reflexivity]|apply Z0; reflexivity|apply Z0; reflexivity].
    - apply Z0; reflexivity.
    - destruct p; apply Z0; reflexivity.
    - destruct p as [| |bet [|x l]|]; try (apply Z0; reflexivity).
      destruct (perform (Enter x bet) w) as [[w' g]| |] eqn:P; [eapply Z1; [exact P|reflexivity]|apply Z0; reflexivity|apply Z0; reflexivity].
  Qed.
  Lemma barren_moves l : forall D, barren (both D) -> barren (both (moves l D)) /\ entrants (trail (moves l D)) = entrants (trail D) /\ payments (trail (moves l D)) = payments (trail D).
  Proof.
    induction l as [|m l IH]; intros D B; [auto|]. cbn [LotteryDemo.moves fold_left]. destruct (step_calls m D) as (cs & X & Y).
    destruct (barren_all cs _ B) as (B1 & E1 & P1). rewrite X in B1. cbn [fst] in B1. destruct (IH _ B1) as (B2 & E2 & P2).
    fold (moves l (step m D)). rewrite E2, P2, Y, entrants_app, payments_app, E1, P1, !app_nil_r. auto.
  Qed.

  (** an admin.ts started again never gets to pick *)
  Definition lost (D : demo) : Prop := lphase_of (lot (both D)) <> LSetup /\ (adm D = AOff \/ adm D = ADead).
  Lemma lost_step m D : allowed admin keys m -> DI D -> lost D -> lost (step m D) /\ payments (trail (step m D)) = payments (trail D).
  Proof.
    intros Al I [L1 L2]. destruct (step_grows m D Al I) as (_ & _ & _ & Sp). specialize (Sp L1). unfold lost.
    enough (X : (adm (step m D) = AOff \/ adm (step m D) = ADead) /\ payments (trail (step m D)) = payments (trail D)) by tauto.
    destruct D as [w G a p q]. pose proof I as [R O A1 B C0]. cbn [both trail adm] in *. clear Sp.
    destruct m as [x| | |calls acc| | |]; cbn [LotteryDemo.step allowed] in *.
    - destruct (perform x w) as [[w' g]| |] eqn:P; auto. cbn [adm trail].
      assert (N : not_by [l_owner (lot w)] x) by (rewrite O; eapply not_by_weak; [|exact Al]; intros b [<-|[]]; left; reflexivity).
      destruct (others_quiet _ _ _ _ (others_ok _ _ _ _ N P)) as (_ & _ & _ & _ & _ & Pg & _). rewrite payments_app, Pg, app_nil_r. auto.
    - destruct a; auto. destruct (perform (Setup admin rand_round min_bet) w) as [[w' g]| |] eqn:P; cbn [adm trail]; auto. apply setup_ok in P as (Ph & _). contradiction.
    - destruct a; auto; destruct L2; discriminate.
    - destruct a; auto; destruct L2; discriminate.
    - auto.
    - destruct p; auto.
    - destruct p as [| |bet [|x l]|]; auto.
      destruct (perform (Enter x bet) w) as [[w' g]| |] eqn:P; auto. cbn [adm trail].
      destruct (others_quiet _ _ _ _ (enter_ok _ _ _ _ _ P)) as (_ & _ & _ & _ & _ & Pg & _). rewrite payments_app, Pg, app_nil_r. auto.
  Qed.
  Lemma lost_moves l : forall D, Forall (allowed admin keys) l -> DI D -> lost D -> payments (trail (moves l D)) = payments (trail D).
  Proof.
    induction l as [|m l IH]; intros D F I L; [reflexivity|]. inversion F; subst. destruct (lost_step m D) as [L' P]; auto.
    cbn [LotteryDemo.moves fold_left]. fold (moves l (step m D)). rewrite IH; auto. apply DI_step; auto.
  Qed.

  (** ether is never forced on the lottery in negative amounts *)
  Lemma forced_nonneg a : forall w w' g, perform a w = Ok (w', g) -> forall y, In (Forced y) g -> 0 <= y.
  Proof.
    assert (All : forall l, Forall (fun a => forall w w' g, perform a w = Ok (w', g) -> forall y, In (Forced y) g -> 0 <= y) l ->
      forall w y, In (Forced y) (snd (perform_all l w)) -> 0 <= y).
    { induction 1 as [|b l Hb _ IH]; intros w y Iy; [contradiction|]. cbn [Lottery.perform_all] in Iy.
      destruct (perform b w) as [[w1 g1]| |] eqn:P; [|eauto|eauto]. specialize (IH w1 y). destruct (perform_all l w1) as [w2 g2]. cbn [snd] in *.
      apply in_app_or in Iy as [Iy|Iy]; eauto. }
    revert a. fix IH 1. intros a w w' g H y Iy. destruct a as [t|b r m|b x|b calls acc|b a|b|x].
    - cbn [Lottery.perform] in H. apply bind_ok in H as ([s' ev] & H1 & H). inv H. contradiction.
    - cbn [Lottery.perform] in H. apply bind_ok in H as (u0 & _ & H). apply bind_ok in H as (u1 & Q1 & H).
      unfold setup in H. apply bind_ok in H as (u2 & Q2 & H). apply bind_ok in H as (u3 & Q3 & H). inv H. contradiction.
    - apply enter_ok in H as [? ? ? ? ? ? ->|? ? ? ? ? ? ->|? ? ? ?]; [contradiction| |discriminate]. destruct Iy as [Iy|[]]. discriminate.
    - assert (Fc : Forall (fun a => forall w w' g, perform a w = Ok (w', g) -> forall y, In (Forced y) g -> 0 <= y) calls).
      { clear - IH. induction calls as [|a0 l IHl]; constructor; [apply IH|exact IHl]. }
      destruct (pick_ok _ _ _ _ _ _ _ _ H) as (_ & _ & _ & _ & _ & p & g' & _ & -> & w1 & ->). destruct Iy as [Iy|Iy]; [discriminate|]. eapply All; eauto.
    - cbn [Lottery.perform] in H. apply bind_ok in H as (u0 & _ & H). apply bind_ok in H as (u1 & _ & H). apply bind_ok in H as (u2 & _ & H). inv H. contradiction.
    - cbn [Lottery.perform] in H. apply bind_ok in H as (u0 & _ & H). apply bind_ok in H as (u1 & _ & H). inv H. contradiction.
    - cbn [Lottery.perform] in H. apply bind_ok in H as (u1 & Q1 & H). inv H. apply require_ok in Q1. destruct Iy as [Iy|[]]. inv Iy.
      unfold is_u256 in Q1. apply andb_prop in Q1 as [Q1 _]. apply Z.leb_le in Q1. exact Q1.
  Qed.
End D.
