(** C66: the lottery demo (scripts/lottery): for every schedule of the two scripts and of calls by anybody else to both contracts,
    every zkdvrf history before, either zkdvrf variant, and whatever the winner's code does when it is paid. *)
From Coq Require Import ZArith String List Bool Lia Permutation.
From Verif.Model Require Import Monad Evm Zkdvrf RealEnv Lottery LotteryDemo.
From Verif.Spec Require Import Dvrf Histories Onchain LotterySpec LotteryDemoSpec.
From Verif.Proofs Require Import ZkdvrfStep ZkdvrfInv1 ZkdvrfInv2 ZkdvrfInv3 ZkdvrfThms LotteryProofs LotteryDemoProofs.
From Verif.Props Require Import P_ContractDemo P_EndToEnd P_Lottery.
Import ListNotations.
Open Scope Z_scope.

Section C66.
  Variable v : variant.
  Variable E : env.
  Variable c : cfg.
  Variable admin : Z.
  Variable keys : list Z.
  Notation moves := (LotteryDemo.moves v E admin keys).
  Notation start := (deploy_lottery admin).
  Notation allowed := (allowed admin keys).
  (** the random of the round the demo waits for, as the contract returns it *)
  Notation third D := (getRandomAtRound (zk (both D)) rand_round).

  Lemma di tr s l : hist v E c tr s -> Forall allowed l -> DI v E c admin (moves l (start s)).
  Proof. intros H F. apply DI_moves; auto. eapply DI_deploy; eauto. Qed.
  Lemma getr w k p : getRandomAtRound w k = Ok p <-> p = roundToRandom w k /\ rvalue p <> 0.
  Proof.
    unfold getRandomAtRound. destruct (Z.eqb_spec (rvalue (roundToRandom w k)) 0) as [e|n]; cbn [negb require bind]; split.
    - discriminate. - intros [-> N]. contradiction. - intros X. assert (p = roundToRandom w k) by congruence. subst. auto. - intros [-> _]. reflexivity.
  Qed.

  Lemma bets_paid a x g : entrants g = [] -> bets (Paid a x :: g) = 0.
  Proof. intros E2. unfold bets. cbn [flat_map app]. induction g as [|e g IH]; [reflexivity|]. destruct e; cbn in *; try discriminate; auto. Qed.
  (** somebody is paid at most once, and if so: the winner is the one the third random singles out among those who had
      entered, in the order in which they entered; the prize is all bets (and ether forced on the contract before) *)
  Theorem C66_prize tr s l : hist v E c tr s -> Forall allowed l -> let D := moves l (start s) in
    (length (payments (trail D)) <= 1)%nat /\ forall a x, In (a, x) (payments (trail D)) ->
      lphase_of (lot (both D)) = LClose /\
      exists p, third D = Ok p /\ a = winner_of (keccak E) p (entrants (trail D)) /\ In a (entrants (trail D)) /\ bets (trail D) <= x <= bets (trail D) + forced_in (trail D).
  Proof.
    intros H F D. pose proof (di tr s l H F) as I. fold D in I. destruct (lphase_of (lot (both D))) eqn:Ph.
    1,2: destruct (d_order _ _ _ _ _ I) as [_ P]; [congruence|]; rewrite P; cbn; split; [lia|intros ? ? []].
    destruct (d_closed _ _ _ _ _ I Ph) as (G1 & G2 & x0 & p & Eg & P1 & P2 & Gr). pose proof (d_reach _ _ _ _ _ I) as R.
    assert (Pn : payments (trail D) = [(winner_of (keccak E) p (entrants G1), x0)]) by (rewrite Eg, payments_app, P1; unfold payments in *; cbn [flat_map app]; rewrite P2; reflexivity).
    destruct (C39_payments _ _ _ _ _ R _ _ _ _ Eg) as (I1 & Ex & _ & E2).
    assert (Ee : entrants (trail D) = entrants G1) by (rewrite Eg, entrants_app; unfold entrants in *; cbn [flat_map app]; rewrite E2; apply app_nil_r).
    rewrite Pn. split; [cbn; lia|]. intros a x [X|[]]. injection X as <- <-. split; [reflexivity|].
    exists p. rewrite Ee. split; [exact Gr|]. split; [reflexivity|]. split; [exact I1|].
    assert (B2 : bets (trail D) = bets G1) by (rewrite Eg, bets_app, (bets_paid _ _ _ E2); apply Z.add_0_r).
    assert (F0 : forall g, (forall y, In (Forced y) g -> 0 <= y) -> 0 <= forced_in g).
    { clear. induction g as [|e g IH]; intros Hy; [cbn; lia|]. change (e :: g) with ([e] ++ g). rewrite forced_app. specialize (IH (fun y Iy => Hy y (or_intror Iy))). destruct e; cbn in *; try lia. specialize (Hy _ (or_introl eq_refl)). lia. }
    assert (Fo : forall y, In (Forced y) (trail D) -> 0 <= y). { clear -R. revert R. generalize (both D) (trail D). intros w G R. revert w G R. apply (lreach_ind' v E c (fun w G => forall y, In (Forced y) G -> 0 <= y)).
      - intros ? ? ? _ y [].
      - intros w G a w' g _ IH P y Iy. apply in_app_or in Iy as [Iy|Iy]; [auto|]. exact (forced_nonneg v E a w w' g P y Iy). }
    assert (0 <= forced_in G1) by (apply F0; intros y Iy; apply Fo; rewrite Eg; apply in_or_app; auto).
    assert (forced_in (trail D) = forced_in G1 + forced_in G2) by (rewrite Eg, forced_app; reflexivity).
    assert (0 <= forced_in G2) by (apply F0; intros y Iy; apply Fo; rewrite Eg; apply in_or_app; right; right; exact Iy).
    unfold paid in Ex. rewrite P1 in Ex. cbn in Ex. rewrite B2. lia.
  Qed.

  (** and somebody is paid: if admin.ts was listening before the third random existed, has not been killed or ended, and has
      handled its events, then as soon as the random exists the prize has been paid *)
  Theorem C66_pays tr s l1 l2 : hist v E c tr s -> Forall allowed (l1 ++ AdminListen :: l2) -> ~ In AdminRestart l2 ->
    adm (moves l1 (start s)) = ASetUp -> (forall p, third (moves l1 (start s)) <> Ok p) ->
    let D := moves (l1 ++ AdminListen :: l2) (start s) in adm D = AListening -> inbox D = [] -> forall p, third D = Ok p ->
    exists x, payments (trail D) = [(winner_of (keccak E) p (entrants (trail D)), x)].
  Proof.
    intros H F Nr Su Nt D Al Ib p Gr. pose proof (di tr s _ H F) as I. fold D in I. apply Forall_app in F as [F1 F2]. inversion F2 as [|? ? _ F3]; subst.
    pose proof (di tr s l1 H F1) as I1. set (D1 := moves l1 (start s)) in *.
    assert (Aw : awaits (LotteryDemo.step v E admin keys AdminListen D1)).
    { destruct D1 as [w G a q b]. cbn [adm] in Su. subst a. cbn [LotteryDemo.step]. unfold awaits. cbn [adm both inbox]. intros N. exfalso.
      cbn [both] in Nt. apply (Nt (roundToRandom (zk w) rand_round)). apply getr. auto. }
    assert (Dd : D = moves l2 (LotteryDemo.step v E admin keys AdminListen D1)) by (unfold D; rewrite moves_app; reflexivity).
    assert (I2 : DI v E c admin (LotteryDemo.step v E admin keys AdminListen D1)) by (apply DI_step; [exact Logic.I|exact I1]).
    pose proof (awaits_moves v E c admin keys l2 _ F3 Nr I2 Aw) as Aw'. rewrite <- Dd in Aw'. unfold awaits in Aw'. rewrite Al, Ib in Aw'.
    assert (N : rvalue (roundToRandom (zk (both D)) rand_round) <> 0) by (apply getr in Gr as [<- N]; exact N).
    destruct (Aw' N) as [[]|Cl]. destruct (d_closed _ _ _ _ _ I Cl) as (G1 & G2 & x & p' & Eg & P1 & P2 & Gr').
    assert (p' = p) by congruence. subst p'. destruct (C39_payments _ _ _ _ _ (d_reach _ _ _ _ _ I) _ _ _ _ Eg) as (_ & _ & _ & E2).
    exists x. assert (Ee : entrants (trail D) = entrants G1) by (rewrite Eg, entrants_app; unfold entrants in *; cbn [flat_map app]; rewrite E2; apply app_nil_r).
    rewrite Ee, Eg, payments_app, P1. unfold payments in *. cbn [flat_map app]. rewrite P2. reflexivity.
  Qed.
  (** the handling of an event ends admin.ts only if nobody has entered, the winner refuses the money, the announced random
      was zero (so there is none), or the prize has been paid already *)
  Theorem C66_ends tr s l calls accept : hist v E c tr s -> Forall allowed l -> 0 < admin < M160 -> let D := moves l (start s) in
    adm D = AListening -> adm (LotteryDemo.step v E admin keys (AdminHandle calls accept) D) = ADead ->
    entrants (trail D) = [] \/ accept = false \/ (forall p, third D <> Ok p) \/ lphase_of (lot (both D)) = LClose \/ lphase_of (lot (both D)) = LSetup.
  Proof.
    intros H F Ad D Al De. pose proof (di tr s l H F) as I. fold D in I. destruct (lphase_of (lot (both D))) eqn:Ph; auto.
    destruct accept; auto. destruct (entrants (trail D)) as [|e0 r0] eqn:En; auto. right. right. left. intros p Gr.
    destruct (d_order _ _ _ _ _ I) as [Pl _]; [congruence|]. destruct (d_args _ _ _ _ _ I) as [A1 _]; [congruence|]. pose proof (d_owner _ _ _ _ _ I) as Ow.
    destruct D as [w G a q b]. cbn [adm both trail] in *. subst a. cbn [LotteryDemo.step] in De. destruct b as [|k b]; [discriminate|].
    destruct (k =? rand_round); [|discriminate]. rewrite perform_pick in De. unfold from_ok, is_addr in De.
    rewrite (proj2 (Z.leb_le 0 admin)), (proj2 (Z.ltb_lt admin M160)), (proj2 (Z.eqb_neq admin 0)) in De by lia. cbn [andb negb require bind] in De.
    unfold pick_begin in De. rewrite Ow, Z.eqb_refl, Ph, Pl, En, A1, Gr in De. apply getr in Gr as [_ Np].
    change (0 <? Z.of_nat (length (e0 :: r0))) with true in De. cbn [require bind lphase_eqb] in De. rewrite (proj2 (Z.eqb_neq _ _) Np) in De. cbn [require bind negb] in De.
    destruct (perform_all v E calls _) as [w2 g2]. unfold pick_end in De. cbn [require bind adm] in De. discriminate.
  Qed.

  (** the configured players, each with a bet of 5 ether, are all in, in the order of the configuration, if play.ts finishes
      before the third round is opened *)
  Theorem C66_players tr s l : hist v E c tr s -> Forall allowed l -> NoDup keys -> Forall (fun a => 0 < a < M160) keys -> let D := moves l (start s) in
    plr D = PExit -> currentRoundNum (zk (both D)) < 3 ->
    filter (fun a => existsb (Z.eqb a) keys) (entrants (trail D)) = keys /\
    forall a, In a keys -> exists k, In (Entered a (5 * 10 ^ 18) k) (trail D) /\ k < 3.
  Proof.
    intros H F Dk Ak D Pe L. assert (I0 : DI v E c admin (start s)) by (eapply DI_deploy; eauto).
    assert (En : entering keys D) by (apply (entering_moves v E c admin keys Dk Ak l); auto; intros _; reflexivity).
    assert (St : stakes keys D) by (apply (stakes_moves v E c admin keys l); auto; split; [intros ? ? ? []|exact Logic.I]).
    specialize (En L). rewrite Pe in En. split; [exact En|]. intros a Ia. assert (Ie : In a (entrants (trail D))) by (apply (ours_in keys (trail D) a Ia); unfold ours in *; rewrite En; exact Ia).
    unfold entrants in Ie. apply in_flat_map in Ie as (e & Ie & X). destruct e as [b x k| |]; cbn in X; [|contradiction|contradiction]. destruct X as [->|[]].
    pose proof (proj1 St _ _ _ Ie Ia) as ->. exists k. split; [exact Ie|].
    pose proof (di tr s l H F) as I. fold D in I. destruct (C39_entries _ _ _ _ _ (d_reach _ _ _ _ _ I)) as (_ & Pm & Q). destruct (Q _ _ _ Ie) as (_ & Kr & _).
    assert (Ns : lphase_of (lot (both D)) <> LSetup). { intros Z0. destruct (lreach_inv _ _ _ _ _ (d_reach _ _ _ _ _ I)) as ([] & _ & _). destruct (i_setup Z0) as [Z1 _]. apply (no_entry _ _ _ _ Z1 Ie). }
    destruct (d_args _ _ _ _ _ I Ns) as [A1 _]. rewrite A1 in Kr. exact Kr.
  Qed.

  (** whatever is refused on the way: once play.ts has ended, every player of the configuration has been tried, with 5 ether *)
  Definition tried (s : st) (l : list move) (a : Z) : Prop := exists l1 l2, l = l1 ++ PlayEnter :: l2 /\
    let w := both (moves l1 (start s)) in let w' := both (moves (l1 ++ [PlayEnter]) (start s)) in
    match perform v E (Enter a (5 * 10 ^ 18)) w with Ok (w1, _) => w' = w1 | _ => w' = w end.
  Lemma tried_later s l m a : tried s l a -> tried s (l ++ [m]) a.
  Proof. intros (l1 & l2 & -> & T). exists l1, (l2 ++ [m]). split; [rewrite <- app_assoc; reflexivity|exact T]. Qed.
  Theorem C66_every_player_tried s l : plr (moves l (start s)) = PExit -> forall a, In a keys -> tried s l a.
  Proof.
    assert (Inv : match plr (moves l (start s)) with
                  | PExit => forall a, In a keys -> tried s l a
                  | PEntering bet rest => bet = 5 * 10 ^ 18 /\ exists done, keys = done ++ rest /\ forall a, In a done -> tried s l a
                  | _ => True end).
    { induction l as [|m l IH] using rev_ind; [exact Logic.I|].
      assert (Keep : forall p, plr (moves (l ++ [m]) (start s)) = p -> plr (moves l (start s)) = p -> match p with PExit => forall a, In a keys -> tried s (l ++ [m]) a
        | PEntering bet rest => bet = 5 * 10 ^ 18 /\ exists done, keys = done ++ rest /\ forall a, In a done -> tried s (l ++ [m]) a | _ => True end).
      { intros p _ X. rewrite X in IH. destruct p; [exact Logic.I|exact Logic.I| |].
        - destruct IH as (B & done & K & T). split; [exact B|]. exists done. split; [exact K|]. intros a Ia. apply tried_later, T, Ia.
        - intros a Ia. apply tried_later, IH, Ia. }
      pose proof (moves_app v E admin keys l [m] (start s)) as Mv. cbn [LotteryDemo.moves fold_left] in Mv. set (D := LotteryDemo.moves v E admin keys l (start s)) in *.
      destruct m; try (apply Keep; [reflexivity|]; rewrite Mv; clearbody D; destruct D as [w G ad p q]; cbn [LotteryDemo.step plr]; repeat match goal with |- context [match ?x with _ => _ end] => destruct x end; reflexivity).
      - (* AdminSetup *)
        destruct (plr D) eqn:P; try (apply Keep; [reflexivity|]; rewrite Mv; clearbody D; destruct D as [w G ad p q]; cbn [plr] in P; subst p; cbn [LotteryDemo.step]; destruct ad; try reflexivity; destruct (perform _ _ _ _) as [[]| |]; reflexivity).
        rewrite Mv. clearbody D. destruct D as [w G ad p q]. cbn [plr] in P. subst p. cbn [LotteryDemo.step]. destruct ad; try exact Logic.I. destruct (perform _ _ _ _) as [[]| |]; try exact Logic.I.
        cbn [plr]. split; [reflexivity|]. exists []. split; [reflexivity|intros ? []].
      - (* PlayStart *)
        destruct (plr D) eqn:P; try (apply Keep; [reflexivity|]; rewrite Mv; clearbody D; destruct D as [w G ad p q]; cbn [plr] in P; subst p; reflexivity).
        rewrite Mv. clearbody D. destruct D as [w G ad p q]. cbn [plr] in P. subst p. exact Logic.I.
      - (* PlayEnter *)
        destruct (plr D) as [| |bet [|x rest]|] eqn:P; try (apply Keep; [reflexivity|]; rewrite Mv; clearbody D; destruct D as [w G ad p q]; cbn [plr] in P; subst p; reflexivity).
        + rewrite Mv. destruct IH as (B & done & K & T). assert (X : plr (LotteryDemo.step v E admin keys PlayEnter D) = PExit) by (clearbody D; destruct D as [w G ad p q]; cbn [plr] in P; subst p; reflexivity).
          rewrite X. intros a Ia. rewrite K, app_nil_r in Ia. apply tried_later, T, Ia.
        + destruct IH as (B & done & K & T). subst bet.
          assert (Tx : tried s (l ++ [PlayEnter]) x).
          { exists l, []. split; [reflexivity|]. cbv zeta. rewrite Mv. fold D. clear -P. clearbody D. destruct D as [w G ad p q]. cbn [plr] in P. subst p. cbn [LotteryDemo.step both].
            destruct (perform v E (Enter x (5 * 10 ^ 18)) w) as [[w1 g]| |]; reflexivity. }
          assert (X : plr (LotteryDemo.step v E admin keys PlayEnter D) = PEntering (5 * 10 ^ 18) rest).
          { clear -P. clearbody D. destruct D as [w G ad p q]. cbn [plr] in P. subst p. cbn [LotteryDemo.step]. destruct (perform v E (Enter x (5 * 10 ^ 18)) w) as [[w1 g]| |]; reflexivity. }
          rewrite Mv, X. split; [reflexivity|]. exists (done ++ [x]). split; [rewrite <- app_assoc; exact K|]. intros a Ia. apply in_app_or in Ia as [Ia|[<-|[]]]; [apply tried_later, T, Ia|exact Tx]. }
    intros P. rewrite P in Inv. exact Inv.
  Qed.

  (** admin.ts started when the third round has been opened already sets up a lottery that nobody can ever enter and whose winner
      is never picked; setup cannot be repeated *)
  Theorem C66_too_late s D l : adm D = AOff -> players (lot (both D)) = [] -> lphase_of (lot (both D)) = LSetup -> l_owner (lot (both D)) = admin -> 0 < admin < M160 ->
    s = zk (both D) -> 3 <= currentRoundNum s ->
    let D' := moves (AdminSetup :: l) D in lphase_of (lot (both D')) = LOpen /\ entrants (trail D') = entrants (trail D) /\ payments (trail D') = payments (trail D).
  Proof.
    intros Ao Pl Ph Ow Ad -> Rn D'. unfold D'. cbn [LotteryDemo.moves fold_left]. fold (moves l (LotteryDemo.step v E admin keys AdminSetup D)).
    assert (X : exists p q, LotteryDemo.step v E admin keys AdminSetup D = Demo (mkW (zk (both D)) (mkL admin [] (hasEntered (lot (both D))) min_bet rand_round (randValue (lot (both D))) LOpen (lbalance (lot (both D))))) (trail D) ASetUp p q).
    { destruct D as [w G a q b]. cbn [adm both trail] in *. subst a. cbn [LotteryDemo.step Lottery.perform]. unfold from_ok, is_addr.
      rewrite (proj2 (Z.leb_le 0 admin)), (proj2 (Z.ltb_lt admin M160)), (proj2 (Z.eqb_neq admin 0)) by lia. cbn [andb negb require bind].
      change (is_u256 rand_round && is_u256 min_bet) with true. cbn [require bind]. unfold setup. rewrite Ow, Z.eqb_refl, Ph, Pl. cbn [require bind lphase_eqb]. rewrite app_nil_r. eauto. }
    destruct X as (p & q & X). rewrite X. set (D2 := Demo _ _ _ _ _).
    assert (B : barren (both D2)) by (unfold barren; cbn; auto). destruct (barren_moves v E admin keys l D2 B) as ((B1 & _) & B2 & B3).
    split; [exact B1|]. rewrite B2, B3. auto.
  Qed.
  (** an admin.ts that is started again after its setup never pays: its setup is refused *)
  Theorem C66_restart tr s l1 l2 : hist v E c tr s -> Forall allowed (l1 ++ AdminRestart :: l2) -> let D := moves l1 (start s) in
    lphase_of (lot (both D)) <> LSetup -> payments (trail (moves (l1 ++ AdminRestart :: l2) (start s))) = payments (trail D).
  Proof.
    intros H F D Ns. apply Forall_app in F as [F1 F2]. inversion F2 as [|? ? A3 F3]; subst. pose proof (di tr s l1 H F1) as I. fold D in I.
    rewrite moves_app. fold D. cbn [LotteryDemo.moves fold_left]. set (D2 := LotteryDemo.step v E admin keys AdminRestart D).
    assert (I2 : DI v E c admin D2) by (apply DI_step; [exact Logic.I|exact I]).
    assert (L2 : lost D2) by (clear -Ns; unfold D2, lost; clearbody D; destruct D as [w G a q b]; split; [exact Ns|left; reflexivity]).
    fold (moves l2 D2). rewrite (lost_moves v E c admin keys l2 D2 F3 I2 L2). clear. unfold D2. clearbody D. destruct D as [w G a q b]. reflexivity.
  Qed.
End C66.

(** two lotteries over deployed contracts with the same group key (of either variant, with other members, schedules and callers):
    if the same players entered in the same order, the same one wins.  So nobody chooses the winner by the timing of the members'
    submissions, by who submits, or by what they draw. *)
Theorem C66_nobody_chooses v v' keccak in_g2 pairing halo2 halo2' c c' admin admin' keys keys' tr tr' s s' l l' a a' x x' :
  keccak_ok keccak -> in_g2_ok in_g2 -> pairing_ok pairing ->
  let E := real_env keccak in_g2 pairing halo2 in let E' := real_env keccak in_g2 pairing halo2' in
  hist v E c tr s -> hist v' E' c' tr' s' -> Forall (allowed admin keys) l -> Forall (allowed admin' keys') l' ->
  let D := LotteryDemo.moves v E admin keys l (deploy_lottery admin s) in let D' := LotteryDemo.moves v' E' admin' keys' l' (deploy_lottery admin' s') in
  getGpk (zk (both D)) = getGpk (zk (both D')) -> entrants (trail D) = entrants (trail D') ->
  In (a, x) (payments (trail D)) -> In (a', x') (payments (trail D')) -> a = a'.
Proof.
  intros K HG HP E E' H H' F F' D D' G En P P'.
  destruct (C66_prize v E c admin keys tr s l H F) as [_ X]. destruct (X _ _ P) as (_ & p & R & -> & _).
  destruct (C66_prize v' E' c' admin' keys' tr' s' l' H' F') as [_ X']. destruct (X' _ _ P') as (_ & p' & R' & -> & _).
  destruct (lreach_inv _ _ _ _ _ (d_reach _ _ _ _ _ (di v E c admin keys tr s l H F))) as ([[t1 T1] _ _ _ _ _ _ _ _ _] & _ & _).
  destruct (lreach_inv _ _ _ _ _ (d_reach _ _ _ _ _ (di v' E' c' admin' keys' tr' s' l' H' F'))) as ([[t2 T2] _ _ _ _ _ _ _ _ _] & _ & _).
  rewrite (C52_random_determined v v' keccak in_g2 pairing halo2 halo2' c c' t1 t2 _ _ rand_round p p' K HG HP T1 T2 ltac:(discriminate) G R R'). fold D D'. rewrite En. reflexivity.
Qed.

(** ** a run of the demo: two rounds are over; three players (and somebody else) enter, the third round is run, the prize is paid *)
Definition ld_zk : list tx := demo_txs ++ [call0 11 (SubmitPartialEval (mkPeval 2 (1, 2) 0 0)); call0 13 (SubmitPartialEval (mkPeval 3 (1, 2) 0 0)); call0 100 (SubmitRandom (mkPrand (1, 2) 7))].
Definition ld_before : list move := [PlayStart; AdminSetup].
Definition ld_after : list move :=
  [PlayEnter; Other (Enter 900 (6 * 10 ^ 18)); Other (Enter 901 1) (* reverts *); PlayEnter; PlayEnter; PlayEnter].
Definition ld_round : list move :=
  [Other (ZkTx (call0 100 InitiateRandom)); Other (Enter 902 (6 * 10 ^ 18)) (* reverts: too late *); AdminHandle [] true (* nothing to handle *);
   Other (ZkTx (call0 11 (SubmitPartialEval (mkPeval 2 (1, 2) 0 0)))); Other (ZkTx (call0 13 (SubmitPartialEval (mkPeval 3 (1, 2) 0 0))));
   Other (ZkTx (call0 100 (SubmitRandom (mkPrand (1, 2) 7)))); AdminHandle [Enter 700 (10 ^ 20)] true].
Definition ld_s v := run v toy P_ContractDemo.start ld_zk.
Lemma ld_hist v : hist v toy toy_cfg (steps v toy P_ContractDemo.start ld_zk) (ld_s v).
Proof. apply (hist_steps v toy toy_cfg ld_zk [] P_ContractDemo.start). apply hist_deploy; reflexivity. Qed.
Example C66_meets v : let l2 := ld_after ++ ld_round in let D1 := moves v toy 500 [601; 602; 603] ld_before (deploy_lottery 500 (ld_s v)) in
  let D := moves v toy 500 [601; 602; 603] (ld_before ++ AdminListen :: l2) (deploy_lottery 500 (ld_s v)) in
  hist v toy toy_cfg (steps v toy P_ContractDemo.start ld_zk) (ld_s v) /\ Forall (allowed 500 [601; 602; 603]) (ld_before ++ AdminListen :: l2) /\ ~ In AdminRestart l2 /\
  adm D1 = ASetUp /\ (forall p, getRandomAtRound (zk (both D1)) rand_round <> Ok p) /\
  adm D = AListening /\ inbox D = [] /\ plr D = PExit /\ entrants (trail D) = [601; 900; 602; 603] /\ payments (trail D) = [(601, 21 * 10 ^ 18)] /\
  currentRoundNum (zk (both (moves v toy 500 [601; 602; 603] (ld_before ++ AdminListen :: ld_after) (deploy_lottery 500 (ld_s v))))) < 3 /\
  plr (moves v toy 500 [601; 602; 603] (ld_before ++ AdminListen :: ld_after) (deploy_lottery 500 (ld_s v))) = PExit.
Proof.
  cbv zeta. split; [exact (ld_hist v)|]. split.
  { unfold ld_before, ld_after, ld_round. cbn [app]. repeat (constructor; [cbn [allowed]; try exact Logic.I|]); try constructor.
    all: try (intros b Hb; cbn in Hb; try discriminate; inversion Hb; subst; cbn; intuition lia). }
  split. { unfold ld_after, ld_round. cbn [app In]. intros X. repeat (destruct X as [X|X]; [discriminate X|]). exact X. }
  destruct v; (split; [vm_compute; reflexivity|]); (split; [intros p X; vm_compute in X; discriminate|]); repeat split; vm_compute; reflexivity.
Qed.

Print Assumptions C66_prize.
Print Assumptions C66_pays.
Print Assumptions C66_ends.
Print Assumptions C66_players.
Print Assumptions C66_too_late.
Print Assumptions C66_restart.
Print Assumptions C66_nobody_chooses.
Print Assumptions C66_meets.
Print Assumptions C66_every_player_tried.
