(** C39, C40: the lottery (contracts/lottery.sol) reading its random from zkdvrf / zkdvrf_pre.
    Ranges over both zkdvrf variants, every environment, every earlier zkdvrf history, every interleaving of calls to both contracts
    and everything the winner's code may do while it is being paid. *)
From Coq Require Import ZArith String List Bool Lia Permutation Factorial.
From Verif.Model Require Import Monad Evm Zkdvrf Lottery.
From Verif.Spec Require Import Histories LotterySpec.
From Verif.Proofs Require Import ZkdvrfStep ZkdvrfInv1 ZkdvrfInv2 ZkdvrfInv3 ZkdvrfThms ShuffleProofs LotteryProofs.
From Verif.Props Require Import P_ContractDemo.
Import ListNotations.
Open Scope Z_scope.

Section Lottery.
  Variable v : variant.
  Variable E : env.
  Variable c : cfg.
  Notation reach := (lreach v E c).

  (** every entry is by a distinct address, with at least the minimum bet, before the chosen round was opened *)
  Theorem C39_entries w G : reach w G ->
    NoDup (entrants G) /\ Permutation (players (lot w)) (entrants G) /\
    (forall a x k, In (Entered a x k) G -> minBet (lot w) <= x /\ k < randRoundNum (lot w) /\ a <> 0).
  Proof. intros R. destruct (lreach_inv _ _ _ _ _ R) as ([] & _ & _). auto. Qed.

  (** every payment goes to somebody who had entered, is of the whole balance at that time, and nobody enters afterwards *)
  Theorem C39_payments w G : reach w G -> forall G1 a x G2, G = G1 ++ Paid a x :: G2 ->
    In a (entrants G1) /\ x = bets G1 + forced_in G1 - paid G1 /\ 0 <= x /\ entrants G2 = [].
  Proof. intros R G1 a x G2 H. destruct (lreach_inv _ _ _ _ _ R) as ([] & _ & _). destruct (i_split _ _ _ _ H) as (A & B & C & D). auto. Qed.

  (** the contract never holds anything but the bets (and ether forced on it) minus what it has paid, and never pays more than it got *)
  Theorem C39_balance w G : reach w G -> lbalance (lot w) = bets G + forced_in G - paid G /\ paid G <= bets G + forced_in G.
  Proof. intros R. destruct (lreach_inv _ _ _ _ _ R) as ([] & [N _] & _). split; auto. lia. Qed.

  (** after a payment (seen from the top level) the lottery is closed; once closed, nobody enters or is paid any more *)
  Theorem C39_closed w G : reach w G ->
    (payments G <> [] -> lphase_of (lot w) = LClose) /\
    (lphase_of (lot w) = LClose -> payments G <> [] /\
       forall l, let '(w', g) := perform_all v E l w in lphase_of (lot w') = LClose /\ entrants g = [] /\ payments g = []).
  Proof.
    intros R. destruct (lreach_inv _ _ _ _ _ R) as (I & N & T). split; [auto|]. intros Ph. split; [destruct I; auto|].
    clear -Ph. intros l. revert w Ph. induction l as [|a l IH]; intros w Ph; cbn [perform_all]; [auto|].
    destruct (perform v E a w) as [[w1 g1]| |] eqn:P; [|apply IH; auto|apply IH; auto].
    destruct (top_step _ _ _ _ _ _ P) as (_ & B & _). destruct (B Ph) as (B1 & B2 & B3). specialize (IH _ B1).
    destruct (perform_all v E l w1) as [w2 g2]. destruct IH as (C1 & C2 & C3).
    rewrite entrants_app, payments_app, B2, B3, C2, C3. auto.
  Qed.

  (** at most one payment is made, unless pickWinner is itself called from inside the payment ... *)
  Theorem C39_one_payment w G l : reach w G -> payments G = [] -> (forall a, In a l -> picks_again a = false) ->
    (length (payments (G ++ snd (perform_all v E l w))) <= 1)%nat.
  Proof.
    intros _ HG. rewrite payments_app, HG. cbn [app]. clear HG. revert w.
    assert (Z0 : forall l w, lphase_of (lot w) = LClose -> payments (snd (perform_all v E l w)) = []).
    { clear. induction l as [|a l IH]; intros w Ph; cbn [perform_all]; [auto|].
      destruct (perform v E a w) as [[w1 g1]| |] eqn:P; [|apply IH; auto|apply IH; auto].
      destruct (top_step _ _ _ _ _ _ P) as (_ & B & _). destruct (B Ph) as (B1 & B2 & B3). specialize (IH _ B1).
      destruct (perform_all v E l w1) as [w2 g2]. cbn [snd] in *. rewrite payments_app, B3, IH. auto. }
    induction l as [|a l IH]; intros w Hl; cbn [perform_all]; [cbn; lia|].
    assert (H2 : forall b, In b l -> picks_again b = false) by (intros; apply Hl; right; auto).
    destruct (perform v E a w) as [[w1 g1]| |] eqn:P; [|apply IH; auto|apply IH; auto].
    destruct (top_step _ _ _ _ _ _ P) as (A & B & C). specialize (C (Hl a (or_introl eq_refl))).
    pose proof (Z0 l w1) as Z1. specialize (IH w1 H2).
    destruct (perform_all v E l w1) as [w2 g2]. cbn [snd] in *. rewrite payments_app, app_length.
    destruct (payments g1) as [|p ps] eqn:Pg; [cbn; auto|]. rewrite Z1 by (apply A; discriminate). cbn in *. lia.
  Qed.

  (** ... and then every payment but the first is of ether that was forced on the contract in the meantime: without any, of 0. *)
  Theorem C39_later_payments_zero w G : reach w G -> forced_in G = 0 -> (forall x, In (Forced x) G -> 0 <= x) ->
    forall G1 a x G2, G = G1 ++ Paid a x :: G2 -> payments G1 <> [] -> x = 0.
  Proof.
    intros R HF HFp G1 a x G2 HG HP. destruct (C39_payments _ _ R _ _ _ _ HG) as (_ & -> & _ & _).
    assert (F0 : forall A B, G = A ++ B -> forced_in A = 0).
    { assert (K : forall l, (forall x, In (Forced x) l -> 0 <= x) -> 0 <= forced_in l).
      { induction l as [|e l IH]; intros Hl; [cbn; lia|]. change (e :: l) with ([e] ++ l). rewrite forced_app.
        specialize (IH (fun y Hy => Hl y (or_intror Hy))). destruct e; cbn in *; try lia. specialize (Hl _ (or_introl eq_refl)). lia. }
      intros A B ->. rewrite forced_app in HF.
      pose proof (K A ltac:(intros; apply HFp, in_or_app; auto)). pose proof (K B ltac:(intros; apply HFp, in_or_app; auto)). lia. }
    rewrite (F0 _ _ HG).
    assert (L : forall l, payments l <> [] -> exists A b y B, l = A ++ Paid b y :: B /\ payments B = []).
    { induction l as [|e l IH]; [cbn; congruence|]. intros Hl. destruct (payments l) eqn:Pl.
      - destruct e; cbn in Hl; rewrite ?Pl in Hl; try (unfold payments in Pl; rewrite Pl in Hl; congruence). exists [], a0, value, l. auto.
      - destruct IH as (A & b & y & B & -> & HB); [congruence|]. exists (e :: A), b, y, B. auto. }
    destruct (L _ HP) as (A & b & y & B & -> & HB).
    rewrite <- app_assoc in HG. cbn in HG. destruct (C39_payments _ _ R _ _ _ _ HG) as (_ & Hy & _ & HE).
    rewrite (F0 _ _ HG) in Hy. rewrite entrants_app in HE. apply app_eq_nil in HE as [HE _].
    assert (BB : bets B = 0).
    { clear -HE. induction B as [|e B IH]; [auto|]. destruct e; cbn in HE; try discriminate; specialize (IH HE); unfold bets in *; cbn; auto. }
    rewrite bets_app, paid_app. change (Paid b y :: B) with ([Paid b y] ++ B). rewrite bets_app, paid_app, BB.
    unfold paid at 2 3. rewrite HB. unfold bets at 2. cbn. lia.
  Qed.

  (** who wins: the head of the entrants list after the shuffle driven by the random of the chosen round; only the owner can trigger it *)
  Theorem C39_winner w G b calls acc w' g : reach w G -> perform v E (PickWinner b calls acc) w = Ok (w', g) ->
    b = l_owner (lot w) /\ lphase_of (lot w) = LOpen /\ entrants G <> [] /\
    exists p g', getRandomAtRound (zk w) (randRoundNum (lot w)) = Ok p /\
      g = Paid (hd 0 (fisher_yates (fun i => Z.to_nat (keccak E (word (rvalue p) ++ word (Z.of_nat i)) mod (Z.of_nat i + 1))) (players (lot w))))
               (lbalance (lot w)) :: g'.
  Proof.
    intros R H. destruct (pick_ok _ _ _ _ _ _ _ _ H) as (A & B & C & _ & _ & p & g' & D & F & _).
    split; [auto|]. split; [auto|]. split; [|exists p, g'; auto].
    destruct (C39_entries _ _ R) as (_ & P & _). intros Z0. rewrite Z0 in P. apply Permutation_sym, Permutation_nil in P. auto.
  Qed.

  (** as soon as the random of the chosen round exists the winner is decided: no call by anybody to either contract changes it
      (while the lottery stays open), and the pot only grows *)
  Theorem C39_winner_fixed w G l : reach w G -> lphase_of (lot w) = LOpen -> rvalue (roundToRandom (zk w) (randRoundNum (lot w))) <> 0 ->
    let w' := fst (perform_all v E l w) in lphase_of (lot w') = LOpen ->
    players (lot w') = players (lot w) /\ getRandomAtRound (zk w') (randRoundNum (lot w')) = getRandomAtRound (zk w) (randRoundNum (lot w)) /\
    lbalance (lot w) <= lbalance (lot w').
  Proof.
    intros R H1 H2 w' H3. destruct (settled v E c l w G R H1 H2 H3) as (A & B & C & D). fold w' in A, B, C, D. split; [auto|]. split; [|auto].
    unfold getRandomAtRound. rewrite B, C. auto.
  Qed.

  (** a winner that cannot receive ether therefore locks the pot: no pickWinner ever succeeds *)
  Theorem C39_refusal_reverts w b calls : forall r, perform v E (PickWinner b calls false) w = Ok r -> False.
  Proof. intros [w' g] H. destruct (pick_ok _ _ _ _ _ _ _ _ H) as (_ & _ & _ & X & _). discriminate. Qed.
End Lottery.

(** C40: over index sequences js with js[i] in 0..i, the shuffle is a bijection onto the orderings of distinct players *)
Theorem C40_bijection l l' : NoDup l -> Permutation l l' ->
  exists! js, length js = length l /\ (forall i, (i < length js)%nat -> (nth i js 0 <= i)%nat) /\ fisher_yates (fun i => nth i js 0%nat) l = l'.
Proof.
  intros N P. destruct (fy_surj l l' P) as (js & L & V & F). exists js. split; [auto|]. intros js' (L' & V' & F').
  apply (fy_inj l N js js' L L' V V'). transitivity l'; [exact F|symmetry; exact F'].
Qed.
(** whatever the indices in range, the result is an ordering of the same players *)
Theorem C40_permutation pick l : (forall i, (pick i <= i)%nat) -> Permutation l (fisher_yates pick l).
Proof. apply fisher_yates_perm. Qed.
(** the indices taken from the random are in range *)
Theorem C40_indices_in_range E rv i : (pick_index E rv i <= i)%nat.
Proof. apply pick_index_le. Qed.
(** of the n! equally likely index sequences, each player is first in exactly (n-1)! *)
Theorem C40_uniform l p : NoDup l -> In p l ->
  let n := length l in
  (forall js, In js (all_choices n) <-> length js = n /\ forall i, (i < length js)%nat -> (nth i js 0 <= i)%nat) /\
  NoDup (all_choices n) /\ length (all_choices n) = fact n /\
  length (filter (fun js => hd 0 (fisher_yates (fun i => nth i js 0%nat) l) =? p) (all_choices n)) = fact (n - 1).
Proof.
  intros N I n. split; [intros js; apply all_choices_ok|]. split; [apply all_choices_nodup|]. split; [apply all_choices_length|].
  exact (fy_uniform l N p I).
Qed.

(** * Concrete runs *)
Definition lot_acts : list act :=
  [Setup 500 2 10; Enter 601 10; Enter 602 25; Enter 601 30 (* reverts *); Enter 603 5 (* reverts *); Enter 604 11; LForceEther 3;
   ZkTx (call0 100 InitiateRandom); Enter 605 50 (* reverts: round 2 is open *); PickWinner 500 [] true (* reverts: no random yet *);
   ZkTx (call0 11 (SubmitPartialEval (mkPeval 2 (1, 2) 0 0))); ZkTx (call0 13 (SubmitPartialEval (mkPeval 3 (1, 2) 0 0)));
   ZkTx (call0 100 (SubmitRandom (mkPrand (1, 2) 7)))].
Definition lot_zk : list tx := removelast demo_txs.
Definition lot_w0 v := mkW (run v toy start lot_zk) (lconstruct 500).
Example lottery_run v : let '(w, G) := perform_all v toy (lot_acts ++ [PickWinner 601 [] true (* reverts *); PickWinner 500 [] false (* reverts *);
    PickWinner 500 [Enter 700 50] true; PickWinner 500 [] true (* reverts *)]) (lot_w0 v) in
  lreach v toy toy_cfg w G /\ entrants G = [601; 602; 604] /\ payments G = [(601, 49)] /\ lphase_of (lot w) = LClose /\ lbalance (lot w) = 0.
Proof.
  assert (H : hist v toy toy_cfg (steps v toy start lot_zk) (run v toy start lot_zk)).
  { apply (hist_steps v toy toy_cfg lot_zk [] start). apply hist_deploy; reflexivity. }
  destruct (perform_all _ _ _ _) as [w G] eqn:P. split; [exists (steps v toy start lot_zk), (run v toy start lot_zk), 500; eexists; split; [exact H|exact P]|].
  assert (X : entrants (snd (w, G)) = [601; 602; 604] /\ payments (snd (w, G)) = [(601, 49)] /\ lphase_of (lot (fst (w, G))) = LClose /\ lbalance (lot (fst (w, G))) = 0).
  { rewrite <- P. destruct v; vm_compute; auto. }
  exact X.
Qed.
(** "pays exactly once" fails when the owner wins and calls pickWinner from its receive function: two payments, the second of 0 *)
Theorem C39_reentrant_second_payment : exists v E c w G, lreach v E c w G /\ length (payments G) = 2%nat.
Proof.
  assert (H : hist Plain toy toy_cfg (steps Plain toy start lot_zk) (run Plain toy start lot_zk)).
  { apply (hist_steps Plain toy toy_cfg lot_zk [] start). apply hist_deploy; reflexivity. }
  exists Plain, toy, toy_cfg.
  destruct (perform_all Plain toy (lot_acts ++ [PickWinner 500 [PickWinner 500 [] true] true]) (lot_w0 Plain)) as [w G] eqn:P.
  exists w, G. split; [exists (steps Plain toy start lot_zk), (run Plain toy start lot_zk), 500; eexists; split; [exact H|exact P]|].
  change G with (snd (w, G)). rewrite <- P. vm_compute. auto.
Qed.
