(** contracts/lottery.sol, running beside the zkdvrf contract it reads.

    A [world] holds both contracts. The payment in pickWinner is an external call: the winner's code runs in the middle of it and may
    call either contract any number of times, as (or through) any address, before accepting or rejecting the transfer. The model
    therefore takes, for every pickWinner, the tree of calls made by the winner's code.
    Simplifications: gas is not modelled; whether a sender owns the ether it sends is not modelled (any value may be sent). *)
From Coq Require Import ZArith String List Bool.
From Verif.Model Require Import Monad Evm Zkdvrf.
Import ListNotations.
Open Scope string_scope.
Open Scope list_scope.
Open Scope Z_scope.

(** enum Status, lottery.sol:20-24 *)
Inductive lphase := LSetup | LOpen | LClose.
Definition lphase_eqb (a b : lphase) : bool :=
  match a, b with LSetup, LSetup | LOpen, LOpen | LClose, LClose => true | _, _ => false end.

(** storage, lottery.sol:12-26, Ownable._owner, and the contract's balance *)
Record lst := mkL {
  l_owner : Z;
  players : list Z;
  hasEntered : Z -> bool;
  minBet : Z;
  randRoundNum : Z;
  randValue : Z;
  lphase_of : lphase;
  lbalance : Z }.
Record world := mkW { zk : st; lot : lst }.

(** constructor, lottery.sol:30-32 *)
Definition lconstruct (deployer : Z) : lst := mkL deployer [] (fun _ => false) 0 0 0 LSetup 0.

(** what is called; [PickWinner by calls accept]: [calls] is what the winner's receive function does, [accept] whether it returns *)
Inductive act :=
| ZkTx (t : tx)                                   (* any transaction to zkdvrf *)
| Setup (by_ r m : Z)
| Enter (by_ value : Z)
| PickWinner (by_ : Z) (calls : list act) (accept : bool)
| LTransferOwnership (by_ a : Z)
| LRenounceOwnership (by_ : Z)
| LForceEther (value : Z).                        (* selfdestruct / block reward *)

(** what an observer of the chain records: entries (with the zkdvrf round number at that time), payments, forced ether *)
Inductive lev := Entered (a value round : Z) | Paid (a value : Z) | Forced (value : Z).

(** (players[i], players[j]) = (players[j], players[i]), lottery.sol:69 *)
Fixpoint set_nth (l : list Z) (i : nat) (x : Z) : list Z :=
  match l, i with
  | [], _ => []
  | _ :: t, O => x :: t
  | y :: t, S i' => y :: set_nth t i' x
  end.
Definition swap (l : list Z) (i j : nat) : list Z :=
  let a := nth i l 0 in let b := nth j l 0 in set_nth (set_nth l i b) j a.

(** the loop of shuffle, lottery.sol:64-70, for an arbitrary source of indices [pick i]; [k] iterations remain *)
Fixpoint shuffle_from (pick : nat -> nat) (k i : nat) (l : list Z) : list Z :=
  match k with O => l | S k' => shuffle_from pick k' (S i) (swap l i (pick i)) end.
Definition fisher_yates (pick : nat -> nat) (l : list Z) : list Z := shuffle_from pick (length l) 0 l.

Section Lottery.
  Variable v : variant.
  Variable E : env.

  (** lottery.sol:65-68: j = uint256(keccak256(abi.encodePacked(randValue, i))) % (i + 1) *)
  Definition pick_index (rv : Z) (i : nat) : nat :=
    Z.to_nat (keccak E (word rv ++ word (Z.of_nat i)) mod (Z.of_nat i + 1)).

  (** roundReached, lottery.sol:44-47 *)
  Definition roundReached (w : world) : bool := randRoundNum (lot w) <=? currentRoundNum (zk w).

  (** setup, lottery.sol:34-41 *)
  Definition setup (w : world) (by_ r m : Z) : res (world * list lev) :=
    let l := lot w in
    let* _ := require (by_ =? l_owner l) "OwnableUnauthorizedAccount" in
    let* _ := require (lphase_eqb (lphase_of l) LSetup) "Setup has already been completed" in
    Ok (mkW (zk w) (mkL (l_owner l) (players l) (hasEntered l) m r (randValue l) LOpen (lbalance l)), []).

  (** enter, lottery.sol:49-58 *)
  Definition enter (w : world) (by_ value : Z) : res (world * list lev) :=
    let l := lot w in
    let* _ := require (lphase_eqb (lphase_of l) LOpen) "Not open yet" in
    let* _ := require (negb (roundReached w)) "Too late. Random has been produced or is being produced" in
    let* _ := require (negb (hasEntered l by_)) "You have already entered the lottery" in
    let* _ := require (minBet l <=? value) "Must provide enough bet" in
    Ok (mkW (zk w) (mkL (l_owner l) (players l ++ [by_]) (upd (hasEntered l) by_ true) (minBet l) (randRoundNum l) (randValue l)
                      (lphase_of l) (lbalance l + value)), [Entered by_ value (currentRoundNum (zk w))]).

  (** pickWinner up to the external call, lottery.sol:73-81: the state during the callback, the winner and the amount sent *)
  Definition pick_begin (w : world) (by_ : Z) : res (world * Z * Z) :=
    let l := lot w in
    let* _ := require (by_ =? l_owner l) "OwnableUnauthorizedAccount" in
    let* _ := require (lphase_eqb (lphase_of l) LOpen) "Not open" in
    let* _ := require (0 <? Z.of_nat (length (players l))) "No players" in
    let* rnd := getRandomAtRound (zk w) (randRoundNum l) in
    let* _ := require (negb (rvalue rnd =? 0)) "Random not ready yet" in
    let ps := fisher_yates (pick_index (rvalue rnd)) (players l) in
    Ok (mkW (zk w) (mkL (l_owner l) ps (hasEntered l) (minBet l) (randRoundNum l) (rvalue rnd) (lphase_of l) 0), hd 0 ps, lbalance l).

  (** lottery.sol:82-84 *)
  Definition pick_end (w : world) (success : bool) : res world :=
    let l := lot w in
    let* _ := require success "Transfer failed." in
    Ok (mkW (zk w) (mkL (l_owner l) (players l) (hasEntered l) (minBet l) (randRoundNum l) (randValue l) LClose (lbalance l))).

  (** a message sender is a non-zero address *)
  Definition from_ok (b : Z) : res unit := require (is_addr b && negb (b =? 0)) "sender".

  (** one call; a failing call (also one made by the winner's code) leaves no trace *)
  Fixpoint perform (a : act) (w : world) {struct a} : res (world * list lev) :=
    match a with
    | ZkTx t => let* (s, _) := apply v E (zk w) t in Ok (mkW s (lot w), [])
    | Setup b r m => let* _ := from_ok b in let* _ := require (is_u256 r && is_u256 m) "abi decoding" in setup w b r m
    | Enter b x => let* _ := from_ok b in let* _ := require (is_u256 x) "value" in enter w b x
    | PickWinner b calls accept =>
      let* _ := from_ok b in
      let* (w1, winner, amount) := pick_begin w b in
      let '(w2, g) := (fix go (l : list act) (w : world) : world * list lev :=
                         match l with
                         | [] => (w, [])
                         | a :: r => match perform a w with
                                     | Ok (w', g) => let '(w'', g') := go r w' in (w'', g ++ g')
                                     | _ => go r w
                                     end
                         end) calls w1 in
      let* w3 := pick_end w2 accept in
      Ok (w3, Paid winner amount :: g)
    | LTransferOwnership b a => (* OpenZeppelin Ownable *)
      let l := lot w in
      let* _ := from_ok b in
      let* _ := require (b =? l_owner l) "OwnableUnauthorizedAccount" in
      let* _ := require (is_addr a && negb (a =? 0)) "OwnableInvalidOwner" in
      Ok (mkW (zk w) (mkL a (players l) (hasEntered l) (minBet l) (randRoundNum l) (randValue l) (lphase_of l) (lbalance l)), [])
    | LRenounceOwnership b =>
      let l := lot w in
      let* _ := from_ok b in
      let* _ := require (b =? l_owner l) "OwnableUnauthorizedAccount" in
      Ok (mkW (zk w) (mkL 0 (players l) (hasEntered l) (minBet l) (randRoundNum l) (randValue l) (lphase_of l) (lbalance l)), [])
    | LForceEther x =>
      let l := lot w in
      let* _ := require (is_u256 x) "" in
      Ok (mkW (zk w) (mkL (l_owner l) (players l) (hasEntered l) (minBet l) (randRoundNum l) (randValue l) (lphase_of l) (lbalance l + x)), [Forced x])
    end.

  (** a sequence of calls, failing ones leaving no trace *)
  Fixpoint perform_all (l : list act) (w : world) : world * list lev :=
    match l with
    | [] => (w, [])
    | a :: r => match perform a w with
                | Ok (w', g) => let '(w'', g') := perform_all r w' in (w'', g ++ g')
                | _ => perform_all r w
                end
    end.
End Lottery.
