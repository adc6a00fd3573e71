(** scripts/lottery/{deploy,admin,play}.ts: the processes of the lottery demo, run beside one zkdvrf contract and one Lottery
    contract.  A schedule is a list of moves: a step of one of the processes, or a call by anybody else to either contract.
    Simplifications: a step of a process (one transaction, or the handling of one event) is atomic; no logging, balance
    queries, gas or RPC failure.  A refused transaction is an exception (ethers estimates its gas first): it ends admin.ts
    (a rejected listener is an unhandled rejection) and is logged and skipped by play.ts (play.ts:27-35). *)
From Coq Require Import ZArith String List Bool.
From Verif.Model Require Import Monad Evm Zkdvrf Lottery.
Import ListNotations.
Open Scope Z_scope.

(** admin.ts: not started; setup(..) sent, no listener yet; listening; ended by an exception *)
Inductive admin_proc := AOff | ASetUp | AListening | ADead.
(** play.ts: not started; waiting for BetOpen; entering with this bet, these players left; process.exit(0) *)
Inductive play_proc := POff | PWaiting | PEntering (bet : Z) (left_ : list Z) | PExit.
(** both contracts, what an observer has seen of the lottery, the processes, and the rounds of the RandomReady events that
    admin.ts has received and not handled *)
Record demo := Demo { both : world; trail : list lev; adm : admin_proc; plr : play_proc; inbox : list Z }.

Inductive move :=
| Other (a : act)                                     (* anybody else *)
| AdminSetup | AdminListen
| AdminHandle (calls : list act) (accept : bool)      (* [calls], [accept]: what the winner's code does when it is paid *)
| AdminRestart                                        (* killed or ended, and started again *)
| PlayStart | PlayEnter.

(** admin.ts:20: const randRoundNumber = 3; admin.ts:21: parseEther("5") *)
Definition rand_round : Z := 3.
Definition min_bet : Z := 5 * 10 ^ 18.

Section Scripts.
  Variable v : variant.
  Variable E : env.
  (** lotteryAdminKey's address; the addresses of lotteryPlayerKeys, demo-config.json *)
  Variable admin : Z.
  Variable keys : list Z.

  (** deploy.ts:15-16: the lottery is deployed by the admin, next to the contract [s]; nothing else runs yet *)
  Definition deploy_lottery (s : st) : demo := Demo (mkW s (lconstruct admin)) [] AOff POff [].

  (** the rounds in the RandomReady events of a call; only a transaction to zkdvrf emits them.  (One sent by the winner's code while
      it is paid is left out: the random of the round admin.ts waits for exists by then, so it is for another round.) *)
  Definition ready_rounds (a : act) (w : world) : list Z :=
    match a with
    | ZkTx t => match apply v E (zk w) t with Ok (_, ev) => flat_map (fun e => match e with RandomReady k _ => [k] | _ => [] end) ev | _ => [] end
    | _ => []
    end.

  Definition step (m : move) (D : demo) : demo :=
    let '(Demo w G a p q) := D in
    match m with
    | Other x =>
      match perform v E x w with
      | Ok (w', g) => Demo w' (G ++ g) a p (match a with AListening => q ++ ready_rounds x w | _ => q end)
      | _ => D
      end
    | AdminSetup => (* admin.ts:20-30; the event BetOpen(r, m) reaches play.ts if that is waiting for it, play.ts:21-24 *)
      match a with
      | AOff => match perform v E (Setup admin rand_round min_bet) w with
                | Ok (w', g) => Demo w' (G ++ g) ASetUp (match p with PWaiting => PEntering min_bet keys | _ => p end) q
                | _ => Demo w G ADead p q
                end
      | _ => D
      end
    | AdminListen => (* admin.ts:39: only later events are seen *)
      match a with ASetUp => Demo w G AListening p [] | _ => D end
    | AdminHandle calls accept => (* admin.ts:39-47 *)
      match a, q with
      | AListening, k :: q' =>
        if k =? rand_round
        then match perform v E (PickWinner admin calls accept) w with
             | Ok (w', g) => Demo w' (G ++ g) a p q'
             | _ => Demo w G ADead p q'
             end
        else Demo w G a p q'
      | _, _ => D
      end
    | AdminRestart => Demo w G AOff p []
    | PlayStart => match p with POff => Demo w G a PWaiting q | _ => D end
    | PlayEnter => (* play.ts:26-41 *)
      match p with
      | PEntering bet (x :: l) =>
        match perform v E (Enter x bet) w with
        | Ok (w', g) => Demo w' (G ++ g) a (PEntering bet l) q
        | _ => Demo w G a (PEntering bet l) q
        end
      | PEntering _ [] => Demo w G a PExit q
      | _ => D
      end
    end.
  Definition moves (l : list move) (D : demo) : demo := fold_left (fun D m => step m D) l D.
End Scripts.
