(** services/admin.ts, a whole life of the admin service: [_init] and [_start] (lines 75-212) over a contract that everybody
    else uses at the same time, the transactions it sends and waits for, the clock, and the ways the process can end and be
    started again.  Services.v has the programs of one iteration and [admin_poll], its decisions.
    - every [await x.wait()] of the service is awaited in the loop: it goes on when the transaction is included, and the
      rejected promise of a reverted one ends the process (admin.ts:129-160, 170, 310, 340-347, 455).
    - [timeOfLastRound] is 0 in a new process (admin.ts:96) and set only after an initiation was included (345).
    - the interval is compared after the random of the round was included (admin.ts:196-203), so it is a task of its own.
    - ethers gives one wallet consecutive nonces: the transactions of one wallet are included in the order in which they
      were sent; with the explicit gasLimit a transaction that is going to revert is sent all the same.
    Simplifications: everybody else's transactions are of other senders; a start reads the contract at one moment; a
    transaction may stay pending for ever; the clock does not go back; an action's file writes become visible at its end
    ([AKilled] covers a process killed in the middle); after computeVk the service only reads and logs (admin.ts:312-336);
    RPC failures are covered by [AStop] and [AKilled]. *)
From Coq Require Import ZArith String List Bool.
From Verif.Base Require Import Fld Fp EC Primes Curves Group.
From Verif.Model Require Import Monad Evm Strings Points HashEvm Dkg Lib Serialise Files Cache Client Zkdvrf Services ServiceRun.
From Verif.Spec Require Import Histories.
Import ListNotations.
Open Scope Z_scope.

(** what is left to do: add a node named in the options, an action of the iteration, the comparison of the interval *)
Inductive task := TAdd (a : Z) | TDo (x : admin_action) | TInterval.
(** admin.ts:34-51: the options; times of the start date in ms, of the interval in s *)
Record admin_options := AdminOpts { ao : options; ao_nodes : list Z; ao_start : Z; ao_interval : Z }.
Record aproc := AProc { a_fs : fs; a_life : life; a_todo : list task; a_last : Z; a_queue : list (call * mode); a_since : list step }.
Record aworld := AWorld { aw_tr : list step; aw_st : st; aw_now : Z; aw_proc : aproc }.
Inductive alabel := AOthers | ATick | ADecide | APerform | AKilled | AIncluded | AStop | ARestart.

Section Run.
  Variable v : variant.
  Variable E : env.
  Variable c : cfg.
  Variable keccak : bytes -> Z.
  Variable pairing : list (G1 * G2c) -> bool.
  Variable poseidon : Fr -> Fr -> Fr.
  Variable J : json.
  Variable g_to_lagrange : list bytes -> Z -> list bytes.
  Variables vkey pkey : Type.
  Variable vk_write : vkey -> bytes.
  Variable vk_read : bytes -> res vkey.
  Variable pk_write : pkey -> bytes.
  Variable pk_read : bytes -> res pkey.
  Variable keygen_vk : kzg -> config -> res vkey.
  Variable keygen_pk : kzg -> vkey -> config -> res pkey.
  Variable get_vk : pkey -> vkey.
  Variable create_proof : kzg -> pkey -> member_params -> list Fr -> Z -> res bytes.
  Variable verify_proof : kzg -> vkey -> bytes -> list Fr -> bool.
  Variable w : admin_options.
  Notation me := (o_me (ao w)).
  Notation admin_create_gpp_ := (admin_create_gpp keccak pairing poseidon J g_to_lagrange vkey pkey vk_write vk_read pk_write pk_read keygen_vk keygen_pk get_vk create_proof verify_proof (ao w)).
  Notation admin_create_random_ := (admin_create_random keccak pairing poseidon J g_to_lagrange vkey pkey vk_write vk_read pk_write pk_read keygen_vk keygen_pk get_vk create_proof verify_proof (ao w)).

  (** admin.ts:105-123: the configuration and the owner are checked; nodes are added unless the contract is full *)
  Definition launch (s : st) : option (list task) :=
    if is_ok (check_config (ao w) s) && (owner s =? me)
    then Some (if currentIndex s =? o_members (ao w) then [] else map TAdd (ao_nodes w))
    else None.
  (** admin.ts:164-195: what an iteration is going to do *)
  Definition decide (now : Z) (ch : nat -> st) : list task :=
    match contractPhase (ch 0%nat) with
    | Registered => [TDo AStartNidkg]
    | NidkgComplete => [TDo ACreateGpp]
    | Ready =>
        let round := currentRoundNum (ch 1%nat) in
        if now <? ao_start w then []
        else if round =? 0 then [TDo AInitiate]
        else
          let count := roundSubmissionCount (ch 2%nat) round in
          let rnd := roundToRandom (ch 3%nat) round in
          (if (rvalue rnd =? 0) && (o_threshold (ao w) <=? count) then [TDo (ACreateRandom round)] else []) ++ [TInterval]
    | _ => []
    end.
  (** one task: the transaction it sends, if any *)
  Definition perform (now last : Z) (t : task) (ch : nat -> st) : cmd (option call) :=
    match t with
    | TAdd a => cret (if nodeAddress (addrToNode (ch 0%nat) a) =? 0 then Some (AddPermissionedNodes a) else None)
    | TDo AStartNidkg => cret (Some StartNidkg)
    | TDo ACreateGpp => do x := admin_create_gpp_ ch in cret (Some x)
    | TDo AInitiate => cret (Some InitiateRandom)
    | TDo (ACreateRandom round) => do x := admin_create_random_ ch round in cret (Some x)
    | TInterval => cret (if ao_interval w <? (now - last) / 1000 then Some InitiateRandom else None)
    end.
  Definition performed (p : aproc) (rest : list task) (wr : list (path * bytes)) (r : res (option call)) (tr : list step) : aproc :=
    let s := effects (a_fs p) wr in
    match r with
    | Ok None => AProc s Polling rest (a_last p) (a_queue p) tr
    | Ok (Some t) => AProc s Waiting rest (a_last p) (a_queue p ++ [(t, Awaited)]) tr
    | _ => AProc s Stopped [] (a_last p) (a_queue p) tr
    end.
  Definition is_initiation (a : call) : bool := match a with InitiateRandom => true | _ => false end.
  (** the process after the oldest of its transactions was included *)
  Definition received (p : aproc) (q : list (call * mode)) (a : call) (m : mode) (ok : bool) (now : Z) (tr : list step) : aproc :=
    match a_life p, m with
    | Waiting, Awaited =>
        if ok then AProc (a_fs p) Polling (a_todo p) (if is_initiation a then now else a_last p) q tr
        else AProc (a_fs p) Stopped [] (a_last p) q tr
    | _, _ => AProc (a_fs p) (a_life p) (a_todo p) (a_last p) q (a_since p)
    end.
  Notation reads_ := (ServiceRun.reads v E c).

  Inductive amove : alabel -> aworld -> aworld -> Prop :=
  | am_others tr s now p t : sender t <> me ->
      amove AOthers (AWorld tr s now p) (AWorld (tr ++ [mkStep s t (apply v E s t)]) (exec v E s t) now p)
  | am_tick tr s now p now' : now <= now' -> amove ATick (AWorld tr s now p) (AWorld tr s now' p)
  | am_decide tr s now p trs ch : a_life p = Polling -> a_todo p = [] -> reads_ (a_since p) tr trs ch ->
      amove ADecide (AWorld tr s now p) (AWorld tr s now (AProc (a_fs p) Polling (decide now ch) (a_last p) (a_queue p) tr))
  | am_perform tr s now p t rest trs ch wr r : a_life p = Polling -> a_todo p = t :: rest -> reads_ (a_since p) tr trs ch ->
      perform now (a_last p) t ch (a_fs p) = (wr, r) -> amove APerform (AWorld tr s now p) (AWorld tr s now (performed p rest wr r tr))
  | am_killed tr s now p t rest trs ch wr r s' : a_life p = Polling -> a_todo p = t :: rest -> reads_ (a_since p) tr trs ch ->
      perform now (a_last p) t ch (a_fs p) = (wr, r) -> crashed (a_fs p) wr s' ->
      amove AKilled (AWorld tr s now p) (AWorld tr s now (AProc s' Stopped [] (a_last p) (a_queue p) tr))
  | am_included tr s now p a m q now' : a_queue p = (a, m) :: q -> now <= now' ->
      let t := mkTx me 0 a in let x := mkStep s t (apply v E s t) in
      amove AIncluded (AWorld tr s now p) (AWorld (tr ++ [x]) (exec v E s t) now' (received p q a m (accepted x) now' (tr ++ [x])))
  | am_stop tr s now p : amove AStop (AWorld tr s now p) (AWorld tr s now (AProc (a_fs p) Stopped [] (a_last p) (a_queue p) tr))
  | am_restart tr s now p :
      amove ARestart (AWorld tr s now p)
        (AWorld tr s now (match launch s with
                          | Some l => AProc (a_fs p) Polling l 0 (map (fun x => (fst x, Orphan)) (a_queue p)) tr
                          | None => AProc (a_fs p) Stopped [] 0 (map (fun x => (fst x, Orphan)) (a_queue p)) tr
                          end)).

  (** any number of moves, none of them labelled by a member of [no] .. *)
  Inductive aruns (no : alabel -> Prop) : aworld -> aworld -> Prop :=
  | aruns_refl x : aruns no x x
  | aruns_step x y z l : aruns no x y -> amove l y z -> ~ no l -> aruns no x z.
  (** .. in which the process is not started while a transaction of its is pending *)
  Inductive acalm : aworld -> aworld -> Prop :=
  | acalm_refl x : acalm x x
  | acalm_step x y z l : acalm x y -> amove l y z -> (l = ARestart -> a_queue (aw_proc y) = []) -> acalm x z.
End Run.
