(** services/node.ts, a whole life of one node service: the loop of [_start] (lines 84-127) over a contract that everybody
    else uses at the same time, the transactions it sends and waits for, and the ways the process can end and be started
    again.  Files.v and Services.v give the programs of one iteration; here they are put in the loop.
    - [await res.wait()] (node.ts:163, 290): the loop goes on when the transaction is included, and the rejected promise
      of a reverted one ends the process.
    - [resPP.wait()] (node.ts:240) is not awaited: the loop goes on at once, and its rejection is unhandled, which ends
      the process as well.
    - ethers gives one wallet consecutive nonces, so the transactions of one wallet are included in the order in which
      they were sent; an explicit gasLimit is given, so a transaction that is going to revert is sent all the same.
    Simplifications: everybody else's transactions are of other senders (the wallet is used by the service only); a
    transaction may stay pending for ever; RPC failures are covered by [Stop] and [Killed]; an iteration's file writes
    become visible at its end ([Killed] covers a process killed in the middle). *)
From Coq Require Import ZArith String List Bool.
From Verif.Base Require Import Fld Fp EC Primes Curves Group.
From Verif.Model Require Import Monad Evm Strings Points HashEvm Dkg Lib Serialise Files Cache Client Zkdvrf Services.
From Verif.Spec Require Import Histories.
Import ListNotations.
Open Scope Z_scope.

Inductive life := Polling | Waiting | Stopped.
(** who waits for a transaction: the loop, a promise nobody awaits, or nobody (it was sent before the last start) *)
Inductive mode := Awaited | Fired | Orphan.
Record proc := Proc { p_fs : fs; p_life : life; p_queue : list (call * mode); p_since : list step }.
(** the transactions executed so far, the contract, and the node; [p_since] is what had been executed when the node's
    last move ended *)
Record world := World { w_tr : list step; w_st : st; w_proc : proc }.
Definition prefix {A} (a b : list A) : Prop := exists t, b = a ++ t.
(** the values an iteration draws: the member secret, the coefficients and the ciphertext randomness of a dealing, the
    prover's seed, the nonce of an evaluation *)
Record draws := Draws { d_secret : Fq; d_coeffs : list Fr; d_r : Fr; d_seed : Z; d_nonce : Fr }.
Inductive label := Others | Iterate | Killed | Included | Stop | Restart.

Section Run.
  Variable v : variant.
  Variable E : env.
  Variable c : cfg.
  Variable keccak : bytes -> Z.
  Variable pairing : list (G1 * G2c) -> bool.
  Variable poseidon : Fr -> Fr -> Fr.
  Variable J : json.
  Variable g_to_lagrange : list bytes -> Z -> list bytes.
  Variables vkey pkey : Type.
  Variable vk_write : vkey -> bytes.
  Variable vk_read : bytes -> res vkey.
  Variable pk_write : pkey -> bytes.
  Variable pk_read : bytes -> res pkey.
  Variable keygen_vk : kzg -> config -> res vkey.
  Variable keygen_pk : kzg -> vkey -> config -> res pkey.
  Variable get_vk : pkey -> vkey.
  Variable create_proof : kzg -> pkey -> member_params -> list Fr -> Z -> res bytes.
  Variable verify_proof : kzg -> vkey -> bytes -> list Fr -> bool.
  Variable addr_text : Z -> bytes.
  Variable o : options.
  Notation node_register_ := (node_register keccak pairing poseidon J g_to_lagrange vkey pkey vk_write vk_read pk_write pk_read keygen_vk keygen_pk get_vk create_proof verify_proof addr_text o).
  Notation node_submit_pp_ := (node_submit_pp keccak pairing poseidon J g_to_lagrange vkey pkey vk_write vk_read pk_write pk_read keygen_vk keygen_pk get_vk create_proof verify_proof o).
  Notation node_derive_ := (node_derive keccak pairing poseidon J g_to_lagrange vkey pkey vk_write vk_read pk_write pk_read keygen_vk keygen_pk get_vk create_proof verify_proof addr_text o).
  Notation node_submit_eval_ := (node_submit_eval keccak pairing poseidon J g_to_lagrange vkey pkey vk_write vk_read pk_write pk_read keygen_vk keygen_pk get_vk create_proof verify_proof o).

  (** node.ts:88-126: one iteration; [ch i] the contract at its i-th read, [thr] the threshold read at the start *)
  Definition iterate (thr : Z) (d : draws) (ch : nat -> st) : cmd (option (call * mode)) :=
    match node_poll o thr ch with
    | NIdle => cret None
    | NRegister => do t := node_register_ (d_secret d) in cret (Some (t, Awaited))
    | NSubmitPP => do t := node_submit_pp_ (fun k => ch (5 + k)%nat) (d_coeffs d) (d_r d) (d_seed d) in cret (Some (t, Fired))
    | NEvaluate derive =>
        do _ := (if derive then node_derive_ (fun k => ch (5 + k)%nat) else cret tt) in
        do t := node_submit_eval_ (fun k => ch (7 + k)%nat) (d_nonce d) in cret (Some (t, Awaited))
    end.
  (** the node after an iteration that made the writes [w] and ended with [r] *)
  Definition after (p : proc) (w : list (path * bytes)) (r : res (option (call * mode))) (tr : list step) : proc :=
    let s := effects (p_fs p) w in
    match r with
    | Ok None => Proc s Polling (p_queue p) tr
    | Ok (Some (t, m)) => Proc s (match m with Awaited => Waiting | _ => Polling end) (p_queue p ++ [(t, m)]) tr
    | _ => Proc s Stopped (p_queue p) tr
    end.
  (** the contract reads of one iteration: each sees the contract at some moment between the end of the node's last move
      and now, none earlier than the one before it *)
  Definition reads (since tr : list step) (trs : nat -> list step) (ch : nat -> st) : Prop :=
    forall k, hist v E c (trs k) (ch k) /\ prefix since (trs k) /\ prefix (trs k) (trs (S k)) /\ prefix (trs k) tr.
  (** how the process takes the outcome of a transaction *)
  Definition noticed (l : life) (m : mode) (ok : bool) : life :=
    match l, m with
    | Stopped, _ => Stopped
    | _, Orphan => l
    | _, Awaited => if ok then Polling else Stopped
    | _, Fired => if ok then l else Stopped
    end.

  Inductive move : label -> world -> world -> Prop :=
  | m_others tr s p t : sender t <> o_me o ->
      move Others (World tr s p) (World (tr ++ [mkStep s t (apply v E s t)]) (exec v E s t) p)
  | m_iterate tr s p d trs ch w r : p_life p = Polling -> reads (p_since p) tr trs ch ->
      iterate (c_threshold c) d ch (p_fs p) = (w, r) -> move Iterate (World tr s p) (World tr s (after p w r tr))
  | m_killed tr s p d trs ch w r s' : p_life p = Polling -> reads (p_since p) tr trs ch ->
      iterate (c_threshold c) d ch (p_fs p) = (w, r) -> crashed (p_fs p) w s' ->
      move Killed (World tr s p) (World tr s (Proc s' Stopped (p_queue p) tr))
  | m_included tr s f l q since a m : let t := mkTx (o_me o) 0 a in let x := mkStep s t (apply v E s t) in
      move Included (World tr s (Proc f l ((a, m) :: q) since))
        (World (tr ++ [x]) (exec v E s t)
           (Proc f (noticed l m (accepted x)) q (match m with Awaited => tr ++ [x] | _ => since end)))
  | m_stop tr s p : move Stop (World tr s p) (World tr s (Proc (p_fs p) Stopped (p_queue p) tr))
  (** a new process (node.ts:65-84): it checks the configuration and starts the loop *)
  | m_restart tr s p :
      move Restart (World tr s p)
        (World tr s (Proc (p_fs p) (if is_ok (check_config o s) then Polling else Stopped)
                          (map (fun x => (fst x, Orphan)) (p_queue p)) tr)).

  Definition is_registration (a : call) : bool := match a with RegisterNode _ => true | _ => false end.
  (** a registration of the node has been sent and not yet executed *)
  Definition registering (w : world) : Prop := exists a m, In (a, m) (p_queue (w_proc w)) /\ is_registration a = true.

  (** any number of moves *)
  Inductive runs : world -> world -> Prop :=
  | runs_refl w : runs w w
  | runs_step w w' w'' l : runs w w' -> move l w' w'' -> runs w w''.
  (** .. in which the process is not started while a registration of its is pending *)
  Inductive calm_runs : world -> world -> Prop :=
  | calm_refl w : calm_runs w w
  | calm_step w w' w'' l : calm_runs w w' -> move l w' w'' -> (l = Restart -> ~ registering w') -> calm_runs w w''.
End Run.
