(** scripts/demo/{admin,register,nidkg,random}.ts: the scripts of `yarn admin`, `yarn member` and `yarn random`, run against
    one zkdvrf_pre contract in one working directory (the README's demo).
    A script reads and writes the shared files, runs the client, reads the contract and sends transactions; a refused
    transaction is an exception (ethers estimates its gas first) and ends the script.  An event listener runs when its event
    is in the contract's log, with that event's arguments.  [demo] puts the scripts together in the order in which the
    events release them; where two processes wait for the same event, or one goes on while another handles an event, the
    order is a parameter.  Simplifications: a loop iteration or a listener runs to its end before another process does
    anything; no sleeping, logging, gas or RPC failure; the client's environment sets exactly the three configuration
    variables (README, "Set up your .env file"). *)
From Coq Require Import ZArith String List Bool.
From Verif.Base Require Import Fld Fp EC Primes Curves Group.
From Verif.Model Require Import Monad Evm Strings Points HashEvm Dkg Lib Serialise Files Cache Client Zkdvrf Services.
Import ListNotations.
Open Scope Z_scope.

(** the working directory, the contract and the events it has emitted (oldest first) *)
Record world := World { files : fs; chain : st; elog : list event }.
Definition script (A : Type) := world -> world * res A.
Definition ret {A} (a : A) : script A := fun W => (W, Ok a).
Definition sbind {A B} (m : script A) (k : A -> script B) : script B := fun W =>
  let '(W', r) := m W in match r with Ok a => k a W' | Err e => (W', Err e) | Panic e => (W', Panic e) end.
Notation "'await' x := m 'in' k" := (sbind m (fun x => k)) (at level 200, x pattern, right associativity).
(** a command of the client, or the reading and writing of files *)
Definition run {A} (m : cmd A) : script A := fun W =>
  let '(w, r) := m (files W) in (World (effects (files W) w) (chain W) (elog W), r).
(** a read-only call of the contract *)
Definition view {A} (f : st -> res A) : script A := fun W => (W, f (chain W)).
Fixpoint each {A} (f : A -> script unit) (l : list A) : script unit :=
  match l with [] => ret tt | a :: r => await _ := f a in each f r end.
Fixpoint collect {A B} (f : A -> script B) (l : list A) : script (list B) :=
  match l with [] => ret [] | a :: r => await b := f a in await bs := collect f r in ret (b :: bs) end.
(** contract.on(..): the last event of that kind; without one the listener is still waiting *)
Definition heard {A} (f : event -> option A) (l : list event) : option A :=
  fold_left (fun o e => match f e with Some a => Some a | None => o end) l None.
Definition on {A B} (f : event -> option A) (k : A -> script B) : script B := fun W =>
  match heard f (elog W) with Some a => k a W | None => (W, Err "still waiting for the event") end.
(** the same for an event emitted after the first [k] of the log *)
Definition now : script nat := fun W => (W, Ok (length (elog W))).
Definition on_after {A B} (k : nat) (f : event -> option A) (h : A -> script B) : script B := fun W =>
  match heard f (skipn k (elog W)) with Some a => h a W | None => (W, Err "still waiting for the event") end.
Definition registration_completed (e : event) : option Z := match e with RegistrationCompleted n => Some n | _ => None end.
Definition nidkg_completed (e : event) : option Z := match e with NidkgCompleted n => Some n | _ => None end.
Definition gpp_created (e : event) : option unit := match e with GlobalPublicParamsCreated => Some tt | _ => None end.
Definition threshold_reached (e : event) : option (Z * bytes) := match e with RandomThresholdReached k i => Some (k, i) | _ => None end.
Definition random_ready (e : event) : option (Z * bytes) := match e with RandomReady k i => Some (k, i) | _ => None end.
(** a script that died: the others go on *)
Definition attempt {A} (m : script A) : script unit := fun W => (fst (m W), Ok tt).

Section Scripts.
  Variable keccak : bytes -> Z.
  Variable pairing : list (G1 * G2c) -> bool.
  Variable poseidon : Fr -> Fr -> Fr.
  Variable J : json.
  Variable g_to_lagrange : list bytes -> Z -> list bytes.
  Variables vkey pkey : Type.
  Variable vk_write : vkey -> bytes.
  Variable vk_read : bytes -> res vkey.
  Variable pk_write : pkey -> bytes.
  Variable pk_read : bytes -> res pkey.
  Variable keygen_vk : kzg -> config -> res vkey.
  Variable keygen_pk : kzg -> vkey -> config -> res pkey.
  Variable get_vk : pkey -> vkey.
  Variable create_proof : kzg -> pkey -> member_params -> list Fr -> Z -> res bytes.
  Variable verify_proof : kzg -> vkey -> bytes -> list Fr -> bool.
  Variable E : env.
  (** the client's configuration; the admin's address *)
  Variables t n d : Z.
  Variable admin : Z.
  Definition client_ (c : command) : cmd unit :=
    client keccak pairing poseidon J g_to_lagrange vkey pkey vk_write vk_read pk_write pk_read keygen_vk keygen_pk get_vk create_proof verify_proof (Opts t n d admin) c.
  (** a transaction without ether *)
  Definition send (a : Z) (c : call) : script unit := fun W =>
    match apply Pre E (chain W) (mkTx a 0 c) with
    | Ok (s', ev) => (World (files W) s' (elog W ++ ev), Ok tt)
    | Err m => (W, Err m)
    | Panic m => (W, Err m)
    end.
  (** `member_${i}` *)
  Definition member_i (i : Z) : bytes := join [str "member_"; to_dec i].

  (** admin.ts:40-46 *)
  Definition admin_add (addresses : list Z) : script unit := each (fun a => send admin (AddPermissionedNodes a)) addresses.

  (** register.ts:35-62: the i-th member (counted from 1) with wallet [a]; [secret] the key drawn by the client *)
  Definition register_one (x : Z * (Z * Fq)) : script unit :=
    let '(i, (a, secret)) := x in
    await _ := run (client_ (Keygen (Some (member_i i)) secret)) in
    await m := run (load_json (j_member J) (member_path (member_i i))) in
    await pk := run (lift (point_arg (sm_pk m))) in
    send a (RegisterNode pk).
  (** register.ts:20-32 *)
  Definition register_done : script unit :=
    await l := view (fun s => Ok (getPkList s)) in
    run (js_write (j_points J) MEM_PUBLIC_KEYS_PATH (map point_text l)).
  (** admin.ts:48-68 *)
  Definition admin_registered : script unit := send admin StartNidkg.

  (** nidkg.ts:28-36 *)
  Definition nidkg_indices (wallets : list Z) : script (list Z) := collect (fun a => view (fun s => getIndexPlus s a)) wallets.
  (** nidkg.ts:70-107; [coeffs], [r], [seed] drawn by the client *)
  Definition nidkg_one (x : (Z * Z) * (list Fr * Fr * Z)) : script unit :=
    let '((a, i), (coeffs, r, seed)) := x in
    await _ := run (client_ (Prove i coeffs r seed)) in
    await _ := run (client_ (Verify i)) in
    await zk := run (read_file (proof_path i)) in
    await inst := run (load_json (j_strings J) (instance_path i)) in
    await pp := run (lift (mapM hex_num inst)) in
    send a (SubmitPublicParams pp zk).
  (** nidkg.ts:38-68: each member derives its share under the name of its position in the
      configuration *)
  Definition nidkg_done (indices : list Z) : script unit :=
    await l := view (fun s => Ok (getPpList s)) in
    await _ := run (js_write (j_instances J) all_instances_path (map (map to_hex_string) l)) in
    each (fun '(i, index) => run (client_ (Derive (Some index) (Some (member_i i))))) (numbered indices).
  (** admin.ts:110-129: do the local keys agree with those of the contract; one text or number per coordinate *)
  Fixpoint same_points (l : list s_point) (l' : list pt) : res bool :=
    match l, l' with
    | [], _ => Ok true
    | p :: r, p' :: r' => let* q := point_arg p in let* b := same_points r r' in Ok ((fst q =? fst p') && (snd q =? snd p') && b)
    | _, [] => Err "undefined"
    end.
  (** admin.ts:70-135; returns whether it logged no difference *)
  Definition admin_nidkg : script bool :=
    await l := view (fun s => Ok (getPpList s)) in
    await _ := run (js_write (j_instances J) all_instances_path (map (map to_hex_string) l)) in
    await _ := run (client_ (Derive None None)) in
    await g := run (load_json (j_point2 J) gpk_path) in
    await k := run (lift (let* x0 := hex_num (s_x0 g) in let* x1 := hex_num (s_x1 g) in
                         let* y0 := hex_num (s_y0 g) in let* y1 := hex_num (s_y1 g) in Ok (G2pt x0 x1 y0 y1))) in
    await _ := send admin (ComputeVk k) in
    await k' := view (fun s => Ok (getGpk s)) in
    await vl := view (fun s => Ok (getVkList s)) in
    await vks := run (load_json (j_points J) vks_path) in
    await b := run (lift (same_points vks vl)) in
    ret ((gx0 k =? gx0 k') && (gx1 k =? gx1 k') && (gy0 k =? gy0 k') && (gy1 k =? gy1 k') && Nat.eqb (length vl) (length vks) && b).

  (** admin.ts:137-151, called for the first event (153-158) and for every "yes" (230-241) *)
  Definition admin_initiate : script unit := send admin InitiateRandom.

  (** random.ts:19-58; [r] the nonce drawn *)
  Definition random_one (input : bytes) (x : Z * Fr) : script unit :=
    let '(a, r) := x in
    await i := view (fun s => getIndexPlus s a) in
    await _ := run (client_ (Eval i input r)) in
    await _ := run (client_ (RandVerify i input)) in
    await e := run (load_json (j_eval J) (eval_path i)) in
    await p := run (lift (let* value := point_arg (se_value e) in let* z := hex_num (se_z e) in let* c := hex_num (se_c e) in
                         Ok (mkPeval (se_index e) value z c))) in
    send a (SubmitPartialEval p).
  (** admin.ts:160-228; [count] the number of member addresses; returns the random read back *)
  Definition admin_random (count : Z) (x : Z * bytes) : script prand :=
    let '(round, input) := x in
    await evals := view (fun s => Ok (read_evals (fun _ => s) round count)) in
    await _ := run (js_write (j_evals J) evals_path (map eval_text evals)) in
    await _ := run (client_ (Combine input false)) in
    await _ := run (client_ (VerifyFinal input)) in
    await p := run (load_json (j_random J) pseudo_path) in
    await q := run (lift (let* proof := point_arg (sr_proof p) in
                         let* _ := require (Nat.eqb (length (sr_value p)) 32) "invalid bytes32" in
                         Ok (mkPrand proof (of_be (sr_value p))))) in
    await _ := send admin (SubmitRandom q) in
    view getLatestRandom.

  (** the demo up to the keys: `yarn admin` and `yarn member`.  [start_first]: the admin handles RegistrationCompleted
      before register.ts does; [keys_first]: the admin handles NidkgCompleted before nidkg.ts does *)
  Definition demo_setup (start_first keys_first : bool) (wallets : list Z) (secrets : list Fq) (draws : list (list Fr * Fr * Z)) : script bool :=
    await _ := admin_add wallets in
    await _ := each register_one (numbered (combine wallets secrets)) in
    await _ := (if start_first
               then await _ := on registration_completed (fun _ => admin_registered) in on registration_completed (fun _ => register_done)
               else await _ := on registration_completed (fun _ => register_done) in on registration_completed (fun _ => admin_registered)) in
    await indices := nidkg_indices wallets in
    await _ := each nidkg_one (combine (combine wallets indices) draws) in
    if keys_first
    then await b := on nidkg_completed (fun _ => admin_nidkg) in await _ := on nidkg_completed (fun _ => nidkg_done indices) in ret b
    else await _ := on nidkg_completed (fun _ => nidkg_done indices) in on nidkg_completed (fun _ => admin_nidkg).

  (** one round: the admin initiates it (for the first one on GlobalPublicParamsCreated, for a later one on RandomReady and
      "yes"), `yarn random` is started, and the admin handles RandomThresholdReached when [m] members have submitted;
      random.ts goes on with the other members afterwards, until it is refused *)
  Definition demo_round (wallets : list Z) (x : bool * nat * list Fr) : script prand :=
    let '(first, m, nonces) := x in
    await mark := now in
    await _ := (if first then on gpp_created (fun _ => admin_initiate) else on random_ready (fun _ => admin_initiate)) in
    await round := view (fun s => Ok (currentRoundNum s)) in
    await input := view (fun s => Ok (roundInput s round)) in
    await _ := each (random_one input) (firstn m (combine wallets nonces)) in
    await p := on_after mark threshold_reached (admin_random (Z.of_nat (length wallets))) in
    await _ := attempt (each (random_one input) (skipn m (combine wallets nonces))) in
    ret p.
  Fixpoint demo_rounds (wallets : list Z) (first : bool) (l : list (nat * list Fr)) : script (list prand) :=
    match l with
    | [] => ret []
    | (m, nonces) :: r =>
        await p := demo_round wallets (first, m, nonces) in
        await ps := demo_rounds wallets false r in
        ret (p :: ps)
    end.
End Scripts.
