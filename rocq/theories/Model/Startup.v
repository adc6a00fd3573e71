(** How the contract and the services get their configuration: scripts/deploy.ts, services/exec/run.ts, services/exec/runNode.ts and
    the start of services/{admin,node}.ts.  Dependencies modelled by their contracts: parseInt and string interpolation (JavaScript),
    Config.uint and Config.str of bcfg (the fallback when the key is absent; else a decimal safe integer or an exception),
    BigNumber.from on strings and the ABI range checks (ethers v5), getContractFactory (hardhat: an exception when no artifact has that
    name).  Not modelled: the wallets, the provider and start dates. *)
From Coq Require Import ZArith String List Bool.
From Verif.Model Require Import Monad Evm Strings Files Client Zkdvrf Services Halo2VerifierSol.
Import ListNotations.
Open Scope string_scope.
Open Scope list_scope.
Open Scope Z_scope.

(** process.env (after dotenv), or what bcfg has loaded from the command line and its own variables *)
Definition vars := bytes -> option bytes.

Definition is_digit (c : Z) : bool := (48 <=? c) && (c <=? 57).
Definition is_space (c : Z) : bool := (c =? 32) || ((9 <=? c) && (c <=? 13)).
Fixpoint skip_spaces (s : bytes) : bytes := match s with c :: r => if is_space c then skip_spaces r else s | [] => [] end.
Fixpoint take_digits (s : bytes) : bytes := match s with c :: r => if is_digit c then c :: take_digits r else [] | [] => [] end.
Definition decimal (s : bytes) : Z := fold_left (fun a c => a * 10 + (c - 48)) s 0.
(** parseInt(s, 10); [None] is NaN, also for undefined *)
Definition parseInt (o : option bytes) : option Z :=
  match o with
  | None => None
  | Some s =>
    let s1 := skip_spaces s in
    let '(neg, s2) := match s1 with 45 :: r => (true, r) | 43 :: r => (false, r) | _ => (false, s1) end in
    match take_digits s2 with [] => None | ds => Some (if (neg : bool) then - decimal ds else decimal ds) end
  end.
(** a || b on numbers *)
Definition or_else (a : option Z) (b : Z) : Z := match a with Some x => if x =? 0 then b else x | None => b end.
(** config.uint(key, fallback), config.str(key, fallback) *)
Definition uint (config : vars) (key : bytes) (fallback : option Z) : res (option Z) :=
  match config key with
  | None => Ok fallback
  | Some s => if negb (Nat.eqb (length s) 0) && forallb is_digit s && (decimal s <? 2 ^ 53) then Ok (Some (decimal s)) else Err "must be an integer"
  end.
Definition text (config : vars) (key : bytes) (fallback : option bytes) : option bytes :=
  match config key with Some s => Some s | None => fallback end.

Record service := Service { sv_threshold : option Z; sv_members : option Z; sv_degree : option Z; sv_polling : option Z; sv_interval : option Z }.
(** run.ts:20-37, 49-51 *)
Definition run_admin (env config : vars) : res service :=
  let* t := uint config (str "threshold") (parseInt (env (str "THRESHOLD"))) in
  let* n := uint config (str "number_of_members") (parseInt (env (str "NUMBER_OF_MEMBERS"))) in
  let* d := uint config (str "threshold") (parseInt (env (str "DEGREE"))) in
  let* p := uint config (str "polling-interval") (Some (or_else (parseInt (env (str "POLLING_INTERVAL"))) 12000)) in
  let* i := uint config (str "polling-interval") (Some (or_else (parseInt (env (str "RAND_GEN_INTERVAL"))) 3600)) in
  let* _ := match text config (str "l2-node-web3-url") (env (str "L2_NODE_WEB3_URL")) with
            | Some (_ :: _) => Ok tt | _ => Err "Must pass L2_NODE_WEB3_URL" end in
  Ok (Service t n d p i).
(** runNode.ts:20-37 *)
Definition run_node (env config : vars) : res service :=
  let* t := uint config (str "threshold") (parseInt (env (str "THRESHOLD"))) in
  let* n := uint config (str "number_of_members") (parseInt (env (str "NUMBER_OF_MEMBERS"))) in
  let* d := uint config (str "threshold") (parseInt (env (str "DEGREE"))) in
  let* p := uint config (str "polling-interval") (Some (or_else (parseInt (env (str "POLLING_INTERVAL"))) 12000)) in
  let* _ := match text config (str "l2-node-web3-url") (env (str "L2_NODE_WEB3_URL")) with
            | Some (_ :: _) => Ok tt | _ => Err "Must pass L2_NODE_WEB3_URL" end in
  Ok (Service t n d p None).
(** `${x}` for a number *)
Definition num_text (o : option Z) : bytes :=
  match o with None => str "NaN" | Some x => if x <? 0 then str "-" ++ to_dec (- x) else to_dec x end.
(** cmdPrefix, node.ts:81, admin.ts:105: the variables the client is started with *)
Definition cmd_env (sv : service) : vars := fun key =>
  if path_eqb key (str "THRESHOLD") then Some (num_text (sv_threshold sv))
  else if path_eqb key (str "NUMBER_OF_MEMBERS") then Some (num_text (sv_members sv))
  else if path_eqb key (str "DEGREE") then Some (num_text (sv_degree sv)) else None.
(** check_config, node.ts:130-144, admin.ts:274-288: nothing equals NaN *)
Definition same_number (a : Z) (o : option Z) : bool := match o with Some x => a =? x | None => false end.
Definition check_service (sv : service) (s : st) : res unit :=
  let* _ := require (same_number (Zkdvrf.threshold s) (sv_threshold sv)) "threshold does not match" in
  require (same_number (memberCount s) (sv_members sv)) "number_of_members does not match".
(** runNode.ts:43-57 with node.ts:58-84; run.ts:58-77 with admin.ts:74-119 *)
Definition start_node (env config : vars) (s : st) : res service :=
  let* sv := run_node env config in let* _ := check_service sv s in Ok sv.
Definition start_admin (env config : vars) (me : Z) (s : st) : res service :=
  let* sv := run_admin env config in let* _ := check_service sv s in
  let* _ := require (owner s =? me) "ADMIN_PRIVATE_KEY is not set to zkRand admin" in Ok sv.

(** ** scripts/deploy.ts *)
(** what a created account runs: the key contract holds data *)
Inductive contract := KeyContract (words : list Z) | VerifierContract | GppContract | PrandContract | ZkdvrfPre (c : cfg).
(** the artifacts of contracts/ that deploy.ts can name *)
Definition artifacts : list (bytes * contract) :=
  [ (str "contracts/Halo2VerifyingKey-3-5-18-g2.sol:Halo2VerifyingKey", KeyContract vk_code);
    (str "contracts/Halo2Verifier.sol:Halo2Verifier", VerifierContract);
    (str "GlobalPublicParams", GppContract); (str "PseudoRand", PrandContract) ].
Definition factory (name : bytes) : res contract :=
  match find (fun x => path_eqb (fst x) name) artifacts with Some x => Ok (snd x) | None => Err "HH700: artifact not found" end.
(** `${x}` for a variable of process.env *)
Definition env_text (o : option bytes) : bytes := match o with Some s => s | None => str "undefined" end.
(** a string given for a uint of that many bits *)
Definition uint_arg (bits : Z) (o : option bytes) : res Z :=
  let* x := match o with
            | None => Err "invalid BigNumber value"
            | Some s => if negb (Nat.eqb (length s) 0) && forallb is_digit s then Ok (decimal s) else hex_num s
            end in
  let* _ := require (x <? 2 ^ bits) "value out-of-bounds" in Ok x.

Section Deploy.
  (** how ethers reads a string given for an address *)
  Variable address_of : bytes -> option Z.
  (** the addresses of the contracts that the deployer creates, in order *)
  Variable next : nat -> Z.
  Definition address_arg (o : option bytes) : res Z :=
    match o with Some s => match address_of s with Some a => Ok a | None => Err "invalid address" end | None => Err "invalid address" end.
  (** deploy.ts:21-55: the contracts created and the four addresses (verifier, key, parameters, pseudo-random) *)
  Definition helpers (env : vars) : res (list (Z * contract) * (Z * Z * Z * Z)) :=
    if path_eqb (env_text (env (str "DEPLOY_NO_HELPERS"))) (str "true") then
      let* h := address_arg (env (str "HALO2V")) in let* k := address_arg (env (str "HALO2VK")) in
      let* g := address_arg (env (str "GPP")) in let* p := address_arg (env (str "PSRAND")) in
      Ok ([], (h, k, g, p))
    else
      let* k := factory (str "contracts/Halo2VerifyingKey-" ++ env_text (env (str "THRESHOLD")) ++ str "-" ++ env_text (env (str "NUMBER_OF_MEMBERS"))
                         ++ str "-" ++ env_text (env (str "DEGREE")) ++ str "-g2.sol:Halo2VerifyingKey") in
      let* h := factory (str "contracts/Halo2Verifier.sol:Halo2Verifier") in
      let* g := factory (str "GlobalPublicParams") in
      let* p := factory (str "PseudoRand") in
      Ok ([(next 0, k); (next 1, h); (next 2, g); (next 3, p)], (next 1%nat, next 0%nat, next 2%nat, next 3%nat)).
  (** deploy.ts:57-60 *)
  Definition deploy (env : vars) : res (list (Z * contract)) :=
    let* (l, addresses) := helpers env in
    let '(h, k, g, p) := addresses in
    let* t := uint_arg 32 (env (str "THRESHOLD")) in
    let* n := uint_arg 32 (env (str "NUMBER_OF_MEMBERS")) in
    let* a := address_arg (Some (match env (str "ADMIN_ADDRESS") with Some s => s | None => [] end)) in
    let* m := uint_arg 256 (Some (match env (str "MIN_DEPOSIT") with Some s => s | None => str "0" end)) in
    let c := mkCfg t n a h k g p m in
    let* _ := construct c in
    Ok (l ++ [(next (length l), ZkdvrfPre c)]).
End Deploy.
