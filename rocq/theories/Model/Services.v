(** services/node.ts and services/admin.ts: one iteration of the polling loop of each service, and the programs it starts.
    Every read of the contract is a separate asynchronous call, so the state may change between two reads: [ch i] is the
    contract at the i-th read.  A program returns the transaction it sends ([call]); a failing client command or an
    exception makes it return an error and no transaction is sent.  Numbers: a [uint32] is a JavaScript number, a
    [uint256] is an ethers (v5) BigNumber.
    Not modelled: gas, RPC failures, logging, sleeping, the event listeners listenRegister / listenNidkg /
    listenRandThreshold (defined but called by nobody), the environment parsing of services/exec/*.ts. *)
From Coq Require Import ZArith String List Bool.
From Verif.Base Require Import Fld Fp EC Primes Curves Group.
From Verif.Model Require Import Monad Evm Strings Points HashEvm Dkg Lib Serialise Files Cache Client Zkdvrf.
Import ListNotations.
Open Scope Z_scope.

(** JavaScript [a < b] on two strings: lexicographic in the code units *)
Fixpoint str_lt (a b : bytes) : bool :=
  match a, b with
  | _, [] => false
  | [], _ :: _ => true
  | x :: a', y :: b' => (x <? y) || ((x =? y) && str_lt a' b')
  end.
(** [a > b] on two BigNumbers: ethers v5 gives them no valueOf, so both operands are converted by toString (decimal) *)
Definition bn_gt (a b : Z) : bool := str_lt (to_dec b) (to_dec a).
(** BigNumber.toHexString: "0x" and an even, minimal, non-zero number of digits *)
Definition to_hex_string (x : Z) : bytes := [48; 120] ++ hex_encode (be_bytes (Z.to_nat (Z.log2 x / 8 + 1)) x).
(** BigNumber.from on a string "0x.." (how ethers encodes a string given for a uint256) *)
Fixpoint hex_digits (acc : Z) (s : bytes) : option Z :=
  match s with
  | [] => Some acc
  | d :: r => match hex_val d with Some x => hex_digits (acc * 16 + x) r | None => None end
  end.
Definition hex_num (s : bytes) : res Z :=
  match s with
  | 48 :: 120 :: r => match r, hex_digits 0 r with _ :: _, Some x => Ok x | _, _ => Err "invalid BigNumber string" end
  | _ => Err "invalid BigNumber string"
  end.

(** node.ts:30-40, admin.ts:34-51: the options that matter here; [o_me] the wallet's address *)
Record options := Opts { o_threshold : Z; o_members : Z; o_degree : Z; o_me : Z }.
(** the variables set by cmdPrefix, node.ts:81, admin.ts:105 *)
Definition client_env (o : options) : bytes -> option bytes := fun key =>
  if path_eqb key (str "THRESHOLD") then Some (to_dec (o_threshold o))
  else if path_eqb key (str "NUMBER_OF_MEMBERS") then Some (to_dec (o_members o))
  else if path_eqb key (str "DEGREE") then Some (to_dec (o_degree o)) else None.
(** check_config, node.ts:130-144, admin.ts:274-288 *)
Definition check_config (o : options) (s : st) : res unit :=
  let* _ := require (Zkdvrf.threshold s =? o_threshold o) "threshold does not match" in
  require (memberCount s =? o_members o) "number_of_members does not match".

Inductive node_action := NIdle | NRegister | NSubmitPP | NEvaluate (derive : bool).
(** node.ts:88-126: one iteration; [thr] was read before the loop *)
Definition node_poll (o : options) (thr : Z) (ch : nat -> st) : node_action :=
  let nd := addrToNode (ch 1%nat) (o_me o) in
  if nodeAddress nd =? o_me o then
    match contractPhase (ch 0%nat) with
    | Unregistered => if status nd then NIdle else NRegister
    | Nidkg => if statusPP nd then NIdle else NSubmitPP
    | Ready =>
        let round := currentRoundNum (ch 2%nat) in
        let count := roundSubmissionCount (ch 3%nat) round in
        let last := lastSubmittedRound (ch 4%nat) (o_me o) in
        if bn_gt round last && (count <? thr) then NEvaluate (last =? 0) else NIdle
    | _ => NIdle
    end
  else NIdle.

Inductive admin_action := AStartNidkg | ACreateGpp | AInitiate | ACreateRandom (round : Z).
(** admin.ts:164-206: one iteration; [now1], [now2] the two clock readings (ms), [start], [last], [interval] the start
    date, the time of the last initiation and randGenInterval (s).  The actions are done in order; the first failure
    ends the service. *)
Definition admin_poll (o : options) (now1 now2 start last interval : Z) (ch : nat -> st) : list admin_action :=
  match contractPhase (ch 0%nat) with
  | Registered => [AStartNidkg]
  | NidkgComplete => [ACreateGpp]
  | Ready =>
      let round := currentRoundNum (ch 1%nat) in
      if now1 <? start then []
      else if round =? 0 then [AInitiate]
      else
        let count := roundSubmissionCount (ch 2%nat) round in
        let rnd := roundToRandom (ch 3%nat) round in
        (if (rvalue rnd =? 0) && (o_threshold o <=? count) then [ACreateRandom round] else []) ++
        (if interval <? (now2 - last) / 1000 then [AInitiate] else [])
  | _ => []
  end.

Section Programs.
  Variable keccak : bytes -> Z.
  Variable pairing : list (G1 * G2c) -> bool.
  Variable poseidon : Fr -> Fr -> Fr.
  Variable J : json.
  Variable g_to_lagrange : list bytes -> Z -> list bytes.
  Variables vkey pkey : Type.
  Variable vk_write : vkey -> bytes.
  Variable vk_read : bytes -> res vkey.
  Variable pk_write : pkey -> bytes.
  Variable pk_read : bytes -> res pkey.
  Variable keygen_vk : kzg -> config -> res vkey.
  Variable keygen_pk : kzg -> vkey -> config -> res pkey.
  Variable get_vk : pkey -> vkey.
  Variable create_proof : kzg -> pkey -> member_params -> list Fr -> Z -> res bytes.
  Variable verify_proof : kzg -> vkey -> bytes -> list Fr -> bool.
  (** the text of a wallet address (checksummed hexadecimal) *)
  Variable addr_text : Z -> bytes.
  Variable o : options.
  Definition client (c : command) : cmd unit :=
    main keccak pairing poseidon J g_to_lagrange vkey pkey vk_write vk_read pk_write pk_read keygen_vk keygen_pk get_vk create_proof verify_proof (client_env o) c.
  Definition member_name : bytes := join [str "member_"; addr_text (o_me o)].

  (** waitForWriteJsonToFile, node.ts:294-306, admin.ts:460-472: the callback ignores the error *)
  Definition js_write {A} (c : codec A) (p : path) (a : A) : cmd unit := fun s => (fst (write_file p (enc c a) s), Ok tt).
  (** a point or a number given to ethers as hexadecimal strings *)
  Definition point_arg (p : s_point) : res pt := let* x := hex_num (s_x p) in let* y := hex_num (s_y p) in Ok (x, y).
  Definition point_text (p : pt) : s_point := SPoint (to_hex_string (fst p)) (to_hex_string (snd p)).

  (** registerNode, node.ts:146-165; no ether is sent along; [secret] the key drawn by the client *)
  Definition node_register (secret : Fq) : cmd call :=
    do _ := client (Keygen (Some member_name) secret) in
    do m := load_json (j_member J) (member_path member_name) in
    lift (let* pk := point_arg (sm_pk m) in Ok (RegisterNode pk)).

  (** submitPP, node.ts:207-241 *)
  Definition node_submit_pp (ch : nat -> st) (coeffs : list Fr) (r : Fr) (seed : Z) : cmd call :=
    do _ := js_write (j_points J) MEM_PUBLIC_KEYS_PATH (map point_text (getPkList (ch 0%nat))) in
    do i := lift (getIndexPlus (ch 1%nat) (o_me o)) in
    do _ := client (Prove i coeffs r seed) in
    do _ := client (Verify i) in
    do zk := read_file (proof_path i) in
    do inst := load_json (j_strings J) (instance_path i) in
    lift (let* pp := mapM hex_num inst in Ok (SubmitPublicParams pp zk)).

  (** nidkgDerive, node.ts:243-262 *)
  Definition node_derive (ch : nat -> st) : cmd unit :=
    do _ := js_write (j_instances J) all_instances_path (map (map to_hex_string) (getPpList (ch 0%nat))) in
    do i := lift (getIndexPlus (ch 1%nat) (o_me o)) in
    client (Derive (Some i) (Some member_name)).

  (** submitPartialEval, node.ts:264-291; [r] the nonce drawn by the client *)
  Definition node_submit_eval (ch : nat -> st) (r : Fr) : cmd call :=
    let round := currentRoundNum (ch 0%nat) in
    let input := roundInput (ch 1%nat) round in
    do i := lift (getIndexPlus (ch 2%nat) (o_me o)) in
    do _ := client (Eval i input r) in
    do _ := client (RandVerify i input) in
    do e := load_json (j_eval J) (eval_path i) in
    lift (let* value := point_arg (se_value e) in let* z := hex_num (se_z e) in let* c := hex_num (se_c e) in
          Ok (SubmitPartialEval (mkPeval (se_index e) value z c))).

  (** createGpp, admin.ts:291-337 (the comparison after the transaction only logs) *)
  Definition admin_create_gpp (ch : nat -> st) : cmd call :=
    do _ := js_write (j_instances J) all_instances_path (map (map to_hex_string) (getPpList (ch 0%nat))) in
    do _ := client (Derive None None) in
    do g := load_json (j_point2 J) gpk_path in
    lift (let* x0 := hex_num (s_x0 g) in let* x1 := hex_num (s_x1 g) in
          let* y0 := hex_num (s_y0 g) in let* y1 := hex_num (s_y1 g) in Ok (ComputeVk (G2pt x0 x1 y0 y1))).

  (** createRandom, admin.ts:407-457: the evaluations of the round, by position, the empty ones left out *)
  Definition read_evals (ch : nat -> st) (round n : Z) : list peval :=
    filter (fun e => negb (indexPlus e =? 0)) (map (fun i => roundToEval (ch i) round (Z.of_nat i)) (seq 0 (Z.to_nat n))).
  Definition eval_text (e : peval) : s_eval :=
    SEval (indexPlus e) (point_text (evalue e)) (to_hex_string (proof_z e)) (to_hex_string (proof_c e)).
  Definition admin_create_random (ch : nat -> st) (round : Z) : cmd call :=
    let n := memberCount (ch 0%nat) in
    let input := roundInput (ch 1%nat) round in
    let evals := read_evals (fun i => ch (2 + i)%nat) round n in
    do _ := js_write (j_evals J) evals_path (map eval_text evals) in
    do _ := client (Combine input false) in
    do _ := client (VerifyFinal input) in
    do p := load_json (j_random J) pseudo_path in
    lift (let* proof := point_arg (sr_proof p) in
          let* _ := require (Nat.eqb (length (sr_value p)) 32) "invalid bytes32" in
          Ok (SubmitRandom (mkPrand proof (of_be (sr_value p))))).
End Programs.

(** admin.ts:110-162: the nodes named in the options are added before the loop, one transaction each, a failing one ending
    the service ([addrs] are nodeOneAddress .. nodeFiveAddress) *)
Section AdminStart.
  Variable v : variant.
  Variable E : env.
  Variable o : options.
  Fixpoint add_nodes (addrs : list Z) (s : st) : res st :=
    match addrs with
    | [] => Ok s
    | a :: r =>
        if nodeAddress (addrToNode s a) =? 0 then
          let* (s', _) := apply v E s (mkTx (o_me o) 0 (AddPermissionedNodes a)) in add_nodes r s'
        else add_nodes r s
    end.
  Definition admin_start (addrs : list Z) (s : st) : res st :=
    let* _ := require (owner s =? o_me o) "ADMIN_PRIVATE_KEY is not set to zkRand admin" in
    if negb (currentIndex s =? o_members o) then add_nodes addrs s else Ok s.
End AdminStart.
