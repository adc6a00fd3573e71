(** contracts/zkdvrf.sol and contracts/zkdvrf_pre.sol.

    The two contracts are the same text up to the differences shown by [diff]; they are modelled together, with a
    flag [v : variant] marking every place where they differ ([Plain] = zkdvrf.sol, [Pre] = zkdvrf_pre.sol).
    Line numbers refer to zkdvrf.sol unless the file is named.

    External contracts (Halo2Verifier, GlobalPublicParams, PseudoRand) and keccak256 are the fields of [env]; the
    properties hold for every [env], and [Verif.Model.RealEnv] gives the deployed one.
    Not modelled: gas, block data, transaction ordering other than "one transaction after another". *)
From Coq Require Import ZArith String List Bool.
From Verif.Model Require Import Monad Evm Strings.
Import ListNotations.
Open Scope string_scope.
Open Scope list_scope.
Open Scope Z_scope.

Inductive variant := Plain | Pre.

(** zkdvrf.sol:33-38, zkdvrf_pre.sol:34-40 ([Registered] exists only in zkdvrf_pre) *)
Inductive phase := Unregistered | Registered | Nidkg | NidkgComplete | Ready.
Definition phase_eqb (a b : phase) : bool :=
  match a, b with
  | Unregistered, Unregistered | Registered, Registered | Nidkg, Nidkg
  | NidkgComplete, NidkgComplete | Ready, Ready => true
  | _, _ => false
  end.

(** struct dvrfNode, zkdvrf.sol:25-31 *)
Record node := mkNode { nodeAddress : Z; status : bool; deposit : Z; statusPP : bool; pkIndex : Z }.
Definition node0 : node := mkNode 0 false 0 false 0.
(** IPseudoRand.sol:8-21 *)
Record peval := mkPeval { indexPlus : Z; evalue : pt; proof_z : Z; proof_c : Z }.
Definition peval0 : peval := mkPeval 0 (0, 0) 0 0.
Record prand := mkPrand { rproof : pt; rvalue : Z }.
Definition prand0 : prand := mkPrand (0, 0) 0.

(** zkdvrf.sol:40 *)
Definition INPUT_PREFIX : bytes := ascii_bytes "zkRand-v1-2024:".

(** the external contracts called, and keccak256 *)
Record env := mkEnv {
  keccak : bytes -> Z;                                              (* keccak256, as a uint256 *)
  verify_proof : Z -> bytes -> list Z -> res bool;                  (* Halo2Verifier.verifyProof(vk, proof, instances) *)
  create_gpp : Z -> g2pt -> list (list Z) -> res (g2pt * list pt);  (* GlobalPublicParams.createGpp *)
  hash_to_g1 : bytes -> res pt;                                     (* PseudoRand.hashToG1 *)
  verify_partial_eval : bytes -> pt -> Z -> Z -> pt -> res bool;    (* PseudoRand.verifyPartialEval(msg,sigma,z,c,vk) *)
  verify_partial_eval_fast : pt -> pt -> Z -> Z -> pt -> res bool;
  verify_pseudo_rand : bytes -> pt -> g2pt -> res bool;
  verify_pseudo_rand_fast : pt -> pt -> g2pt -> res bool
}.

(** contract storage *)
Record st := mkSt {
  owner : Z;   (* Ownable._owner *)
  memberCount : Z;   (* zkdvrf.sol:42 *)
  threshold : Z;   (* zkdvrf.sol:43 *)
  ppLength : Z;   (* zkdvrf.sol:44 *)
  currentIndex : Z;   (* zkdvrf.sol:46 *)
  registeredCount : Z;   (* zkdvrf.sol:48 *)
  ppSubmissionCount : Z;   (* zkdvrf.sol:49 *)
  currentRoundNum : Z;   (* zkdvrf.sol:51 *)
  minNodeDeposit : Z;   (* zkdvrf.sol:52 *)
  pkListIndex : Z;   (* zkdvrf.sol:54 *)
  pkList : list pt;   (* zkdvrf.sol:55 *)
  pkListOrder : list Z;   (* zkdvrf.sol:56, absent in zkdvrf_pre *)
  ppList : list (list Z);   (* zkdvrf.sol:58 *)
  ppListOrder : list Z;   (* zkdvrf.sol:59, absent in zkdvrf_pre *)
  vkList : list pt;   (* zkdvrf.sol:62 *)
  gpkVal : g2pt;   (* zkdvrf.sol:63 *)
  contractPhase : phase;   (* zkdvrf.sol:65 *)
  halo2VerifyingKey : Z;   (* zkdvrf.sol:67 *)
  nodes : Z -> Z;   (* zkdvrf.sol:71 *)
  addrToNode : Z -> node;   (* zkdvrf.sol:72 *)
  roundInput : Z -> bytes;   (* zkdvrf.sol:73 *)
  roundHash : Z -> pt;   (* zkdvrf_pre.sol:74, absent in zkdvrf *)
  lastSubmittedRound : Z -> Z;   (* zkdvrf.sol:74 *)
  roundToEval : Z -> Z -> peval;   (* zkdvrf.sol:75 *)
  roundSubmissionCount : Z -> Z;   (* zkdvrf.sol:76 *)
  roundToRandom : Z -> prand;   (* zkdvrf.sol:77 *)
  balance : Z   (* address(this).balance *)
}.

(** assignment to one storage slot *)
Definition set_owner (v : Z) (s : st) : st := mkSt v (s.(memberCount)) (s.(threshold)) (s.(ppLength)) (s.(currentIndex)) (s.(registeredCount)) (s.(ppSubmissionCount)) (s.(currentRoundNum)) (s.(minNodeDeposit)) (s.(pkListIndex)) (s.(pkList)) (s.(pkListOrder)) (s.(ppList)) (s.(ppListOrder)) (s.(vkList)) (s.(gpkVal)) (s.(contractPhase)) (s.(halo2VerifyingKey)) (s.(nodes)) (s.(addrToNode)) (s.(roundInput)) (s.(roundHash)) (s.(lastSubmittedRound)) (s.(roundToEval)) (s.(roundSubmissionCount)) (s.(roundToRandom)) (s.(balance)).
Definition set_memberCount (v : Z) (s : st) : st := mkSt (s.(owner)) v (s.(threshold)) (s.(ppLength)) (s.(currentIndex)) (s.(registeredCount)) (s.(ppSubmissionCount)) (s.(currentRoundNum)) (s.(minNodeDeposit)) (s.(pkListIndex)) (s.(pkList)) (s.(pkListOrder)) (s.(ppList)) (s.(ppListOrder)) (s.(vkList)) (s.(gpkVal)) (s.(contractPhase)) (s.(halo2VerifyingKey)) (s.(nodes)) (s.(addrToNode)) (s.(roundInput)) (s.(roundHash)) (s.(lastSubmittedRound)) (s.(roundToEval)) (s.(roundSubmissionCount)) (s.(roundToRandom)) (s.(balance)).
Definition set_threshold (v : Z) (s : st) : st := mkSt (s.(owner)) (s.(memberCount)) v (s.(ppLength)) (s.(currentIndex)) (s.(registeredCount)) (s.(ppSubmissionCount)) (s.(currentRoundNum)) (s.(minNodeDeposit)) (s.(pkListIndex)) (s.(pkList)) (s.(pkListOrder)) (s.(ppList)) (s.(ppListOrder)) (s.(vkList)) (s.(gpkVal)) (s.(contractPhase)) (s.(halo2VerifyingKey)) (s.(nodes)) (s.(addrToNode)) (s.(roundInput)) (s.(roundHash)) (s.(lastSubmittedRound)) (s.(roundToEval)) (s.(roundSubmissionCount)) (s.(roundToRandom)) (s.(balance)).
Definition set_ppLength (v : Z) (s : st) : st := mkSt (s.(owner)) (s.(memberCount)) (s.(threshold)) v (s.(currentIndex)) (s.(registeredCount)) (s.(ppSubmissionCount)) (s.(currentRoundNum)) (s.(minNodeDeposit)) (s.(pkListIndex)) (s.(pkList)) (s.(pkListOrder)) (s.(ppList)) (s.(ppListOrder)) (s.(vkList)) (s.(gpkVal)) (s.(contractPhase)) (s.(halo2VerifyingKey)) (s.(nodes)) (s.(addrToNode)) (s.(roundInput)) (s.(roundHash)) (s.(lastSubmittedRound)) (s.(roundToEval)) (s.(roundSubmissionCount)) (s.(roundToRandom)) (s.(balance)).
Definition set_currentIndex (v : Z) (s : st) : st := mkSt (s.(owner)) (s.(memberCount)) (s.(threshold)) (s.(ppLength)) v (s.(registeredCount)) (s.(ppSubmissionCount)) (s.(currentRoundNum)) (s.(minNodeDeposit)) (s.(pkListIndex)) (s.(pkList)) (s.(pkListOrder)) (s.(ppList)) (s.(ppListOrder)) (s.(vkList)) (s.(gpkVal)) (s.(contractPhase)) (s.(halo2VerifyingKey)) (s.(nodes)) (s.(addrToNode)) (s.(roundInput)) (s.(roundHash)) (s.(lastSubmittedRound)) (s.(roundToEval)) (s.(roundSubmissionCount)) (s.(roundToRandom)) (s.(balance)).
Definition set_registeredCount (v : Z) (s : st) : st := mkSt (s.(owner)) (s.(memberCount)) (s.(threshold)) (s.(ppLength)) (s.(currentIndex)) v (s.(ppSubmissionCount)) (s.(currentRoundNum)) (s.(minNodeDeposit)) (s.(pkListIndex)) (s.(pkList)) (s.(pkListOrder)) (s.(ppList)) (s.(ppListOrder)) (s.(vkList)) (s.(gpkVal)) (s.(contractPhase)) (s.(halo2VerifyingKey)) (s.(nodes)) (s.(addrToNode)) (s.(roundInput)) (s.(roundHash)) (s.(lastSubmittedRound)) (s.(roundToEval)) (s.(roundSubmissionCount)) (s.(roundToRandom)) (s.(balance)).
Definition set_ppSubmissionCount (v : Z) (s : st) : st := mkSt (s.(owner)) (s.(memberCount)) (s.(threshold)) (s.(ppLength)) (s.(currentIndex)) (s.(registeredCount)) v (s.(currentRoundNum)) (s.(minNodeDeposit)) (s.(pkListIndex)) (s.(pkList)) (s.(pkListOrder)) (s.(ppList)) (s.(ppListOrder)) (s.(vkList)) (s.(gpkVal)) (s.(contractPhase)) (s.(halo2VerifyingKey)) (s.(nodes)) (s.(addrToNode)) (s.(roundInput)) (s.(roundHash)) (s.(lastSubmittedRound)) (s.(roundToEval)) (s.(roundSubmissionCount)) (s.(roundToRandom)) (s.(balance)).
Definition set_currentRoundNum (v : Z) (s : st) : st := mkSt (s.(owner)) (s.(memberCount)) (s.(threshold)) (s.(ppLength)) (s.(currentIndex)) (s.(registeredCount)) (s.(ppSubmissionCount)) v (s.(minNodeDeposit)) (s.(pkListIndex)) (s.(pkList)) (s.(pkListOrder)) (s.(ppList)) (s.(ppListOrder)) (s.(vkList)) (s.(gpkVal)) (s.(contractPhase)) (s.(halo2VerifyingKey)) (s.(nodes)) (s.(addrToNode)) (s.(roundInput)) (s.(roundHash)) (s.(lastSubmittedRound)) (s.(roundToEval)) (s.(roundSubmissionCount)) (s.(roundToRandom)) (s.(balance)).
Definition set_minNodeDeposit (v : Z) (s : st) : st := mkSt (s.(owner)) (s.(memberCount)) (s.(threshold)) (s.(ppLength)) (s.(currentIndex)) (s.(registeredCount)) (s.(ppSubmissionCount)) (s.(currentRoundNum)) v (s.(pkListIndex)) (s.(pkList)) (s.(pkListOrder)) (s.(ppList)) (s.(ppListOrder)) (s.(vkList)) (s.(gpkVal)) (s.(contractPhase)) (s.(halo2VerifyingKey)) (s.(nodes)) (s.(addrToNode)) (s.(roundInput)) (s.(roundHash)) (s.(lastSubmittedRound)) (s.(roundToEval)) (s.(roundSubmissionCount)) (s.(roundToRandom)) (s.(balance)).
Definition set_pkListIndex (v : Z) (s : st) : st := mkSt (s.(owner)) (s.(memberCount)) (s.(threshold)) (s.(ppLength)) (s.(currentIndex)) (s.(registeredCount)) (s.(ppSubmissionCount)) (s.(currentRoundNum)) (s.(minNodeDeposit)) v (s.(pkList)) (s.(pkListOrder)) (s.(ppList)) (s.(ppListOrder)) (s.(vkList)) (s.(gpkVal)) (s.(contractPhase)) (s.(halo2VerifyingKey)) (s.(nodes)) (s.(addrToNode)) (s.(roundInput)) (s.(roundHash)) (s.(lastSubmittedRound)) (s.(roundToEval)) (s.(roundSubmissionCount)) (s.(roundToRandom)) (s.(balance)).
Definition set_pkList (v : list pt) (s : st) : st := mkSt (s.(owner)) (s.(memberCount)) (s.(threshold)) (s.(ppLength)) (s.(currentIndex)) (s.(registeredCount)) (s.(ppSubmissionCount)) (s.(currentRoundNum)) (s.(minNodeDeposit)) (s.(pkListIndex)) v (s.(pkListOrder)) (s.(ppList)) (s.(ppListOrder)) (s.(vkList)) (s.(gpkVal)) (s.(contractPhase)) (s.(halo2VerifyingKey)) (s.(nodes)) (s.(addrToNode)) (s.(roundInput)) (s.(roundHash)) (s.(lastSubmittedRound)) (s.(roundToEval)) (s.(roundSubmissionCount)) (s.(roundToRandom)) (s.(balance)).
Definition set_pkListOrder (v : list Z) (s : st) : st := mkSt (s.(owner)) (s.(memberCount)) (s.(threshold)) (s.(ppLength)) (s.(currentIndex)) (s.(registeredCount)) (s.(ppSubmissionCount)) (s.(currentRoundNum)) (s.(minNodeDeposit)) (s.(pkListIndex)) (s.(pkList)) v (s.(ppList)) (s.(ppListOrder)) (s.(vkList)) (s.(gpkVal)) (s.(contractPhase)) (s.(halo2VerifyingKey)) (s.(nodes)) (s.(addrToNode)) (s.(roundInput)) (s.(roundHash)) (s.(lastSubmittedRound)) (s.(roundToEval)) (s.(roundSubmissionCount)) (s.(roundToRandom)) (s.(balance)).
Definition set_ppList (v : list (list Z)) (s : st) : st := mkSt (s.(owner)) (s.(memberCount)) (s.(threshold)) (s.(ppLength)) (s.(currentIndex)) (s.(registeredCount)) (s.(ppSubmissionCount)) (s.(currentRoundNum)) (s.(minNodeDeposit)) (s.(pkListIndex)) (s.(pkList)) (s.(pkListOrder)) v (s.(ppListOrder)) (s.(vkList)) (s.(gpkVal)) (s.(contractPhase)) (s.(halo2VerifyingKey)) (s.(nodes)) (s.(addrToNode)) (s.(roundInput)) (s.(roundHash)) (s.(lastSubmittedRound)) (s.(roundToEval)) (s.(roundSubmissionCount)) (s.(roundToRandom)) (s.(balance)).
Definition set_ppListOrder (v : list Z) (s : st) : st := mkSt (s.(owner)) (s.(memberCount)) (s.(threshold)) (s.(ppLength)) (s.(currentIndex)) (s.(registeredCount)) (s.(ppSubmissionCount)) (s.(currentRoundNum)) (s.(minNodeDeposit)) (s.(pkListIndex)) (s.(pkList)) (s.(pkListOrder)) (s.(ppList)) v (s.(vkList)) (s.(gpkVal)) (s.(contractPhase)) (s.(halo2VerifyingKey)) (s.(nodes)) (s.(addrToNode)) (s.(roundInput)) (s.(roundHash)) (s.(lastSubmittedRound)) (s.(roundToEval)) (s.(roundSubmissionCount)) (s.(roundToRandom)) (s.(balance)).
Definition set_vkList (v : list pt) (s : st) : st := mkSt (s.(owner)) (s.(memberCount)) (s.(threshold)) (s.(ppLength)) (s.(currentIndex)) (s.(registeredCount)) (s.(ppSubmissionCount)) (s.(currentRoundNum)) (s.(minNodeDeposit)) (s.(pkListIndex)) (s.(pkList)) (s.(pkListOrder)) (s.(ppList)) (s.(ppListOrder)) v (s.(gpkVal)) (s.(contractPhase)) (s.(halo2VerifyingKey)) (s.(nodes)) (s.(addrToNode)) (s.(roundInput)) (s.(roundHash)) (s.(lastSubmittedRound)) (s.(roundToEval)) (s.(roundSubmissionCount)) (s.(roundToRandom)) (s.(balance)).
Definition set_gpkVal (v : g2pt) (s : st) : st := mkSt (s.(owner)) (s.(memberCount)) (s.(threshold)) (s.(ppLength)) (s.(currentIndex)) (s.(registeredCount)) (s.(ppSubmissionCount)) (s.(currentRoundNum)) (s.(minNodeDeposit)) (s.(pkListIndex)) (s.(pkList)) (s.(pkListOrder)) (s.(ppList)) (s.(ppListOrder)) (s.(vkList)) v (s.(contractPhase)) (s.(halo2VerifyingKey)) (s.(nodes)) (s.(addrToNode)) (s.(roundInput)) (s.(roundHash)) (s.(lastSubmittedRound)) (s.(roundToEval)) (s.(roundSubmissionCount)) (s.(roundToRandom)) (s.(balance)).
Definition set_contractPhase (v : phase) (s : st) : st := mkSt (s.(owner)) (s.(memberCount)) (s.(threshold)) (s.(ppLength)) (s.(currentIndex)) (s.(registeredCount)) (s.(ppSubmissionCount)) (s.(currentRoundNum)) (s.(minNodeDeposit)) (s.(pkListIndex)) (s.(pkList)) (s.(pkListOrder)) (s.(ppList)) (s.(ppListOrder)) (s.(vkList)) (s.(gpkVal)) v (s.(halo2VerifyingKey)) (s.(nodes)) (s.(addrToNode)) (s.(roundInput)) (s.(roundHash)) (s.(lastSubmittedRound)) (s.(roundToEval)) (s.(roundSubmissionCount)) (s.(roundToRandom)) (s.(balance)).
Definition set_halo2VerifyingKey (v : Z) (s : st) : st := mkSt (s.(owner)) (s.(memberCount)) (s.(threshold)) (s.(ppLength)) (s.(currentIndex)) (s.(registeredCount)) (s.(ppSubmissionCount)) (s.(currentRoundNum)) (s.(minNodeDeposit)) (s.(pkListIndex)) (s.(pkList)) (s.(pkListOrder)) (s.(ppList)) (s.(ppListOrder)) (s.(vkList)) (s.(gpkVal)) (s.(contractPhase)) v (s.(nodes)) (s.(addrToNode)) (s.(roundInput)) (s.(roundHash)) (s.(lastSubmittedRound)) (s.(roundToEval)) (s.(roundSubmissionCount)) (s.(roundToRandom)) (s.(balance)).
Definition set_nodes (v : Z -> Z) (s : st) : st := mkSt (s.(owner)) (s.(memberCount)) (s.(threshold)) (s.(ppLength)) (s.(currentIndex)) (s.(registeredCount)) (s.(ppSubmissionCount)) (s.(currentRoundNum)) (s.(minNodeDeposit)) (s.(pkListIndex)) (s.(pkList)) (s.(pkListOrder)) (s.(ppList)) (s.(ppListOrder)) (s.(vkList)) (s.(gpkVal)) (s.(contractPhase)) (s.(halo2VerifyingKey)) v (s.(addrToNode)) (s.(roundInput)) (s.(roundHash)) (s.(lastSubmittedRound)) (s.(roundToEval)) (s.(roundSubmissionCount)) (s.(roundToRandom)) (s.(balance)).
Definition set_addrToNode (v : Z -> node) (s : st) : st := mkSt (s.(owner)) (s.(memberCount)) (s.(threshold)) (s.(ppLength)) (s.(currentIndex)) (s.(registeredCount)) (s.(ppSubmissionCount)) (s.(currentRoundNum)) (s.(minNodeDeposit)) (s.(pkListIndex)) (s.(pkList)) (s.(pkListOrder)) (s.(ppList)) (s.(ppListOrder)) (s.(vkList)) (s.(gpkVal)) (s.(contractPhase)) (s.(halo2VerifyingKey)) (s.(nodes)) v (s.(roundInput)) (s.(roundHash)) (s.(lastSubmittedRound)) (s.(roundToEval)) (s.(roundSubmissionCount)) (s.(roundToRandom)) (s.(balance)).
Definition set_roundInput (v : Z -> bytes) (s : st) : st := mkSt (s.(owner)) (s.(memberCount)) (s.(threshold)) (s.(ppLength)) (s.(currentIndex)) (s.(registeredCount)) (s.(ppSubmissionCount)) (s.(currentRoundNum)) (s.(minNodeDeposit)) (s.(pkListIndex)) (s.(pkList)) (s.(pkListOrder)) (s.(ppList)) (s.(ppListOrder)) (s.(vkList)) (s.(gpkVal)) (s.(contractPhase)) (s.(halo2VerifyingKey)) (s.(nodes)) (s.(addrToNode)) v (s.(roundHash)) (s.(lastSubmittedRound)) (s.(roundToEval)) (s.(roundSubmissionCount)) (s.(roundToRandom)) (s.(balance)).
Definition set_roundHash (v : Z -> pt) (s : st) : st := mkSt (s.(owner)) (s.(memberCount)) (s.(threshold)) (s.(ppLength)) (s.(currentIndex)) (s.(registeredCount)) (s.(ppSubmissionCount)) (s.(currentRoundNum)) (s.(minNodeDeposit)) (s.(pkListIndex)) (s.(pkList)) (s.(pkListOrder)) (s.(ppList)) (s.(ppListOrder)) (s.(vkList)) (s.(gpkVal)) (s.(contractPhase)) (s.(halo2VerifyingKey)) (s.(nodes)) (s.(addrToNode)) (s.(roundInput)) v (s.(lastSubmittedRound)) (s.(roundToEval)) (s.(roundSubmissionCount)) (s.(roundToRandom)) (s.(balance)).
Definition set_lastSubmittedRound (v : Z -> Z) (s : st) : st := mkSt (s.(owner)) (s.(memberCount)) (s.(threshold)) (s.(ppLength)) (s.(currentIndex)) (s.(registeredCount)) (s.(ppSubmissionCount)) (s.(currentRoundNum)) (s.(minNodeDeposit)) (s.(pkListIndex)) (s.(pkList)) (s.(pkListOrder)) (s.(ppList)) (s.(ppListOrder)) (s.(vkList)) (s.(gpkVal)) (s.(contractPhase)) (s.(halo2VerifyingKey)) (s.(nodes)) (s.(addrToNode)) (s.(roundInput)) (s.(roundHash)) v (s.(roundToEval)) (s.(roundSubmissionCount)) (s.(roundToRandom)) (s.(balance)).
Definition set_roundToEval (v : Z -> Z -> peval) (s : st) : st := mkSt (s.(owner)) (s.(memberCount)) (s.(threshold)) (s.(ppLength)) (s.(currentIndex)) (s.(registeredCount)) (s.(ppSubmissionCount)) (s.(currentRoundNum)) (s.(minNodeDeposit)) (s.(pkListIndex)) (s.(pkList)) (s.(pkListOrder)) (s.(ppList)) (s.(ppListOrder)) (s.(vkList)) (s.(gpkVal)) (s.(contractPhase)) (s.(halo2VerifyingKey)) (s.(nodes)) (s.(addrToNode)) (s.(roundInput)) (s.(roundHash)) (s.(lastSubmittedRound)) v (s.(roundSubmissionCount)) (s.(roundToRandom)) (s.(balance)).
Definition set_roundSubmissionCount (v : Z -> Z) (s : st) : st := mkSt (s.(owner)) (s.(memberCount)) (s.(threshold)) (s.(ppLength)) (s.(currentIndex)) (s.(registeredCount)) (s.(ppSubmissionCount)) (s.(currentRoundNum)) (s.(minNodeDeposit)) (s.(pkListIndex)) (s.(pkList)) (s.(pkListOrder)) (s.(ppList)) (s.(ppListOrder)) (s.(vkList)) (s.(gpkVal)) (s.(contractPhase)) (s.(halo2VerifyingKey)) (s.(nodes)) (s.(addrToNode)) (s.(roundInput)) (s.(roundHash)) (s.(lastSubmittedRound)) (s.(roundToEval)) v (s.(roundToRandom)) (s.(balance)).
Definition set_roundToRandom (v : Z -> prand) (s : st) : st := mkSt (s.(owner)) (s.(memberCount)) (s.(threshold)) (s.(ppLength)) (s.(currentIndex)) (s.(registeredCount)) (s.(ppSubmissionCount)) (s.(currentRoundNum)) (s.(minNodeDeposit)) (s.(pkListIndex)) (s.(pkList)) (s.(pkListOrder)) (s.(ppList)) (s.(ppListOrder)) (s.(vkList)) (s.(gpkVal)) (s.(contractPhase)) (s.(halo2VerifyingKey)) (s.(nodes)) (s.(addrToNode)) (s.(roundInput)) (s.(roundHash)) (s.(lastSubmittedRound)) (s.(roundToEval)) (s.(roundSubmissionCount)) v (s.(balance)).
Definition set_balance (v : Z) (s : st) : st := mkSt (s.(owner)) (s.(memberCount)) (s.(threshold)) (s.(ppLength)) (s.(currentIndex)) (s.(registeredCount)) (s.(ppSubmissionCount)) (s.(currentRoundNum)) (s.(minNodeDeposit)) (s.(pkListIndex)) (s.(pkList)) (s.(pkListOrder)) (s.(ppList)) (s.(ppListOrder)) (s.(vkList)) (s.(gpkVal)) (s.(contractPhase)) (s.(halo2VerifyingKey)) (s.(nodes)) (s.(addrToNode)) (s.(roundInput)) (s.(roundHash)) (s.(lastSubmittedRound)) (s.(roundToEval)) (s.(roundSubmissionCount)) (s.(roundToRandom)) v.

(** read of an array element: panic 0x32 when out of bounds *)
Definition at_ {A} (l : list A) (i : Z) : res A :=
  if i <? 0 then Panic "array out of bounds"
  else match nth_error l (Z.to_nat i) with Some x => Ok x | None => Panic "array out of bounds" end.

Inductive event :=
| RegistrationCompleted (count : Z)
| NidkgStarted
| NidkgCompleted (count : Z)
| GlobalPublicParamsCreated
| RandomInitiated (roundNum : Z) (input : bytes)
| RandomThresholdReached (roundNum : Z) (input : bytes)
| RandomReady (roundNum : Z) (input : bytes)
| OwnershipTransferred (prev new : Z).

(** the state-changing entry points *)
Inductive call :=
| AddPermissionedNodes (a : Z)
| RegisterNode (pubKey : pt)
| StartNidkg
| SubmitPublicParams (pp : list Z) (zkProof : bytes)
| ComputeVk (gpk : g2pt)
| InitiateRandom
| SubmitPartialEval (e : peval)
| SubmitRandom (p : prand)
| TransferOwnership (a : Z)      (* inherited: OpenZeppelin Ownable *)
| RenounceOwnership              (* inherited: OpenZeppelin Ownable *)
| ForceEther.                    (* not a function: ether forced in by selfdestruct / block reward *)

Record tx := mkTx { sender : Z; tvalue : Z; what : call }.

(** constructor arguments *)
Record cfg := mkCfg {
  c_threshold : Z; c_number : Z; c_owner : Z; c_halo2 : Z; c_vk : Z; c_gpp : Z; c_prand : Z; c_minDeposit : Z }.

(** constructor, zkdvrf.sol:79-89, zkdvrf_pre.sol:81-91.  [c_owner] is msg.sender in zkdvrf.sol and an argument in
    zkdvrf_pre.sol; Ownable rejects the zero address. *)
Definition construct (c : cfg) : res st :=
  let* _ := require (negb (c_owner c =? 0)) "OwnableInvalidOwner" in
  let* _ := require (negb (c_halo2 c =? 0) && negb (c_gpp c =? 0) && negb (c_prand c =? 0)) "Cannot be zero addresses" in
  let* l7 := mul32 7 (c_number c) in
  let* l := add32 l7 14 in
  Ok (mkSt (c_owner c) (c_number c) (c_threshold c) l 0 0 0 0 (c_minDeposit c) 0 [] [] [] [] [] g2zero Unregistered
       (c_vk c) (fun _ => 0) (fun _ => node0) (fun _ => []) (fun _ => (0, 0)) (fun _ => 0) (fun _ _ => peval0)
       (fun _ => 0) (fun _ => prand0) 0).
(** ABI-level ranges of the constructor arguments *)
Definition cfg_ok (c : cfg) : bool :=
  is_u32 (c_threshold c) && is_u32 (c_number c) && is_addr (c_owner c) && is_addr (c_halo2 c) && is_addr (c_vk c)
  && is_addr (c_gpp c) && is_addr (c_prand c) && is_u256 (c_minDeposit c).

Section Contract.
  Variable v : variant.
  Variable E : env.
  Local Notation "s '<|' f '|>'" := (f s) (at level 50, left associativity, only parsing).

  Definition is_pre : bool := match v with Pre => true | Plain => false end.

  (** Grumpkin.isOnCurve, contracts/libs/Grumpkin.sol:11-23 *)
  Definition grumpkin_r : Z := 21888242871839275222246405745257275088548364400416034343698204186575808495617.
  Definition isOnCurve (a : pt) : bool :=
    let y2 := mulmod (snd a) (snd a) grumpkin_r in
    let z := addmod y2 17 grumpkin_r in
    let x2 := mulmod (fst a) (fst a) grumpkin_r in
    let x3 := mulmod (fst a) x2 grumpkin_r in
    z =? x3.

  (** Ownable.onlyOwner *)
  Definition onlyOwner (s : st) (t : tx) : res unit := require (sender t =? owner s) "OwnableUnauthorizedAccount".

  (** addPermissionedNodes, zkdvrf.sol:94-101 *)
  Definition addPermissionedNodes (s : st) (t : tx) (a : Z) : res (st * list event) :=
    let* _ := onlyOwner s t in
    let* _ := require (currentIndex s <? memberCount s) "All members added" in
    let* _ := require (negb (a =? 0)) "Node cannot be zero address" in
    let* _ := require (nodeAddress (addrToNode s a) =? 0) "Node has already been added" in
    let s := s <| set_addrToNode (upd (addrToNode s) a (mkNode a false 0 false 0)) |> in
    let* ci := add32 (currentIndex s) 1 in
    Ok (s <| set_currentIndex ci |>, []).

  (** registerNode, zkdvrf.sol:104-125, zkdvrf_pre.sol:105-125 *)
  Definition registerNode (s : st) (t : tx) (pk : pt) : res (st * list event) :=
    let me := sender t in
    let* _ := require (phase_eqb (contractPhase s) Unregistered) "Registration has already been completed" in
    let* _ := require (me =? nodeAddress (addrToNode s me)) "Unauthorized call" in
    let* _ := require (negb (status (addrToNode s me))) "Node Already registered" in
    let* _ := require (minNodeDeposit s <=? tvalue t) "Must provide enough node deposit" in
    let* _ := require (isOnCurve pk) "Invalid Public Key submitted" in
    let s := s <| set_nodes (upd (nodes s) (registeredCount s) me) |> in
    let nd := addrToNode s me in
    let s := s <| set_addrToNode (upd (addrToNode s) me
                   (mkNode (nodeAddress nd) true (tvalue t) (statusPP nd) (pkListIndex s))) |> in
    let s := s <| set_pkList (pkList s ++ [pk]) |> in
    let s := if is_pre then s else s <| set_pkListOrder (pkListOrder s ++ [me]) |> in
    let* pli := add32 (pkListIndex s) 1 in
    let s := s <| set_pkListIndex pli |> in
    let* rc := add32 (registeredCount s) 1 in
    let s := s <| set_registeredCount rc |> in
    if rc =? memberCount s
    then Ok (if is_pre then s <| set_contractPhase Registered |> else s, [RegistrationCompleted rc])
    else Ok (s, []).

  (** startNidkg, zkdvrf.sol:129-135, zkdvrf_pre.sol:129-134 *)
  Definition startNidkg (s : st) (t : tx) : res (st * list event) :=
    let* _ := onlyOwner s t in
    let* _ := if is_pre then require (phase_eqb (contractPhase s) Registered) "Cannot start NIDKG"
              else let* _ := require (phase_eqb (contractPhase s) Unregistered) "NIDKG has already been completed" in
                   require (registeredCount s =? memberCount s) "Not all Members are ready" in
    Ok (s <| set_contractPhase Nidkg |>, [NidkgStarted]).

  (** the loop of checkPublicParams, zkdvrf.sol:248-256; [fuel] is memberCount - i *)
  Fixpoint check_keys (fuel : nat) (pp : list Z) (pkl : list pt) (i j : Z) : res bool :=
    match fuel with
    | O => Ok true
    | S f =>
      let* a := at_ pp j in
      let* p := at_ pkl i in
      let* _ := require (a =? fst p) "Wrong public key x" in
      let* j1 := add256 j 1 in
      let* b := at_ pp j1 in
      let* _ := require (b =? snd p) "Wrong public key y" in
      if negb (a =? fst p) || negb (b =? snd p) then Ok false
      else let* j2 := add256 j 2 in check_keys f pp pkl (i + 1) j2
    end.
  (** checkPublicParams, zkdvrf.sol:239-259 *)
  Definition checkPublicParams (s : st) (pp : list Z) : res bool :=
    let* _ := require (Z.of_nat (length (pkList s)) =? memberCount s) "Not enough member public keys" in
    let* _ := require (Z.of_nat (length pp) =? ppLength s) "Wrong size of public parameters" in
    let* n2 := mul32 2 (memberCount s) in
    let* j := sub256 (Z.of_nat (length pp)) n2 in
    check_keys (Z.to_nat (memberCount s)) pp (pkList s) 0 j.

  (** submitPublicParams, zkdvrf.sol:139-157 *)
  Definition submitPublicParams (s : st) (t : tx) (pp : list Z) (zk : bytes) : res (st * list event) :=
    let me := sender t in
    let* _ := require (me =? nodeAddress (addrToNode s me)) "Unauthorized call" in
    let* _ := require (phase_eqb (contractPhase s) Nidkg) "Contract not in NIDKG phase" in
    let* _ := require (negb (statusPP (addrToNode s me))) "Node already submitted" in
    let* ok := checkPublicParams s pp in
    let* _ := require ok "Invalid public parameters" in
    let* ok := verify_proof E (halo2VerifyingKey s) zk pp in
    let* _ := require ok "SNARK proof verification failed" in
    let nd := addrToNode s me in
    let s := s <| set_addrToNode (upd (addrToNode s) me
                   (mkNode (nodeAddress nd) (status nd) (deposit nd) true (pkIndex nd))) |> in
    let s := s <| set_ppList (ppList s ++ [pp]) |> in
    let s := if is_pre then s else s <| set_ppListOrder (ppListOrder s ++ [me]) |> in
    let* c := add32 (ppSubmissionCount s) 1 in
    let s := s <| set_ppSubmissionCount c |> in
    if c =? memberCount s then Ok (s <| set_contractPhase NidkgComplete |>, [NidkgCompleted c])
    else Ok (s, []).

  (** computeVk, zkdvrf.sol:160-170 *)
  Definition computeVk (s : st) (gpk : g2pt) : res (st * list event) :=
    let* _ := require (phase_eqb (contractPhase s) NidkgComplete) "Partial Parameter submission not complete" in
    let* (gpkRet, vk) := create_gpp E (memberCount s) gpk (ppList s) in
    let s := s <| set_vkList (vkList s ++ vk) |> in
    let s := s <| set_gpkVal gpkRet |> in
    Ok (s <| set_contractPhase Ready |>, [GlobalPublicParamsCreated]).

  (** initiateRandom, zkdvrf.sol:173-184, zkdvrf_pre.sol:169-182 *)
  Definition initiateRandom (s : st) (t : tx) : res (st * list event) :=
    let* _ := onlyOwner s t in
    let* _ := require (phase_eqb (contractPhase s) Ready) "Contract not ready" in
    let* _ := if currentRoundNum s =? 0 then Ok tt
              else require (negb (rvalue (roundToRandom s (currentRoundNum s)) =? 0)) "Earlier round not completed" in
    let* k := add256 (currentRoundNum s) 1 in
    let s := s <| set_currentRoundNum k |> in
    let input := (INPUT_PREFIX ++ to_dec k)%list in
    let s := s <| set_roundInput (upd (roundInput s) k input) |> in
    let* s := if is_pre then let* h := hash_to_g1 E input in Ok (s <| set_roundHash (upd (roundHash s) k h) |>)
              else Ok s in
    Ok (s, [RandomInitiated k (roundInput s k)]).

  (** submitPartialEval, zkdvrf.sol:188-206, zkdvrf_pre.sol:186-204 *)
  Definition submitPartialEval (s : st) (t : tx) (e : peval) : res (st * list event) :=
    let me := sender t in
    let k := currentRoundNum s in
    let* _ := require (me =? nodeAddress (addrToNode s me)) "Unauthorized call" in
    let* _ := require (rvalue (roundToRandom s k) =? 0) "Round already computed" in
    let* _ := require (lastSubmittedRound s me <? k) "Already submitted for round" in
    let currentX := roundInput s k in
    let pki := pkIndex (addrToNode s me) in
    let* ip := add32 pki 1 in
    let* _ := require (indexPlus e =? ip) "" in
    let* vkStored := at_ (vkList s) pki in
    let* ok := if is_pre then verify_partial_eval_fast E (roundHash s k) (evalue e) (proof_z e) (proof_c e) vkStored
               else verify_partial_eval E currentX (evalue e) (proof_z e) (proof_c e) vkStored in
    let* _ := require ok "Verification of partial eval failed" in
    let s := s <| set_lastSubmittedRound (upd (lastSubmittedRound s) me k) |> in
    let s := s <| set_roundToEval (upd (roundToEval s) k (upd (roundToEval s k) pki e)) |> in
    let* c := add32 (roundSubmissionCount s k) 1 in
    let s := s <| set_roundSubmissionCount (upd (roundSubmissionCount s) k c) |> in
    if c =? threshold s then Ok (s, [RandomThresholdReached k (roundInput s k)])
    else Ok (s, []).

  (** submitRandom, zkdvrf.sol:209-217, zkdvrf_pre.sol:206-215 *)
  Definition submitRandom (s : st) (t : tx) (p : prand) : res (st * list event) :=
    let k := currentRoundNum s in
    let* _ := onlyOwner s t in
    let* _ := require (rvalue (roundToRandom s k) =? 0) "Answer for round already exists" in
    let* _ := if is_pre then require (threshold s <=? roundSubmissionCount s k) "Partial evaluation threshold not reached"
              else Ok tt in
    let* ok := if is_pre then verify_pseudo_rand_fast E (roundHash s k) (rproof p) (gpkVal s)
               else verify_pseudo_rand E (roundInput s k) (rproof p) (gpkVal s) in
    let* _ := require ok "Incorrect random submitted" in
    let value := keccak E (word (fst (rproof p)) ++ word (snd (rproof p)))%list in
    let* _ := require (rvalue p =? value) "Incorrect pseudorandom value" in
    let s := s <| set_roundToRandom (upd (roundToRandom s) k p) |> in
    Ok (s, [RandomReady k (roundInput s k)]).

  (** OpenZeppelin Ownable 5.x: transferOwnership, renounceOwnership *)
  Definition transferOwnership (s : st) (t : tx) (a : Z) : res (st * list event) :=
    let* _ := onlyOwner s t in
    let* _ := require (negb (a =? 0)) "OwnableInvalidOwner" in
    Ok (s <| set_owner a |>, [OwnershipTransferred (owner s) a]).
  Definition renounceOwnership (s : st) (t : tx) : res (st * list event) :=
    let* _ := onlyOwner s t in
    Ok (s <| set_owner 0 |>, [OwnershipTransferred (owner s) 0]).

  (** ABI decoding: argument ranges (an out-of-range word makes the decoder revert; a uint256 cannot be out of range) *)
  Definition tx_ok (t : tx) : bool :=
    is_addr (sender t) && negb (sender t =? 0) && is_u256 (tvalue t) &&
    match what t with
    | AddPermissionedNodes a | TransferOwnership a => is_addr a
    | RegisterNode p => pt_ok256 p
    | SubmitPublicParams pp zk => forallb is_u256 pp && (Z.of_nat (length pp) <? M256) && forallb is_byte zk
    | ComputeVk g => g2_ok256 g
    | SubmitPartialEval e => is_u32 (indexPlus e) && pt_ok256 (evalue e) && is_u256 (proof_z e) && is_u256 (proof_c e)
    | SubmitRandom p => pt_ok256 (rproof p) && is_u256 (rvalue p)
    | _ => true
    end.
  (** registerNode is the only payable function; a call with value to another one reverts *)
  Definition payable (c : call) : bool := match c with RegisterNode _ | ForceEther => true | _ => false end.

  Definition dispatch (s : st) (t : tx) : res (st * list event) :=
    match what t with
    | AddPermissionedNodes a => addPermissionedNodes s t a
    | RegisterNode p => registerNode s t p
    | StartNidkg => startNidkg s t
    | SubmitPublicParams pp zk => submitPublicParams s t pp zk
    | ComputeVk g => computeVk s g
    | InitiateRandom => initiateRandom s t
    | SubmitPartialEval e => submitPartialEval s t e
    | SubmitRandom p => submitRandom s t p
    | TransferOwnership a => transferOwnership s t a
    | RenounceOwnership => renounceOwnership s t
    | ForceEther => Ok (s, [])
    end.

  (** one transaction: argument decoding, value transfer, body *)
  Definition apply (s : st) (t : tx) : res (st * list event) :=
    let* _ := require (tx_ok t) "abi decoding" in
    let* _ := require (payable (what t) || (tvalue t =? 0)) "non-payable function" in
    dispatch (s <| set_balance (balance s + tvalue t) |>) t.

  (** a reverted transaction leaves no trace *)
  Definition exec (s : st) (t : tx) : st := match apply s t with Ok (s', _) => s' | _ => s end.

  Fixpoint run (s : st) (l : list tx) : st :=
    match l with [] => s | t :: r => run (exec s t) r end.

  (** read-only entry points *)
  (** getLatestRandom, zkdvrf.sol:219-229 *)
  Definition getLatestRandom (s : st) : res prand :=
    if negb (rvalue (roundToRandom s (currentRoundNum s)) =? 0) then Ok (roundToRandom s (currentRoundNum s))
    else if currentRoundNum s =? 1 then Err "Answer does not exist for the round yet"
    else let* k := sub256 (currentRoundNum s) 1 in Ok (roundToRandom s k).
  (** getRandomAtRound, zkdvrf.sol:231-237 *)
  Definition getRandomAtRound (s : st) (k : Z) : res prand :=
    if negb (rvalue (roundToRandom s k) =? 0) then Ok (roundToRandom s k)
    else Err "Answer does not exist for the round yet".
  (** getIndexPlus, zkdvrf.sol:261-264 *)
  Definition getIndexPlus (s : st) (a : Z) : res Z := add32 (pkIndex (addrToNode s a)) 1.
  (** getPkList, getPpList, getGpk, getVkList: zkdvrf.sol:266-280 *)
  Definition getPkList (s : st) := pkList s.
  Definition getPpList (s : st) := ppList s.
  Definition getGpk (s : st) := gpkVal s.
  Definition getVkList (s : st) := vkList s.
End Contract.
