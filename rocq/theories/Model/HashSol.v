(** contracts/libs/Hash.sol *)
From Coq Require Import ZArith String List Bool.
From Verif.Model Require Import Monad Evm ModExp PairingSol.
Import ListNotations.
Open Scope string_scope.
Open Scope list_scope.
Open Scope Z_scope.

(** Hash.sol:8-20 *)
Definition HQ : Z := 21888242871839275222246405745257275088696311157297823662689037894645226208583.
Definition HQ2 : Z := 10944121435919637611123202872628637544348155578648911831344518947322613104291.
Definition HR : Z := 6350874878119819312338956282401532409788428879151445726012394534686998597021.
Definition HC1 : Z := 2203960485148121921418603742825762020974279258880205651966.
Definition HC2 : Z := 4407920970296243842837207485651524041948558517760411303933.
Definition HC3 : Z := 14592161914559516814830937163504850059130874104865215775126025263096817472389.

(** Hash.sol:24-27 *)
Definition sol_sqrt (a : Z) : Z * bool := let r := ModexpSqrt_run a in (r, mulmod r r HQ =? a).
(** Hash.sol:29-35 *)
Definition sol_sign (t : Z) : bool := t <=? HQ2.

(** Hash.sol:79-90, 94-107, 113-125: the candidate x and its ordinate *)
Definition try_x (t_sign : bool) (x : Z) : res (option pt) :=
  let a := mulmod x x HQ in
  let a := mulmod a x HQ in
  let a := addmod a 3 HQ in
  let '(y, exists_) := sol_sqrt a in
  if exists_ then
    let* y := (if negb t_sign then sub256 HQ y else Ok y) in Ok (Some (x, y))
  else Ok None.

(** Hash.sol:63-127 *)
Definition mapToG1 (t : Z) : res pt :=
  let* _ := require (t <? HQ) "mapToG1 failed: invalid field element" in
  let t_sign := sol_sign t in
  let t_square := mulmod t t HQ in
  let t4 := mulmod t_square t_square HQ in
  let r := addmod t_square 4 HQ in
  let r_square := mulmod r r HQ in
  let s := mulmod r r_square HQ in
  let alpha := mulmod t_square r HQ in
  let alpha := ModexpInverse_run alpha in
  let x1 := mulmod t4 alpha HQ in
  let x1 := mulmod HC2 x1 HQ in
  let* x1 := sub256 HQ x1 in
  let x1 := addmod HC1 x1 HQ in
  let* o := try_x t_sign x1 in
  match o with
  | Some p => Ok p
  | None =>
    let x2 := addmod x1 1 HQ in
    let* x2 := sub256 HQ x2 in
    let* o := try_x t_sign x2 in
    match o with
    | Some p => Ok p
    | None =>
      let x3 := mulmod s alpha HQ in
      let x3 := mulmod x3 HC3 HQ in
      let* x3 := sub256 HQ x3 in
      let x3 := addmod x3 1 HQ in
      let* o := try_x t_sign x3 in
      match o with Some p => Ok p | None => Err "map to point failed" end
    end
  end.

Section HashSol.
  Variable keccak : bytes -> Z.
  (** Hash.sol:40-60; a uint in abi.encodePacked is its 32-byte word, a bytes32 likewise *)
  Definition hashToField (domain message : bytes) : Z * Z :=
    let domain_len := Z.of_nat (length domain) in
    let msg_len := Z.of_nat (length message) in
    let hash0 := keccak ([0; 1] ++ word domain_len ++ domain ++ word msg_len ++ message) in
    let hash1 := keccak ([2; 3] ++ word hash0) in
    let hash2 := keccak ([4; 5] ++ word hash1) in
    let hash3 := keccak ([6; 7] ++ word hash2) in
    (addmod (mulmod hash0 HR HQ) hash1 HQ, addmod (mulmod hash2 HR HQ) hash3 HQ).

  (** Hash.sol:130-136 *)
  Definition sol_hashToG1 (domain message : bytes) : res pt :=
    let f := hashToField domain message in
    let* g := mapToG1 (fst f) in
    let* h := mapToG1 (snd f) in
    addition g h.
End HashSol.
