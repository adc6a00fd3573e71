(** EVM / Solidity 0.8 integers and byte strings.  uint256, uint32, address, bytes32 values are integers; [bytes] is a
    list of integers in 0..255. *)
From Coq Require Import ZArith List String Bool Lia.
From Verif.Model Require Import Monad.
Import ListNotations.
Open Scope Z_scope.

Definition M256 : Z := 2 ^ 256.
Definition M32 : Z := 2 ^ 32.
Definition M160 : Z := 2 ^ 160.
Definition is_u256 (x : Z) : bool := (0 <=? x) && (x <? M256).
Definition is_u32 (x : Z) : bool := (0 <=? x) && (x <? M32).
Definition is_addr (x : Z) : bool := (0 <=? x) && (x <? M160).
Definition is_byte (x : Z) : bool := (0 <=? x) && (x <? 256).
Definition bytes := list Z.

(** Solidity >= 0.8 checked arithmetic: panic 0x11 on overflow / underflow. *)
Definition chk (m x : Z) : res Z := if (0 <=? x) && (x <? m) then Ok x else Panic "arithmetic overflow or underflow".
Definition add32 (a b : Z) := chk M32 (a + b).
Definition mul32 (a b : Z) := chk M32 (a * b).
Definition add256 (a b : Z) := chk M256 (a + b).
Definition sub256 (a b : Z) := chk M256 (a - b).
Definition mul256 (a b : Z) := chk M256 (a * b).

(** EVM mulmod / addmod (no intermediate overflow). *)
Definition mulmod (a b n : Z) : Z := (a * b) mod n.
Definition addmod (a b n : Z) : Z := (a + b) mod n.

(** big-endian fixed-width encoding: the bytes of a uint256 in [abi.encodePacked], and [to_be_bytes] in Rust *)
Fixpoint be_bytes (n : nat) (x : Z) : bytes :=
  match n with
  | O => []
  | S n' => be_bytes n' (x / 256) ++ [x mod 256]
  end.
Definition of_be (b : bytes) : Z := fold_left (fun a c => a * 256 + c) b 0.
Definition word (x : Z) : bytes := be_bytes 32 x.

Definition pt := (Z * Z)%type.
(** Pairing.G2Point: x[0],x[1],y[0],y[1]  (contracts/libs/Pairing.sol:14-17) *)
Record g2pt := G2pt { gx0 : Z; gx1 : Z; gy0 : Z; gy1 : Z }.
Definition g2zero : g2pt := G2pt 0 0 0 0.
Definition pt_ok256 (p : pt) : bool := is_u256 (fst p) && is_u256 (snd p).
Definition g2_ok256 (p : g2pt) : bool := is_u256 (gx0 p) && is_u256 (gx1 p) && is_u256 (gy0 p) && is_u256 (gy1 p).

(** Solidity mappings: total functions, all entries zero initially *)
Definition upd {A} (f : Z -> A) (k : Z) (v : A) : Z -> A := fun k' => if k' =? k then v else f k'.
Lemma upd_same {A} (f : Z -> A) k v : upd f k v k = v.
Proof. unfold upd. rewrite Z.eqb_refl. reflexivity. Qed.
Lemma upd_other {A} (f : Z -> A) k v k' : k' <> k -> upd f k v k' = f k'.
Proof. unfold upd. intros H. destruct (Z.eqb_spec k' k); [contradiction|reflexivity]. Qed.
