(** verifyProof of contracts/Halo2Verifier.sol as zkdvrf.sol calls it: the ABI encoding of the arguments, the run of the assembly
    block, and the decoding of what it returns. *)
From Coq Require Import ZArith List String Bool.
From Verif.Base Require Import Curves Group.
From Verif.Model Require Import Monad Evm PairingSol Yul Halo2VerifierSol.
Import ListNotations.
Open Scope Z_scope.

(** ABI encoding of [bytes]: the content in words of 32 bytes, the last one padded with zeros *)
Fixpoint words_from (n : nat) (b : bytes) : list Z :=
  match n with O => [] | S n => of_be (firstn 32 (b ++ repeat 0 32)) :: words_from n (skipn 32 b) end.
Definition word_count (b : bytes) : nat := Nat.div (List.length b + 31) 32.
Definition words_of (b : bytes) : list Z := words_from (word_count b) b.
(** abi.encode(vk, proof, instances): three words of head (the address and two offsets), then the two arrays with their lengths;
    this is what the compiler emits for the call zkdvrf.sol:148 (zkdvrf_pre.sol:148), the selector not counted *)
Definition abi_args (vk : Z) (proof : bytes) (instances : list Z) : list Z :=
  [vk; 0x60; 0x80 + 32 * Z.of_nat (word_count proof)] ++
  [Z.of_nat (List.length proof)] ++ words_of proof ++ [Z.of_nat (List.length instances)] ++ instances.

(** memory when the block is entered: the free memory pointer, contracts/Halo2Verifier.sol:67-72 (nothing the compiler put there is
    read before it is written) *)
Definition initial_memory : mem := upd (fun _ => 0) 0x40 0x80.

(** no loop of the block whose length does not depend on the key runs more often than this (Model/Yul.v) *)
Definition LIMIT : nat := 200.

Section Call.
  Variable keccak : bytes -> Z.
  Variable in_g2 : G2c -> bool.
  Variable pairing : list (G1 * G2c) -> bool.
  Variable code : Z -> list Z.       (** the code of each account, in words *)
  (** what the caller makes of the outcome: one word decoded as a bool (the call fails, without a message, if it is neither 0 nor 1 or
      if the callee reverted).  [Panic] marks what the model of the EVM leaves undefined (Model/Yul.v); it is proved never to happen. *)
  Definition decode_result {calldata : list Z} (o : outcome (EVM keccak in_g2 pairing calldata code)) : res bool :=
    match o with
    | Ret m a len => if len =? 0x20 then if m a =? 1 then Ok true else if m a =? 0 then Ok false else Err "" else Panic "return"
    | Rev => Err ""
    | Cont _ _ => Ok false
    | Stuck => Panic "stuck"
    end.
  (** A bound for the loops of the block that suffices for any key: those over the instances (:120-133, :144-157, :233-243, :385-392, :399-406, :419-431)
      run as often as the second word of the key says, plus 7, the one that raises x to the number of rows (:370-376) as often as the
      third word says.  (A call with a key that asks for too much runs out of gas; gas is not modelled.) *)
  Definition limit (vk : Z) : nat := LIMIT + Z.to_nat (nth 1 (code vk) 0) + Z.to_nat (nth 2 (code vk) 0).
  (** contracts/Halo2Verifier.sol:67-72 and the assembly block :73-1534 *)
  Definition verifyProof (vk : Z) (proof : bytes) (instances : list Z) : res bool :=
    decode_result (run (EVM keccak in_g2 pairing (abi_args vk proof instances) code) (limit vk) functions [("vk"%string, vk)] initial_memory main).
End Call.
