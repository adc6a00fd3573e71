(** OpenZeppelin Strings.toString (dependency @openzeppelin/contracts ^5.0.2, used in contracts/zkdvrf.sol:181) and
    ASCII string constants. *)
From Coq Require Import ZArith List String Ascii Bool Lia.
From Verif.Model Require Import Evm.
Import ListNotations.
Open Scope Z_scope.

(** the UTF-8 bytes of an ASCII literal *)
Fixpoint ascii_bytes (s : string) : bytes :=
  match s with
  | EmptyString => []
  | String c r => Z.of_N (N_of_ascii c) :: ascii_bytes r
  end.

(** Strings.toString: writes digits [value % 10] from the right until [value == 0]; at least one digit.
    Fuel 78 covers every uint256 (2^256 < 10^78). *)
Fixpoint digits (fuel : nat) (v : Z) (acc : bytes) : bytes :=
  match fuel with
  | O => acc
  | S f => let acc' := (48 + v mod 10) :: acc in
           if v / 10 =? 0 then acc' else digits f (v / 10) acc'
  end.
Definition to_dec (v : Z) : bytes := digits 78 v [].

Example to_dec_0 : to_dec 0 = ascii_bytes "0". Proof. reflexivity. Qed.
Example to_dec_2024 : to_dec 2024 = ascii_bytes "2024". Proof. reflexivity. Qed.
