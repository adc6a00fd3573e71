(** What a hexadecimal text denotes. *)
From Coq Require Import ZArith List.
From Verif.Base Require Import Fp.
From Verif.Model Require Import Monad Evm.
Import ListNotations.
Open Scope Z_scope.

(** character c is a hexadecimal digit ('0'-'9', 'a'-'f' or 'A'-'F') of value d *)
Definition digit_of (c d : Z) : Prop :=
  (0 <= d <= 9 /\ c = 48 + d) \/ (10 <= d <= 15 /\ c = 97 + (d - 10)) \/ (10 <= d <= 15 /\ c = 65 + (d - 10)).
Definition number (base : Z) (ds : list Z) : Z := fold_left (fun a d => base * a + d) ds 0.
(** the text s is a base-16 numeral of value n, most significant digit first *)
Definition hexadecimal (s : bytes) (n : Z) : Prop := exists ds, Forall2 digit_of s ds /\ n = number 16 ds.
(** a text denoting the number n in at most 32 bytes, with an optional 0x in front *)
Definition denotes (s : bytes) (n : Z) : Prop :=
  exists t, (s = t \/ s = [48; 120] ++ t) /\ Nat.Even (length t) /\ (length t <= 64)%nat /\ hexadecimal t n.

(** [r] fails: no value is returned *)
Definition fails {A} (r : res A) : Prop := forall a, r <> Ok a.
