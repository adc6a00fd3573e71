(** contracts/libs/ModExp.sol, transcribed by tools/gen_modexp.py: the assembly of each [run] is a list of
    instructions  tD := mulmod(tA, tB, n), each given as (D, A, B).  Undeclared variables are never read (checked by the
    generator order: every [let] precedes its use). *)
From Coq Require Import ZArith List.
From Verif.Model Require Import Evm.
Import ListNotations.

Definition instr := (nat * nat * nat)%type.
Fixpoint set_nth {A} (n : nat) (a : A) (l : list A) : list A :=
  match n, l with O, _ :: l' => a :: l' | S n', b :: l' => b :: set_nth n' a l' | _, [] => [] end.
Definition step_with {A} (mul : A -> A -> A) (d : A) (regs : list A) (i : instr) : list A :=
  let '(t, a, b) := i in set_nth t (mul (nth a regs d) (nth b regs d)) regs.
(** run the program with the argument in register [inp]; the result is t0 *)
Definition run_with {A} (mul : A -> A -> A) (d : A) (prog : list instr) (inp : nat) (x : A) : A :=
  nth 0 (fold_left (step_with mul d) prog (set_nth inp x (repeat d 10))) d.

(** the constant n of both functions *)
Definition modexp_n : Z := 0x30644e72e131a029b85045b68181585d97816a916871ca8d3c208c16d87cfd47.

(** ModExp.sol:15-328, library ModexpInverse *)
Definition ModexpInverse_prog : list instr :=
 [(0,2,2);(5,0,2);(1,5,0);(3,5,5);(8,1,0);(4,3,5);(6,3,1);(0,3,3);(7,8,3);(3,4,3);(0,0,0);(0,0,0);
  (0,0,0);(0,0,0);(0,0,0);(0,0,5);(0,0,0);(0,0,0);(0,0,0);(0,0,2);(0,0,0);(0,0,0);(0,0,0);(0,0,0);
  (0,0,2);(0,0,0);(0,0,0);(0,0,0);(0,0,0);(0,0,0);(0,0,8);(0,0,0);(0,0,0);(0,0,0);(0,0,0);(0,0,0);
  (0,0,8);(0,0,0);(0,0,0);(0,0,0);(0,0,2);(0,0,0);(0,0,0);(0,0,0);(0,0,0);(0,0,8);(0,0,0);(0,0,0);
  (0,0,0);(0,0,0);(0,0,0);(0,0,2);(0,0,0);(0,0,0);(0,0,0);(0,0,0);(0,0,5);(0,0,0);(0,0,0);(0,0,0);
  (0,0,0);(0,0,0);(0,0,0);(0,0,0);(0,0,7);(0,0,0);(0,0,0);(0,0,0);(0,0,0);(0,0,0);(0,0,0);(0,0,0);
  (0,0,0);(0,0,0);(0,0,0);(0,0,1);(0,0,0);(0,0,0);(0,0,0);(0,0,0);(0,0,5);(0,0,0);(0,0,0);(0,0,0);
  (0,0,0);(0,0,8);(0,0,0);(0,0,0);(0,0,0);(0,0,0);(0,0,0);(0,0,0);(0,0,0);(0,0,1);(0,0,0);(0,0,0);
  (0,0,0);(0,0,0);(0,0,0);(0,0,0);(0,0,2);(0,0,0);(0,0,0);(0,0,0);(0,0,0);(0,0,0);(0,0,0);(0,0,0);
  (0,0,6);(0,0,0);(0,0,0);(0,0,0);(0,0,0);(0,0,0);(0,0,7);(0,0,0);(0,0,0);(0,0,0);(0,0,1);(0,0,0);
  (0,0,0);(0,0,0);(0,0,0);(0,0,0);(0,0,0);(0,0,0);(0,0,0);(0,0,5);(0,0,0);(0,0,0);(0,0,0);(0,0,0);
  (0,0,0);(0,0,0);(0,0,0);(0,0,0);(0,0,0);(0,0,1);(0,0,0);(0,0,0);(0,0,0);(0,0,5);(0,0,0);(0,0,0);
  (0,0,0);(0,0,0);(0,0,0);(0,0,0);(0,0,0);(0,0,0);(0,0,6);(0,0,0);(0,0,0);(0,0,0);(0,0,0);(0,0,6);
  (0,0,0);(0,0,0);(0,0,0);(0,0,0);(0,0,0);(0,0,1);(0,0,0);(0,0,0);(0,0,0);(0,0,8);(0,0,0);(0,0,0);
  (0,0,0);(0,0,0);(0,0,0);(0,0,0);(0,0,0);(0,0,0);(0,0,0);(0,0,0);(0,0,6);(0,0,0);(0,0,0);(0,0,0);
  (0,0,0);(0,0,1);(0,0,0);(0,0,0);(0,0,0);(0,0,0);(0,0,0);(0,0,4);(0,0,0);(0,0,0);(0,0,0);(0,0,0);
  (0,0,0);(0,0,0);(0,0,0);(0,0,6);(0,0,0);(0,0,0);(0,0,2);(0,0,0);(0,0,0);(0,0,0);(0,0,0);(0,0,0);
  (0,0,0);(0,0,0);(0,0,8);(0,0,0);(0,0,0);(0,0,0);(0,0,0);(0,0,0);(0,0,0);(0,0,8);(0,0,0);(0,0,0);
  (0,0,0);(0,0,0);(0,0,0);(0,0,1);(0,0,0);(0,0,0);(0,0,2);(0,0,0);(0,0,0);(0,0,0);(0,0,0);(0,0,0);
  (0,0,0);(0,0,0);(0,0,7);(0,0,0);(0,0,0);(0,0,0);(0,0,0);(0,0,0);(0,0,0);(0,0,3);(0,0,0);(0,0,0);
  (0,0,0);(0,0,0);(0,0,0);(0,0,2);(0,0,0);(0,0,0);(0,0,0);(0,0,0);(0,0,0);(0,0,0);(0,0,2);(0,0,0);
  (0,0,0);(0,0,0);(0,0,0);(0,0,0);(0,0,5);(0,0,0);(0,0,0);(0,0,0);(0,0,0);(0,0,0);(0,0,0);(0,0,0);
  (0,0,0);(0,0,0);(0,0,6);(0,0,0);(0,0,0);(0,0,0);(0,0,5);(0,0,0);(0,0,0);(0,0,0);(0,0,5);(0,0,0);
  (0,0,0);(0,0,0);(0,0,0);(0,0,0);(0,0,0);(0,0,0);(0,0,0);(0,0,3);(0,0,0);(0,0,0);(0,0,0);(0,0,0);
  (0,0,4);(0,0,0);(0,0,0);(0,0,0);(0,0,0);(0,0,3);(0,0,0);(0,0,0);(0,0,0);(0,0,1);(0,0,0);(0,0,0);
  (0,0,2);(0,0,0);(0,0,0);(0,0,0);(0,0,0);(0,0,0);(0,0,0);(0,0,1)]%nat.
Definition ModexpInverse_run (x : Z) : Z := run_with (fun a b => mulmod a b modexp_n) 0%Z ModexpInverse_prog 2 x.

(** ModExp.sol:340-651, library ModexpSqrt *)
Definition ModexpSqrt_prog : list instr :=
 [(0,6,6);(4,0,6);(2,4,0);(3,4,4);(8,2,0);(1,3,4);(5,3,2);(0,3,3);(7,8,3);(3,1,3);(0,0,0);(0,0,0);
  (0,0,0);(0,0,0);(0,0,0);(0,0,4);(0,0,0);(0,0,0);(0,0,0);(0,0,6);(0,0,0);(0,0,0);(0,0,0);(0,0,0);
  (0,0,6);(0,0,0);(0,0,0);(0,0,0);(0,0,0);(0,0,0);(0,0,8);(0,0,0);(0,0,0);(0,0,0);(0,0,0);(0,0,0);
  (0,0,8);(0,0,0);(0,0,0);(0,0,0);(0,0,6);(0,0,0);(0,0,0);(0,0,0);(0,0,0);(0,0,8);(0,0,0);(0,0,0);
  (0,0,0);(0,0,0);(0,0,0);(0,0,6);(0,0,0);(0,0,0);(0,0,0);(0,0,0);(0,0,4);(0,0,0);(0,0,0);(0,0,0);
  (0,0,0);(0,0,0);(0,0,0);(0,0,0);(0,0,7);(0,0,0);(0,0,0);(0,0,0);(0,0,0);(0,0,0);(0,0,0);(0,0,0);
  (0,0,0);(0,0,0);(0,0,0);(0,0,2);(0,0,0);(0,0,0);(0,0,0);(0,0,0);(0,0,4);(0,0,0);(0,0,0);(0,0,0);
  (0,0,0);(0,0,8);(0,0,0);(0,0,0);(0,0,0);(0,0,0);(0,0,0);(0,0,0);(0,0,0);(0,0,2);(0,0,0);(0,0,0);
  (0,0,0);(0,0,0);(0,0,0);(0,0,0);(0,0,6);(0,0,0);(0,0,0);(0,0,0);(0,0,0);(0,0,0);(0,0,0);(0,0,0);
  (0,0,5);(0,0,0);(0,0,0);(0,0,0);(0,0,0);(0,0,0);(0,0,7);(0,0,0);(0,0,0);(0,0,0);(0,0,2);(0,0,0);
  (0,0,0);(0,0,0);(0,0,0);(0,0,0);(0,0,0);(0,0,0);(0,0,0);(0,0,4);(0,0,0);(0,0,0);(0,0,0);(0,0,0);
  (0,0,0);(0,0,0);(0,0,0);(0,0,0);(0,0,0);(0,0,2);(0,0,0);(0,0,0);(0,0,0);(0,0,4);(0,0,0);(0,0,0);
  (0,0,0);(0,0,0);(0,0,0);(0,0,0);(0,0,0);(0,0,0);(0,0,5);(0,0,0);(0,0,0);(0,0,0);(0,0,0);(0,0,5);
  (0,0,0);(0,0,0);(0,0,0);(0,0,0);(0,0,0);(0,0,2);(0,0,0);(0,0,0);(0,0,0);(0,0,8);(0,0,0);(0,0,0);
  (0,0,0);(0,0,0);(0,0,0);(0,0,0);(0,0,0);(0,0,0);(0,0,0);(0,0,0);(0,0,5);(0,0,0);(0,0,0);(0,0,0);
  (0,0,0);(0,0,2);(0,0,0);(0,0,0);(0,0,0);(0,0,0);(0,0,0);(0,0,1);(0,0,0);(0,0,0);(0,0,0);(0,0,0);
  (0,0,0);(0,0,0);(0,0,0);(0,0,5);(0,0,0);(0,0,0);(0,0,6);(0,0,0);(0,0,0);(0,0,0);(0,0,0);(0,0,0);
  (0,0,0);(0,0,0);(0,0,8);(0,0,0);(0,0,0);(0,0,0);(0,0,0);(0,0,0);(0,0,0);(0,0,8);(0,0,0);(0,0,0);
  (0,0,0);(0,0,0);(0,0,0);(0,0,2);(0,0,0);(0,0,0);(0,0,6);(0,0,0);(0,0,0);(0,0,0);(0,0,0);(0,0,0);
  (0,0,0);(0,0,0);(0,0,7);(0,0,0);(0,0,0);(0,0,0);(0,0,0);(0,0,0);(0,0,0);(0,0,3);(0,0,0);(0,0,0);
  (0,0,0);(0,0,0);(0,0,0);(0,0,6);(0,0,0);(0,0,0);(0,0,0);(0,0,0);(0,0,0);(0,0,0);(0,0,6);(0,0,0);
  (0,0,0);(0,0,0);(0,0,0);(0,0,0);(0,0,4);(0,0,0);(0,0,0);(0,0,0);(0,0,0);(0,0,0);(0,0,0);(0,0,0);
  (0,0,0);(0,0,0);(0,0,5);(0,0,0);(0,0,0);(0,0,0);(0,0,4);(0,0,0);(0,0,0);(0,0,0);(0,0,4);(0,0,0);
  (0,0,0);(0,0,0);(0,0,0);(0,0,0);(0,0,0);(0,0,0);(0,0,0);(0,0,3);(0,0,0);(0,0,0);(0,0,0);(0,0,0);
  (0,0,1);(0,0,0);(0,0,0);(0,0,0);(0,0,0);(0,0,3);(0,0,0);(0,0,0);(0,0,0);(0,0,2);(0,0,0);(0,0,0);
  (0,0,0);(0,0,0);(0,0,0);(0,0,1);(0,0,0)]%nat.
Definition ModexpSqrt_run (x : Z) : Z := run_with (fun a b => mulmod a b modexp_n) 0%Z ModexpSqrt_prog 6 x.
