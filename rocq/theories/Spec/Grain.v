(** The parameter generator of the Poseidon paper (Grassi et al., "Poseidon: A New Hash Function for Zero-Knowledge Proof
    Systems", appendix F; reference script generate_params_poseidon.sage), written from the paper: an 80-bit Grain LFSR in
    self-shrinking mode, rejection sampling for the round constants, a Cauchy matrix for the linear layer. *)
From Coq Require Import ZArith List Bool.
Import ListNotations.
Open Scope Z_scope.

(** a number as [n] bits, most significant first *)
Definition msb (n : nat) (z : Z) : list bool := map (fun i => Z.testbit z (Z.of_nat (n - 1 - i))) (seq 0 n).
(** the initial state: field (GF(p): 1), S-box (x^alpha: 0), size of the field in bits, width, full and partial rounds, ones *)
Definition grain_init (n t rf rp : Z) : list bool :=
  msb 2 1 ++ msb 4 0 ++ msb 12 n ++ msb 12 t ++ msb 10 rf ++ msb 10 rp ++ repeat true 30.
(** b_(i+80) = b_(i+62) + b_(i+51) + b_(i+38) + b_(i+23) + b_(i+13) + b_i *)
Definition bit_at (s : list bool) (i : nat) : bool := nth i s false.
Definition feedback (s : list bool) : bool :=
  xorb (bit_at s 62) (xorb (bit_at s 51) (xorb (bit_at s 38) (xorb (bit_at s 23) (xorb (bit_at s 13) (bit_at s 0))))).
(** the next [k] bits *)
Fixpoint lfsr (k : nat) (s : list bool) : list bool :=
  match k with O => [] | S k' => let b := feedback s in b :: lfsr k' (tl s ++ [b]) end.
(** of every two bits the second is kept if the first is 1 *)
Fixpoint shrink (l : list bool) : list bool :=
  match l with b :: b' :: r => if b then b' :: shrink r else shrink r | _ => [] end.
(** the first 160 bits are discarded *)
Definition grain (k : nat) (n t rf rp : Z) : list bool := shrink (skipn 160 (lfsr k (grain_init n t rf rp))).

(** a number of [n] bits, most significant first *)
Fixpoint number (n : nat) (acc : Z) (l : list bool) : option (Z * list bool) :=
  match n with
  | O => Some (acc, l)
  | S n' => match l with [] => None | b :: r => number n' (2 * acc + (if b then 1 else 0)) r end
  end.
(** round constants: numbers of [n] bits not below [p] are skipped; [next_constant p n l c l'] *)
Inductive next_constant (p : Z) (n : nat) : list bool -> Z -> list bool -> Prop :=
| Take l c l' : number n 0 l = Some (c, l') -> c < p -> next_constant p n l c l'
| Skip l c l' c' l'' : number n 0 l = Some (c, l') -> p <= c -> next_constant p n l' c' l'' -> next_constant p n l c' l''.
Inductive next_constants (p : Z) (n : nat) : list bool -> list Z -> list bool -> Prop :=
| NoMore l : next_constants p n l [] l
| OneMore l c l' cs l'' : next_constant p n l c l' -> next_constants p n l' cs l'' -> next_constants p n l (c :: cs) l''.
(** numbers without rejection, reduced, for the matrix *)
Inductive next_numbers (p : Z) (n : nat) : list bool -> list Z -> list bool -> Prop :=
| NoMoreN l : next_numbers p n l [] l
| OneMoreN l c l' cs l'' : number n 0 l = Some (c, l') -> next_numbers p n l' cs l'' -> next_numbers p n l (c mod p :: cs) l''.
(** the Cauchy matrix of x_0 .. x_(t-1), y_0 .. y_(t-1) *)
Definition cauchy (p : Z) (xs ys : list Z) (m : list (list Z)) : Prop :=
  length m = length xs /\
  forall i row x, nth_error m i = Some row -> nth_error xs i = Some x ->
    length row = length ys /\ forall j e y, nth_error row j = Some e -> nth_error ys j = Some y -> 0 <= e < p /\ (e * (x + y)) mod p = 1.
(** the parameters of a field of order [p] ([n] bits), width [t], [rf] and [rp] rounds: the constants and the matrix *)
Definition poseidon_params (p : Z) (n : nat) (t : nat) (rf rp : nat) (rcs : list Z) (m : list (list Z)) : Prop :=
  length rcs = (t * (rf + rp))%nat /\
  exists k l xs ys l',
    next_constants p n (grain k (Z.of_nat n) (Z.of_nat t) (Z.of_nat rf) (Z.of_nat rp)) rcs l /\
    next_numbers p n l (xs ++ ys) l' /\ NoDup (xs ++ ys) /\ length xs = t /\ length ys = t /\ cauchy p xs ys m.
