(** Windowed fixed-base multiplication: src/ecc_chip/point_base_chip/fix_mul.rs (bn256 G1) and
    src/ecc_chip/point2_base_chip/fix_mul.rs (bn256 G2).  The two files are the same program over different point
    chips; it is modelled once, over the operations of the point chip (the lines cited are those of the first file,
    then those of the second). *)
From Coq Require Import ZArith List Bool.
From Verif.Base Require Import Fld Group.
From Verif.Model Require Import Circ MainGate.
Import ListNotations.

Open Scope nat_scope.

Section FixedBase.
  (** the curve group *)
  Variable G : Grp.
  (** native field of the circuit *)
  Variable F : Fld.
  (** assigned points and the point chip's operations *)
  Variable PT : Type.
  Variable assign_point_constant : G -> circ PT.
  Variable select_pt : F -> PT -> PT -> circ PT.
  Variable add_incomplete : PT -> PT -> circ PT.
  Variable add_checked : PT -> PT -> circ PT.
  (** C::Scalar::NUM_BITS *)
  Variable num_bits : nat.

  (** fix_mul.rs:17-22, 162-171 / 23-28, 167-176 *)
  Definition number_of_windows (w : nat) : nat := (num_bits + w - 1) / w.
  Definition last_bits (w : nat) : nat := let l := num_bits mod w in if Nat.eqb l 0 then w else l.

  (** p = p + p, w times (fix_mul.rs:46-48 / 51-53) *)
  Fixpoint dbl_times (n : nat) (p : G) : G := match n with O => p | S n' => dbl_times n' (p ⊕ p)%grp end.
  (** fix_mul.rs:26-33 / 32-39: T[0][k] = (k+2) P; the scalar k+2 is far below the group order *)
  Definition first_row (w : nat) (P : G) : list G := map (fun k => zmul (Z.of_nat (k + 2)) P) (seq 0 (2 ^ w)).
  (** fix_mul.rs:35-52 / 41-57: row i from row i-1, the last row shorter *)
  Fixpoint rows (i n : nat) (w : nat) (prev : list G) (left : nat) : list (list G) :=
    match left with
    | O => []
    | S left' =>
        let len := if Nat.eqb i (n - 1) then 2 ^ last_bits w else 2 ^ w in
        let t := map (dbl_times w) (firstn len prev) in
        t :: rows (S i) n w t left'
    end.
  Definition base_table (w : nat) (P : G) : list (list G) :=
    let n := number_of_windows w in
    let t := first_row w P in t :: rows 1 n w t (n - 1).
  (** fix_mul.rs:60-65 / 65-70: correction = -(sum of the first entries + aux) *)
  Definition correction (table : list (list G)) (aux : G) : G :=
    (⊖ (fold_left (fun acc t => acc ⊕ nth 0 t g0) (tl table) (nth 0 (nth 0 table []) g0) ⊕ aux))%grp.
  Fixpoint upd {A} (i : nat) (f : A -> A) (l : list A) : list A :=
    match l, i with
    | [], _ => []
    | a :: tl, O => f a :: tl
    | a :: tl, S i' => a :: upd i' f tl
    end.
  (** fix_mul.rs:13-78 / 19-87 *)
  Definition prepare_fixed_point_table (w : nat) (P aux : G) : list (list G) :=
    let n := number_of_windows w in
    let table := base_table w P in
    let c := correction table aux in
    upd (n - 1) (map (fun p => p ⊕ c)%grp) (upd (n - 2) (map (fun p => p ⊕ aux)%grp) table).

  (** fix_mul.rs:80-109 / 89-117; window_size > 1 is asserted in prepare_fixed_point_table *)
  Definition assign_fixed_point (w : nat) (P aux : G) : circ (list (list PT)) :=
    if Nat.ltb 1 w then cmap (cmap assign_point_constant) (prepare_fixed_point_table w P aux) else Abort.

  (** fix_mul.rs:111-131 / 119-139: slices of w bits, the remainder last *)
  Definition window (bits : list F) (w : nat) : list (list F) :=
    let last := length bits mod w in
    let num := length bits / w in
    map (fun i => firstn w (skipn (i * w) bits)) (seq 0 num)
      ++ (if Nat.eqb last 0 then [] else [skipn (length bits - last) bits]).

  (** fix_mul.rs:133-155 / 141-160: pairwise reduction in place, the least significant selector first *)
  Definition reduce_once (sel : F) (n : nat) (reducer : list PT) : circ (list PT) :=
    cfold (fun red j => match nth_error red (2 * j + 1), nth_error red (2 * j) with
                        | Some a, Some c => let! x := select_pt sel a c in Ret (upd j (fun _ => x) red)
                        | _, _ => Abort
                        end) (seq 0 n) reducer.
  Fixpoint reduce_all (sels : list F) (reducer : list PT) : circ (list PT) :=
    match sels with
    | [] => Ret reducer
    | s :: tl => let! r := reduce_once s (2 ^ length tl) reducer in reduce_all tl r
    end.
  Definition select_multi (sels : list F) (table : list PT) : circ PT :=
    if Nat.eqb (length table) (2 ^ length sels) then
      let! r := reduce_all sels table in
      match r with x :: _ => Ret x | [] => Abort end
    else Abort.

  (** fix_mul.rs:157-198 / 162-203; [hb] = the bits of the scalar's witness value *)
  Definition fixed_mul (w : nat) (table : list (list PT)) (scalar : F) (hb : list F) : circ PT :=
    let n := number_of_windows w in
    if Nat.eqb n (length table) && Nat.eqb (2 ^ last_bits w) (length (nth (n - 1) table [])) then
      let! decomposed := to_bits scalar hb in
      let windowed := window decomposed w in
      let! acc := select_multi (nth 0 windowed []) (nth 0 table []) in
      let! acc := cfold (fun acc i => let! q := select_multi (nth i windowed []) (nth i table []) in add_incomplete acc q)
                        (seq 1 (n - 2 - 1)) acc in
      cfold (fun acc i => let! q := select_multi (nth i windowed []) (nth i table []) in add_checked acc q)
            (seq (n - 2) 2) acc
    else Abort.
End FixedBase.
