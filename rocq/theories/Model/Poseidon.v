(** src/poseidon.rs and src/poseidon/bn256.rs: the Poseidon instance [P128Pow5T3Bn] (width 3, rate 2, 8 full and 56
    partial rounds, x^5), and the two consumers of its parameters in halo2_gadgets v2023_04_20 (a dependency, modelled from
    its documentation and source): the out-of-circuit hash [primitives::Hash<_, _, ConstantLength<2>, 3, 2>] called at
    lib.rs:82-83 and lib.rs:267-271, and the in-circuit [Pow5Chip] configured at dkg_circuit.rs:55-76 and called at
    dkg_circuit.rs:369-380. *)
From Coq Require Import ZArith NArith List.
From Verif.Base Require Import Fld Fp Curves.
From Verif.Model Require Import Circ MainGate PoseidonConsts.
Import ListNotations.

(** an array [F; 3] *)
Definition arr3 (X : Type) : Type := X * X * X.
Definition at3 {X} (a : arr3 X) (i : nat) : X :=
  let '(x, y, z) := a in match i with O => x | S O => y | _ => z end.
Definition map3 {X Y} (f : X -> Y) (a : arr3 X) : arr3 Y := let '(x, y, z) := a in (f x, f y, f z).
Definition tab3 {X} (f : nat -> X) : arr3 X := (f 0%nat, f 1%nat, f 2%nat).

(** a Poseidon specification as [Spec::constants] returns it (poseidon.rs:30-32), with the numbers of rounds *)
Record pspec (K : Fld) := mkSpec {
  full_rounds : nat;
  partial_rounds : nat;
  rcs : list (arr3 K);
  m_reg : arr3 (arr3 K);
  m_inv : arr3 (arr3 K) }.
Arguments mkSpec {K}. Arguments full_rounds {K}. Arguments partial_rounds {K}. Arguments rcs {K}. Arguments m_reg {K}. Arguments m_inv {K}.

Section Poseidon.
  Variable K : Fld.
  Open Scope fld_scope.

  (** poseidon.rs:22-24: [val.pow_vartime([5])] *)
  Definition sbox (v : K) : K := fpow v 5%N.

  (** bn256.rs:26-34: [det_items] *)
  Definition det_items (m : arr3 (arr3 K)) (idx : nat) : K :=
    let a i := at3 (at3 m ((idx + i) mod 3)%nat) i in
    let b i := at3 (at3 m ((idx + 3 - i) mod 3)%nat) i in
    (a 0%nat * a 1%nat * a 2%nat) - (b 0%nat * b 1%nat * b 2%nat).
  (** bn256.rs:36-41, before [invert()] *)
  Definition determinant (m : arr3 (arr3 K)) : K := det_items m 0 + det_items m 1 + det_items m 2.
  (** bn256.rs:43-46: [ci] *)
  Definition ci (m : arr3 (arr3 K)) (i j : nat) : K :=
    at3 (at3 m ((i + 1) mod 3)%nat) ((j + 1) mod 3)%nat * at3 (at3 m ((i + 2) mod 3)%nat) ((j + 2) mod 3)%nat
    - at3 (at3 m ((i + 1) mod 3)%nat) ((j + 2) mod 3)%nat * at3 (at3 m ((i + 2) mod 3)%nat) ((j + 1) mod 3)%nat.
  (** bn256.rs:23-53: MDS_INV; [None] is the panic of [invert().unwrap()] on a zero determinant *)
  Definition mds_inv (m : arr3 (arr3 K)) : option (arr3 (arr3 K)) :=
    if feqb (determinant m) 0 then None
    else let det := finv (determinant m) in
         Some ((ci m 0 0 * det, ci m 1 0 * det, ci m 2 0 * det),
               (ci m 0 1 * det, ci m 1 1 * det, ci m 2 1 * det),
               (ci m 0 2 * det, ci m 1 2 * det, ci m 2 2 * det)).

  (** ** out of the circuit: halo2_gadgets primitives.rs [permute] *)
  Definition apply_mds (m : arr3 (arr3 K)) (s : arr3 K) : arr3 K :=
    tab3 (fun i => 0 + at3 (at3 m i) 0 * at3 s 0 + at3 (at3 m i) 1 * at3 s 1 + at3 (at3 m i) 2 * at3 s 2).
  Definition full_round (m : arr3 (arr3 K)) (s rc : arr3 K) : arr3 K :=
    apply_mds m (tab3 (fun i => sbox (at3 s i + at3 rc i))).
  Definition part_round (m : arr3 (arr3 K)) (s rc : arr3 K) : arr3 K :=
    let t := tab3 (fun i => at3 s i + at3 rc i) in
    apply_mds m (sbox (at3 t 0), at3 t 1, at3 t 2).
  (** the chain of rounds zipped with the round constants: the iterator ends with the shorter of the two *)
  Definition rounds (sp : pspec K) : list (arr3 K -> arr3 K -> arr3 K) :=
    repeat (full_round (m_reg sp)) (full_rounds sp / 2) ++
    repeat (part_round (m_reg sp)) (partial_rounds sp) ++
    repeat (full_round (m_reg sp)) (full_rounds sp / 2).
  Definition permute (sp : pspec K) (s : arr3 K) : arr3 K :=
    fold_left (fun s p => fst p s (snd p)) (combine (rounds sp) (rcs sp)) s.
  (** [Hash<F, S, ConstantLength<2>, 3, 2>::init().hash([x, y])]: the capacity word is 2 * 2^64, the message is added to
      the two rate words, one permutation, first word out; [cap] is that capacity word *)
  Definition hash_2 (sp : pspec K) (cap : K) (x y : K) : K := at3 (permute sp (0 + x, 0 + y, cap)) 0.

  (** ** in the circuit: halo2_gadgets pow5.rs *)
  Definition pow_5 (v : K) : K := let v2 := v * v in v2 * v2 * v.
  (** gate "full round", selector on: for every [next_idx], sum_idx pow_5(cur_idx + rc_a_idx) * m_reg[next_idx][idx] - next = 0 *)
  Definition full_gate (m : arr3 (arr3 K)) (rc_a cur next : arr3 K) : Prop :=
    forall i, (i < 3)%nat ->
      (pow_5 (at3 cur 0 + at3 rc_a 0) * at3 (at3 m i) 0
       + pow_5 (at3 cur 1 + at3 rc_a 1) * at3 (at3 m i) 1
       + pow_5 (at3 cur 2 + at3 rc_a 2) * at3 (at3 m i) 2) - at3 next i = 0.
  (** gate "partial rounds": two rounds per row, the middle state is not assigned except for its S-box output [mid_0] *)
  Definition mid (m : arr3 (arr3 K)) (rc_a cur : arr3 K) (mid_0 : K) (i : nat) : K :=
    mid_0 * at3 (at3 m i) 0 + (at3 cur 1 + at3 rc_a 1) * at3 (at3 m i) 1 + (at3 cur 2 + at3 rc_a 2) * at3 (at3 m i) 2.
  Definition unmix (mi : arr3 (arr3 K)) (next : arr3 K) (i : nat) : K :=
    at3 next 0 * at3 (at3 mi i) 0 + at3 next 1 * at3 (at3 mi i) 1 + at3 next 2 * at3 (at3 mi i) 2.
  Definition partial_gate (m mi : arr3 (arr3 K)) (rc_a rc_b cur : arr3 K) (mid_0 : K) (next : arr3 K) : Prop :=
    pow_5 (at3 cur 0 + at3 rc_a 0) - mid_0 = 0 /\
    pow_5 (mid m rc_a cur mid_0 0 + at3 rc_b 0) - unmix mi next 0 = 0 /\
    (forall i, (1 <= i < 3)%nat -> mid m rc_a cur mid_0 i + at3 rc_b i - unmix mi next i = 0).

  (** [Pow5State::full_round]: row [round], the next state assigned as the primitive would compute it *)
  Definition chip_full_round (sp : pspec K) (s : arr3 K) (round : nat) : circ (arr3 K) :=
    match nth_error (rcs sp) round with
    | None => Abort
    | Some rc =>
        Cell (arr3 K) (apply_mds (m_reg sp) (tab3 (fun i => fpow (at3 s i + at3 rc i) 5%N)))
             (fun next => full_gate (m_reg sp) rc s next) (fun next => Ret next)
    end.
  (** [Pow5State::partial_round] *)
  Definition chip_partial_round (sp : pspec K) (s : arr3 K) (round : nat) : circ (arr3 K) :=
    match nth_error (rcs sp) round, nth_error (rcs sp) (round + 1) with
    | Some rc_a, Some rc_b =>
        let r := (fpow (at3 s 0 + at3 rc_a 0) 5%N, at3 s 1 + at3 rc_a 1, at3 s 2 + at3 rc_a 2) in
        let p_mid := apply_mds (m_reg sp) r in
        let r_mid := (fpow (at3 p_mid 0 + at3 rc_b 0) 5%N, at3 p_mid 1 + at3 rc_b 1, at3 p_mid 2 + at3 rc_b 2) in
        Cell (K * arr3 K) (at3 r 0, apply_mds (m_reg sp) r_mid)
             (fun row => partial_gate (m_reg sp) (m_inv sp) rc_a rc_b s (fst row) (snd row)) (fun row => Ret (snd row))
    | _, _ => Abort
    end.
  (** [Pow5Chip::permute]; the two assertions of [configure] that the numbers of rounds are even *)
  Definition chip_permute (sp : pspec K) (s : arr3 K) : circ (arr3 K) :=
    if (Nat.even (full_rounds sp) && Nat.even (partial_rounds sp))%bool then
      let hf := (full_rounds sp / 2)%nat in
      let hp := (partial_rounds sp / 2)%nat in
      let! s := cfold (fun s r => chip_full_round sp s r) (seq 0 hf) s in
      let! s := cfold (fun s r => chip_partial_round sp s (hf + 2 * r)) (seq 0 hp) s in
      cfold (fun s r => chip_full_round sp s (hf + 2 * hp + r)) (seq 0 hf) s
    else Abort.
  (** [PoseidonHash::init] and [hash]: [initial_state] assigns the constants, [add_input] the gate "pad-and-add",
      then the permutation and the first word *)
  Definition pow5_hash (sp : pspec K) (cap : K) (x y : K) : circ K :=
    let! i0 := assign_constant 0 in
    let! i1 := assign_constant 0 in
    let! i2 := assign_constant cap in
    let! s := Cell (arr3 K) (i0 + x, i1 + y, i2)
                   (fun s => i0 + x - at3 s 0 = 0 /\ i1 + y - at3 s 1 = 0 /\ i2 - at3 s 2 = 0) (fun s => Ret s) in
    let! t := chip_permute sp s in
    Ret (at3 t 0).
End Poseidon.

(** bn256.rs:9-16: rows [i*3 .. i*3+2] for i in 0..65, every string read by [from_str_vartime] (reduction mod r) *)
Definition ROUND_CONSTANTS : list (arr3 Fr) :=
  map (fun i => tab3 (fun j => fr (nth (i * 3 + j) round_constants 0%Z))) (seq 0 65).
(** bn256.rs:17-21 *)
Definition MDS : arr3 (arr3 Fr) := tab3 (fun i => tab3 (fun j => fr (nth j (nth i mds []) 0%Z))).
(** poseidon.rs:13-33 [P128Pow5T3Bn]; [None] if building the lazy static MDS_INV panics *)
Definition P128Pow5T3Bn : option (pspec Fr) :=
  option_map (fun mi => mkSpec 8 56 ROUND_CONSTANTS MDS mi) (mds_inv Fr MDS).
(** ConstantLength<2>: the capacity word [(2 as u128) << 64] *)
Definition capacity_2 : Fr := fr (2 * 2 ^ 64).
(** the key derivation of lib.rs:82-83 and lib.rs:267-271: [None] is a panic *)
Definition poseidon_hash (x y : Fr) : option Fr :=
  option_map (fun sp => hash_2 Fr sp capacity_2 x y) P128Pow5T3Bn.
(** dkg_circuit.rs:369-380 *)
Definition poseidon_gadget (x y : Fr) : circ Fr :=
  let! sp := option_rect (fun _ => circ (pspec Fr)) (fun sp => Ret sp) Abort P128Pow5T3Bn in
  pow5_hash Fr sp capacity_2 x y.
