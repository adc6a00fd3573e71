(** src/dkg_circuit.rs: the DKG circuit, with the chips instantiated as there. *)
From Coq Require Import ZArith String List Bool.
From Verif.Base Require Import Fld Fp EC Primes Curves Group.
From Verif.Model Require Import Monad Points Dkg Lib Circ MainGate GrumpkinChip IntegerChip FixedBase.
Import ListNotations.

(** decompose(value, n, 1): the n low bits, least significant first *)
Fixpoint zbits (n : nat) (z : Z) : list bool :=
  match n with O => [] | S n' => Z.odd z :: zbits n' (z / 2)%Z end.
Definition bit_of (c : bool) : Fr := if c then f1 else f0.
Definition decompose (v : Fr) : list Fr := map bit_of (zbits 254 (fval (v : Fp r_mod))).

(** ** parameters of the integer chip: four limbs of 68 bits, the most significant of a reduced integer has
       254 - 3 * 68 = 50 bits (halo2wrong [Rns], a dependency) *)
Fixpoint lval (l : list Fr) : Z := match l with [] => 0%Z | x :: t => (fval (x : Fp r_mod) + 2 ^ BIT_LEN_LIMB * lval t)%Z end.
Definition is_reduced (l : list Fr) (a : Fq) : Prop :=
  Forall2 (fun (x : Fr) (n : Z) => (fval (x : Fp r_mod) < 2 ^ n)%Z) l [BIT_LEN_LIMB; BIT_LEN_LIMB; BIT_LEN_LIMB; (254 - 3 * BIT_LEN_LIMB)%Z]
  /\ fq (lval l) = a.
Definition reduced (a : Fq) : list Fr := limbs NUMBER_OF_LIMBS (fval (a : Fp q_mod)).

(** [CurveAffine::coordinates]: none for the point at infinity *)
Definition coordinates {K : Fld} {b : K} (P : EC K b) : option (K * K) :=
  match EC.pt K b P with Inf _ => None | Aff _ x y => Some (x, y) end.
Definition g1_assign_constant (P : G1) : circ (point1 Fq) := p1_assign_constant Fq (coordinates P).
(** point2_base_chip.rs:162-185: the point must have order r *)
Definition g2_assign_constant (P : G2c) : circ (point2 Fq) :=
  p2_assign_constant Fq (if geqb (zmul r_mod P) g0 then coordinates P else None).

(** lib.rs:51 *)
Definition WINDOW_SIZE : nat := 3.
(** Fr::NUM_BITS *)
Definition NUM_BITS : nat := 254.
(** grumpkin_chip/add.rs:9-15 *)
Definition THREE_OVER_TWO : Fr := from_raw r_mod [0xa1f0fac9f8000002%Z; 0x9419f4243cdcb848%Z; 0xdc2822db40c0ac2e%Z; 0x183227397098d014%Z].

(** ecc_chip/bn256.rs:4-38 *)
Definition AUX_GENERATOR_X : Fq2 :=
  (from_raw q_mod [0x52ae1752bfef0341; 0x3eafccb9064851de; 0x4254ea57f4d42897; 0x09f8420d06b98979]%Z,
   from_raw q_mod [0x2539ba3aaf68dd60; 0xcb7cb3129ef4c5be; 0x9af0f58f79fa917f; 0x0abc3efe977fbc31]%Z).
Definition AUX_GENERATOR_Y : Fq2 :=
  (from_raw q_mod [0x52d06d3250ae0d77; 0x2d1f603c5980314e; 0x65df3370b88dfe83; 0x08f5aa2b908fe1da]%Z,
   from_raw q_mod [0x62c32645e3efa47d; 0x643b45c796efc026; 0x7a82d7da0d30c5d7; 0x0532943195a597e4]%Z).
Definition aux2_ok : on_curve Fq2 b2 (Aff Fq2 AUX_GENERATOR_X AUX_GENERATOR_Y) = true.
Proof. vm_compute. reflexivity. Qed.
Definition AUX_GENERATOR : G2c := mkEC Fq2 b2 (Aff Fq2 AUX_GENERATOR_X AUX_GENERATOR_Y) aux2_ok.

(** dkg_circuit.rs:104-110: the witness of a circuit; [t] and [n] are the lengths of the two lists (121-122) *)
Record dkg_circuit := mkDkgCircuit { dc_coeffs : list Fr; dc_random : Fr; dc_public_keys : list Gk; dc_grumpkin_aux : Gk }.
(** dkg_circuit.rs:113-130 *)
Definition dkg_circuit_new (cfg : config) (coeffs : list Fr) (random : Fr) (pks : list Gk) (aux : Gk) : res dkg_circuit :=
  let* _ := assert (Z.of_nat (List.length coeffs) =? threshold cfg)%Z "coeffs.len() == threshold" in
  let* _ := assert (Z.of_nat (List.length pks) =? number_of_members cfg)%Z "public_keys.len() == number_of_members" in
  Ok (mkDkgCircuit coeffs random pks aux).
(** lib.rs:294-313; [aux] is the point drawn at random there *)
Definition member_circuit (mp : member_params) (aux : Gk) : res dkg_circuit :=
  dkg_circuit_new (mp_config mp) (mp_coeffs mp) (mp_r mp) (mp_public_keys mp) aux.

Section DkgCircuit.
  (** the Poseidon gadget's function, see Poseidon.v *)
  Variable poseidon : Fr -> Fr -> Fr.
  (** C::aux_generator(fixed_point.to_bytes()) for G1: hash_to_curve_bn, a point of the curve
      (point_base_chip/bn256.rs:6-13); and for G2 (ecc_chip/bn256.rs:52-56) *)
  Variable aux1 : G1.
  Variable aux2 : G2c.

  (** ** the chips as instantiated by the circuit *)
  Definition g1_assign_fixed_point : circ (list (list (point1 Fq))) :=
    let! table := assign_fixed_point G1 (point1 Fq) g1_assign_constant NUM_BITS WINDOW_SIZE g1 aux1 in
    let! _ := g1_assign_constant g1 in
    Ret table.
  Definition g1_mul (table : list (list (point1 Fq))) (s : Fr) : circ (point1 Fq) :=
    fixed_mul Fr (point1 Fq) (p1_select Fq Fr) (p1_add_incomplete Fq) (p1_add Fq) NUM_BITS WINDOW_SIZE table s (decompose s).
  Definition g1_normalize : point1 Fq -> circ (list Fr * list Fr) := p1_normalize Fq Fr is_reduced reduced.
  (** point2_base_chip/fix_mul.rs:95-99: a fixed point outside the subgroup is an error *)
  Definition g2_assign_fixed_point : circ (list (list (point2 Fq))) :=
    assign_fixed_point G2c (point2 Fq) g2_assign_constant NUM_BITS WINDOW_SIZE g2 aux2.
  Definition g2_mul (table : list (list (point2 Fq))) (s : Fr) : circ (point2 Fq) :=
    fixed_mul Fr (point2 Fq) (p2_select Fq Fr) (p2_add_incomplete Fq) (p2_add Fq) NUM_BITS WINDOW_SIZE table s (decompose s).
  Definition g2_normalize : point2 Fq -> circ ((list Fr * list Fr) * (list Fr * list Fr)) := p2_normalize Fq Fr is_reduced reduced.
  (** 2^BIT_LEN_LIMB as a native field element *)
  Definition limb_base : Fr := fr (2 ^ BIT_LEN_LIMB).
  Definition g1_expose (inst : list Fr) (p : list Fr * list Fr) : option Fr -> nat -> circ (Fr * nat) :=
    expose_public_optimal Fr inst limb_base [fst p; snd p].
  Definition g2_expose (inst : list Fr) (p : (list Fr * list Fr) * (list Fr * list Fr)) : option Fr -> nat -> circ (Fr * nat) :=
    expose_public_optimal Fr inst limb_base [fst (fst p); snd (fst p); fst (snd p); snd (snd p)].
  (** Pow5Chip hash of two cells (halo2_gadgets, a dependency) *)
  Definition hash2 (x y : Fr) : circ Fr := Cell Fr (poseidon x y) (fun k => k = poseidon x y) (fun k => Ret k).

  (** dkg_circuit.rs:191-223: the coefficients and the shares *)
  Definition assign_shares (n : nat) (coeffs : list Fr) : circ (list Fr * Fr) :=
    let! cs := cmap assign_value coeffs in
    match cs with
    | [] => Abort
    | c0 :: rest =>
        let! s0 := cfold (fun s c => add s c) rest c0 in
        let! sh := cmap (fun i => let! x := assign_constant (fr (Z.of_nat i)) in
                                  cfold (fun s c => mul_add s x c) (rev (removelast cs)) (last cs f0)) (seq 2 (n - 1)) in
        Ret (s0 :: sh, c0)
    end.

  (** dkg_circuit.rs:254-277 / 280-300: g^s, normalised and exposed *)
  Definition expose_g1 (inst : list Fr) (table : list (list (point1 Fq))) (s : Fr) (base : option Fr) (offset : nat) : circ (Fr * nat) :=
    let! gs := g1_mul table s in
    let! gs := g1_normalize gs in
    g1_expose inst gs base offset.

  (** dkg_circuit.rs:354-395: one member's ciphertext *)
  Definition encrypt_one (inst : list Fr) (auxs : apoint Fr * apoint Fr) (bits : list Fr) (share : Fr) (pk_w : Fr * Fr) (offset : nat)
    : circ (apoint Fr * nat) :=
    let! pk := assign_point Fr bk pk_w in
    let! pkr := g_mul_bits Fr THREE_OVER_TWO (Some auxs) pk bits in
    let! key := hash2 (fst pkr) (snd pkr) in
    let! cipher := add share key in
    let! _ := expose_public inst cipher offset in
    Ret (pk, (offset + 1)%nat).

  (** dkg_circuit.rs:170-404 *)
  Definition synthesize (c : dkg_circuit) (inst : list Fr) : circ unit :=
    let n := List.length (dc_public_keys c) in
    let! (shares, a) := assign_shares n (dc_coeffs c) in
    let! table := g1_assign_fixed_point in
    let! table2 := g2_assign_fixed_point in
    let! auxs := assign_aux Fr bk (xy (dc_grumpkin_aux c)) in
    let! (base, offset) := expose_g1 inst table a None 0 in
    let! offset := cfold (fun offset i => let! (_, offset) := expose_g1 inst table (nth i shares f0) (Some base) offset in Ret offset)
                         (seq 0 n) offset in
    let! g2a := g2_mul table2 a in
    let! g2a := g2_normalize g2a in
    let! (_, offset) := g2_expose inst g2a (Some base) offset in
    let! g := g_assign_constant Fr (xy gk) in
    let! bits := to_bits_unsafe Fr (decompose (dc_random c)) in
    let! gr := g_mul_bits Fr THREE_OVER_TWO (Some auxs) g bits in
    let! offset := g_expose_public Fr inst gr offset in
    let! (pks, offset) := cfold (fun '(pks, offset) i =>
                                   let! (pk, offset) := encrypt_one inst auxs bits (nth i shares f0) (xy (nth i (dc_public_keys c) g0)) offset in
                                   Ret (pks ++ [pk], offset))
                                (seq 0 n) ([], offset) in
    let! offset := cfold (fun offset pk => g_expose_public Fr inst pk offset) pks offset in
    Ret tt.
End DkgCircuit.
