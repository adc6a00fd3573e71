(** What an instance vector of the DKG circuit says. *)
From Coq Require Import ZArith List.
From Verif.Base Require Import Fermat Fld Fp Primes Curves Group.
From Verif.Model Require Import Points Dkg Lib Circ.
From Verif.Spec Require Import Dvrf.
Import ListNotations.
Open Scope Z_scope.

(** A coordinate of a bn256 point as two elements, the low 136 bits first.  The integer [z] encoded is any 254-bit
    representative of the coordinate: the coordinate itself or the coordinate plus q. *)
Definition coord_encodes (x : Fq) (l : list Fr) : Prop :=
  exists z, 0 <= z < 2 ^ 254 /\ fq z = x /\ l = [fr (z mod 2 ^ 136); fr (z / 2 ^ 136)].
Definition g1_encodes (P : G1) (l : list Fr) : Prop :=
  P <> g0 /\ exists lx ly, l = lx ++ ly /\ coord_encodes (fst (xy P)) lx /\ coord_encodes (snd (xy P)) ly.
Definition g2_encodes (P : G2c) (l : list Fr) : Prop :=
  P <> g0 /\ exists lx0 lx1 ly0 ly1, l = lx0 ++ lx1 ++ ly0 ++ ly1 /\
    coord_encodes (fst (fst (xy P))) lx0 /\ coord_encodes (snd (fst (xy P))) lx1 /\
    coord_encodes (fst (snd (xy P))) ly0 /\ coord_encodes (snd (snd (xy P))) ly1.
Definition gk_coords (P : Gk) : list Fr := [fst (xy P); snd (xy P)].

(** The instance vector of a dealing: the polynomial f with coefficients [coeffs] and the encryption randomness [rs]
    determine  g^f(0), g^f(1), ..., g^f(n), g2^f(0), gk^rs and the ciphertexts f(i) + Poseidon(pk_i^rs). *)
Definition dealing_instance (poseidon : Fr -> Fr -> Fr) (coeffs : list Fr) (rs : Fq) (pks : list Gk) (inst : list Fr) : Prop :=
  let f := poly_at coeffs in
  let n := length pks in
  exists lga lgs lg2a,
    inst = lga ++ concat lgs ++ lg2a ++ gk_coords (gkmul gk rs)
             ++ map (fun '(i, pk) => (f (fr i) + poseidon (fst (xy (gkmul pk rs))) (snd (xy (gkmul pk rs))))%fld) (combine (zseq n) pks)
             ++ flat_map gk_coords pks
    /\ g1_encodes (g1mul g1 (f f0)) lga
    /\ Forall2 (fun i l => g1_encodes (g1mul g1 (f (fr i))) l) (zseq n) lgs
    /\ g2_encodes (g2mul g2 (f f0)) lg2a
    /\ gkmul gk rs <> g0 /\ Forall (fun pk => pk <> g0) pks.

(** the public parameters of a dealing *)
Definition dealt_params (poseidon : Fr -> Fr -> Fr) (coeffs : list Fr) (rs : Fq) (pks : list Gk) : member_pp :=
  let f := poly_at coeffs in
  mkPP (map (fun i => g1mul g1 (f (fr i))) (zseq (length pks)))
       (map (fun '(i, pk) => (f (fr i) + poseidon (fst (xy (gkmul pk rs))) (snd (xy (gkmul pk rs))))%fld) (combine (zseq (length pks)) pks))
       (gkmul gk rs) (g1mul g1 (f f0)) (g2mul g2 (f f0)).

(** Inputs that make one of the circuit's incomplete additions meet equal or opposite points.
    Fixed-base multiplication, windows of three bits: the accumulator over the low 83 windows is [lo_part s] P, the
    84th window contributes [hi_part s] P + aux, and the 85th makes the total s P. *)
Definition lo_part (s : Z) : Z := s mod 2 ^ 249 + 2 * ((2 ^ 249 - 1) / 7).
Definition hi_part (s : Z) : Z := ((s / 2 ^ 249) mod 8 + 2) * 2 ^ 249.
Definition exceptional {G : Grp} (P aux : G) (s : Z) : Prop :=
  zmul (lo_part s - hi_part s) P = aux \/ zmul (lo_part s + hi_part s) P = (⊖ aux)%grp \/
  zmul (s - 2 * (lo_part s + hi_part s)) P = (aux ⊕ aux)%grp \/ zmul s P = g0.
(** no point of the two last rows of the table is the point at infinity, and every point has order r *)
Definition table_assignable {G : Grp} (P aux : G) : Prop :=
  (forall k, 0 <= k < 8 -> zmul ((k + 2) * 2 ^ 249) P <> (⊖ aux)%grp) /\
  (forall k, 0 <= k < 4 -> zmul ((k + 2) * 2 ^ 252 - 2 * ((2 ^ 255 - 1) / 7)) P <> aux) /\ zmul r_mod aux = g0.
(** double-and-add from the auxiliary point A, over the 254 bits of s *)
Definition gk_exceptional (A P : Gk) (s : Z) : Prop :=
  (exists i, 0 <= i < 254 /\ (A ⊕ zmul (s mod 2 ^ i) P = zmul (2 ^ i) P \/ A ⊕ zmul (s mod 2 ^ i) P = ⊖ zmul (2 ^ i) P)%grp) \/
  zmul s P = g0 \/ zmul s P = (⊖ (A ⊕ A))%grp.

(** some multiplication of the dealing with coefficients [coeffs] for n members is exceptional *)
Definition dealing_exceptional (aux1 : G1) (aux2 : G2c) (coeffs : list Fr) (n : Z) : Prop :=
  let f (i : Z) := fval (poly_at coeffs (fr i) : Fp r_mod) in
  exceptional (g1 : G1) aux1 (f 0) \/ exceptional (g2 : G2c) aux2 (f 0) \/ exists i, 1 <= i <= n /\ exceptional (g1 : G1) aux1 (f i).
(** Some 254-bit representative of the scalar (s itself, or s + r when that is below 2^254) has a regular multiplication:
    the constraints do not fix which of the two the bits represent. *)
Definition reachable {G : Grp} (P aux : G) (s : Fr) : Prop := exists z, 0 <= z < 2 ^ 254 /\ fr z = s /\ ~ exceptional P aux z.
Definition dealing_reachable (aux1 : G1) (aux2 : G2c) (coeffs : list Fr) (n : Z) : Prop :=
  reachable (g1 : G1) aux1 (poly_at coeffs (fr 0)) /\ reachable (g2 : G2c) aux2 (poly_at coeffs (fr 0)) /\
  forall i, 1 <= i <= n -> reachable (g1 : G1) aux1 (poly_at coeffs (fr i)).
(** the auxiliary point A serves for the randomness [s] and the keys [pks] *)
Definition aux_point_ok (A : Gk) (s : Z) (pks : list Gk) : Prop :=
  A <> g0 /\ ~ gk_exceptional A gk s /\ Forall (fun pk => pk <> g0 /\ ~ gk_exceptional A pk s) pks.

(** ** the gadgets *)
(** the circuit fragment [c] has exactly one result, [v]: the constraints admit it and nothing else, and the values the
    code assigns satisfy the constraints *)
Definition computes {A} (c : circ A) (v : A) : Prop := (forall x, sem c x <-> x = v) /\ honest c v.
(** the fragment has the result [v] under the condition [C] and no satisfying assignment otherwise *)
Definition computes_when {A} (C : Prop) (c : circ A) (v : A) : Prop :=
  (forall x, sem c x <-> C /\ x = v) /\ (forall x, honest c x <-> C /\ x = v).
(** bits, the least significant first *)
Fixpoint bits_value (bs : list bool) : Z :=
  match bs with [] => 0 | c :: tl => (if c then 1 else 0) + 2 * bits_value tl end.
Definition bit_cells (bs : list bool) : list Fr := map (fun c : bool => if c then f1 else f0) bs.
(** double-and-add over n bits, as [gk_exceptional] for n = 254 *)
Definition mul_exceptional (n : Z) (A P : Gk) (s : Z) : Prop :=
  (exists i, 0 <= i < n /\ (A ⊕ zmul (s mod 2 ^ i) P = zmul (2 ^ i) P \/ A ⊕ zmul (s mod 2 ^ i) P = ⊖ zmul (2 ^ i) P)%grp) \/
  zmul s P = g0 \/ zmul s P = (⊖ (A ⊕ A))%grp.
(** windows of w bits: the sum  1 + 2^w + ... + 2^(w(i-1)) *)
Fixpoint window_units (w : Z) (i : nat) : Z := match i with O => 0 | S j => window_units w j + 2 ^ (w * Z.of_nat j) end.
(** what the accumulator holds before row i, and the entry added in row i (each row entry for digit k is (k+2) 2^(wi)) *)
Definition acc_before (w : Z) (i : nat) (s : Z) : Z := s mod 2 ^ (w * Z.of_nat i) + 2 * window_units w i.
Definition row_digit (w : Z) (i : nat) (s : Z) : Z := (s / 2 ^ (w * Z.of_nat i)) mod 2 ^ w.
Definition row_entry (w : Z) (i : nat) (s : Z) : Z := (row_digit w i s + 2) * 2 ^ (w * Z.of_nat i).
(** the exceptional scalars of the windowed multiplication with n windows of w bits ([exceptional] is w = 3, n = 85) *)
Definition fixed_exceptional {G : Grp} (w : Z) (n : nat) (P aux : G) (s : Z) : Prop :=
  let lo := acc_before w (n - 2) s in
  let hi := row_entry w (n - 2) s in
  zmul (lo - hi) P = aux \/ zmul (lo + hi) P = (⊖ aux)%grp \/ zmul (s - 2 * (lo + hi)) P = (aux ⊕ aux)%grp \/ zmul s P = g0.
