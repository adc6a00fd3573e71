(** What it means for a proof to be accepted, given the verifying key, the instances and the challenges: Spec/Plonk.v put together
    for BN254.  Nothing here mentions memory, call data or the EVM. *)
From Coq Require Import ZArith NArith List Bool Arith.
From Verif.Base Require Import Fld Fp EC Primes Curves Group.
From Verif.Model Require Import Points PoseidonConsts.
From Verif.Spec Require Import Plonk.
Import ListNotations.
Open Scope Z_scope.

(** a word for a scalar, two for a point of G1, four for a point of G2 (imaginary parts first, EIP-197) *)
Definition scalar_word (s : Fr) : Z := fval (s : Fp r_mod).
Definition point_words (P : G1) : list Z := [px P; py P].
Definition g2_words (Q : G2c) : list Z :=
  [fval (snd (fst (xy Q)) : Fp q_mod); fval (fst (fst (xy Q)) : Fp q_mod); fval (snd (snd (xy Q)) : Fp q_mod); fval (fst (snd (xy Q)) : Fp q_mod)].

(** the verifying key *)
Record vkey := VKey {
  k_digest : Z;
  k_instances : nat;          (** the number of instances *)
  k_degree : nat;             (** the binary logarithm of the number of rows *)
  k_n_inv : Fr; k_omega : Fr; k_omega_inv : Fr; k_omega_inv_l : Fr;
  k_gen : G1; k_g2 : G2c; k_neg_s_g2 : G2c;
  k_fixed : list G1;          (** commitments to the fixed columns *)
  k_sigma : list G1           (** and to the permutation *)
}.
(** the number of rows *)
Definition domain (k : vkey) : N := 2 ^ N.of_nat (k_degree k).
(** the key as the words of the account that holds it: no accumulator is used (the four zeros) *)
Definition key_words (k : vkey) : list Z :=
  [k_digest k; Z.of_nat (k_instances k); Z.of_nat (k_degree k)] ++ map scalar_word [k_n_inv k; k_omega k; k_omega_inv k; k_omega_inv_l k] ++
  [0; 0; 0; 0] ++ point_words (k_gen k) ++ g2_words (k_g2 k) ++ g2_words (k_neg_s_g2 k) ++ flat_map point_words (k_fixed k ++ k_sigma k).

(** a key of the circuit: 23 fixed columns and 9 in the permutation, with any number of instances and rows that can be addressed *)
Definition key_ok (k : vkey) : Prop :=
  length (k_fixed k) = 23%nat /\ length (k_sigma k) = 9%nat /\ Z.of_nat (k_instances k) < 2 ^ 64 /\ Z.of_nat (k_degree k) < 2 ^ 64.
(** its scalars are those of the domain: omega has order 2^d, where d is the degree (there are such roots of unity in the field for
    d up to 28), and the three inverses (of omega, of omega^6 and of the number of rows) are inverses *)
Definition domain_ok (k : vkey) : Prop :=
  (2 <= k_degree k <= 28)%nat /\ fpow (k_omega k) (2 ^ (N.of_nat (k_degree k) - 1)) = (fopp f1 : Fr) /\ (k_omega k * k_omega_inv k = 1 :> Fr)%fld /\
  (k_omega_inv_l k * fpow (k_omega k) 6 = 1 :> Fr)%fld /\ (k_n_inv k * fr (2 ^ Z.of_nat (k_degree k)) = 1 :> Fr)%fld.

(** a proof: the commitments (the columns of [commitments], then the pieces of the quotient), the values opened, two points *)
Record proof := Proof_ {
  p_commitments : list G1;
  p_evals : list Fr;
  p_w : G1;
  p_w' : G1
}.
Definition proof_ok (p : proof) : Prop :=
  length (p_commitments p) = (length commitments + pieces)%nat /\ length (p_evals p) = length openings /\
  Forall (fun P => P <> g0) (p_commitments p) /\ p_w p <> g0 /\ p_w' p <> g0.
Definition proof_words (p : proof) : list Z :=
  flat_map point_words (p_commitments p) ++ map scalar_word (p_evals p) ++ point_words (p_w p) ++ point_words (p_w' p).

(** challenges *)
Record challenges := Challenges { theta : Fr; beta : Fr; gamma : Fr; y : Fr; x : Fr; zeta : Fr; nu : Fr; mu : Fr }.
Definition challenges_of (h : hashes) : challenges :=
  Challenges (fr (h_theta h)) (fr (h_beta h)) (fr (h_gamma h)) (fr (h_y h)) (fr (h_x h)) (fr (h_zeta h)) (fr (h_nu h)) (fr (h_mu h)).

Definition index_in {A} (dec : forall a b : A, {a = b} + {a <> b}) (a : A) : list A -> nat :=
  fix go (l : list A) : nat := match l with [] => 0%nat | b :: l => if dec a b then 0%nat else S (go l) end.
Definition opening_eq_dec (a b : col * rot) : {a = b} + {a <> b}.
Proof. decide equality; [apply rot_eq_dec|apply col_eq_dec]. Defined.

(** the constants of the circuit: the generator 7^(2^28) of the cosets, the tag of the limb table, Poseidon's matrix
    (Model/PoseidonConsts.v) and its inverse *)
Definition delta : Fr := fr 4131629893567559867359510883348571134090853742863529169391034518566172092834.
Definition limb_tag : Fr := fr 5.
Definition mds_at (i j : nat) : Fr := fr (nth j (nth i mds []) 0).
Definition mds_inverse : list (list Z) :=
  [[0x203d1d351372bf15b6465d69d3e12806879a5f36b4ba6dd17dfea07d03f82f26;
    0x29b6537218615bcb4b6ad7fe4620063d48e42ce2096b3a1d6e320628bb032c22;
    0x11551257de3d4b5ab51bd377d7bb55c054f51f711623515b1e2a35a958b93a6a];
   [0x29dedb1bbf80c8863d569912c20f1f82bf0dc3bc4fb62798dd1319814f833b54;
    0x130b59143f4e340cd66c7251dc8f56fbbe0367fec1575cb124ca8a66304e3849;
    0x0c2808c9533e2c526087842fb62521a3248c8d6d3b16d4b4108476d2eeda95f9];
   [0x0173249a1c9eac2591706fe09af22cfd29e1387e706cf0ded2889dc145c61609;
    0x0abc7f158780841ec82e03ec3cee0cf1d16270b0238f3063d2e5fb5138e59350;
    0x1738a318c8631b6e8305505aaf3b497fe9f2478c2f28ee945413af26963b4700]].
Definition mds_inv_at (i j : nat) : Fr := fr (nth j (nth i mds_inverse []) 0).

Section Accept.
  Variable k : vkey.
  Variable insts : list Fr.
  Variable p : proof.
  Variable c : challenges.
  Open Scope fld_scope.
  (** the value the prover claims for a column at a rotation *)
  Definition claimed (cl : col) (r : rot) : Fr := nth (index_in opening_eq_dec (cl, r) openings) (p_evals p) 0.
  Definition xn : Fr := fpow (x c) (domain k).
  (** the value the quotient polynomial must have at x *)
  Definition quotient_value : Fr :=
    combined Fr mds_at mds_inv_at delta limb_tag claimed
      (instance_at Fr (k_omega k) (domain k) (k_n_inv k) insts (x c))
      (l_0 Fr (domain k) (k_n_inv k) (x c)) (l_last Fr (k_omega k) (domain k) (k_n_inv k) (x c)) (l_blind Fr (k_omega k) (domain k) (k_n_inv k) (x c))
      (theta c) (beta c) (gamma c) (x c) (y c)
    / (xn - 1).
  (** its commitment: the pieces combined by powers of x^n *)
  Definition piece (i : nat) : G1 := nth (length commitments + i) (p_commitments p) g0.
  Definition quotient_commitment : G1 :=
    fold_right (fun i acc => (piece i ⊕ g1mul acc xn)%grp) g0 (seq 0 pieces).
  Definition value_of (cl : col) (r : rot) : Fr := match cl with Quot => quotient_value | _ => claimed cl r end.
  Definition commitment_of (cl : col) : G1 :=
    match cl with
    | Quot => quotient_commitment
    | Fix_ i => nth i (k_fixed k) g0
    | Sig i => nth i (k_sigma k) g0
    | _ => nth (index_in col_eq_dec cl commitments) (p_commitments p) g0
    end.
  (** the point whose pairing with g2 must be that of W' with s g2 *)
  Definition opening_point : G1 :=
    linearised Fr G1 (fun s P => g1mul P s) (point Fr (k_omega k) (x c)) value_of commitment_of (k_gen k) (zeta c) (nu c) (mu c) (p_w p) (p_w' p).
  Definition verifies (pairing : list (G1 * G2c) -> bool) : Prop :=
    pairing [(opening_point, k_g2 k); (p_w' p, k_neg_s_g2 k)] = true.
  (** the challenges avoid the evaluation domain and the points opened at: all but a fraction below 2^-230 of them do *)
  Definition generic : Prop :=
    x c <> 0 /\ fpow (x c) (domain k) <> 1 /\ forall r, mu c <> point Fr (k_omega k) (x c) r.
End Accept.
