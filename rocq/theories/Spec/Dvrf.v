(** Specifications for the off-chain DVRF: polynomials, discrete logarithms, the pairing, an honest run. *)
From Coq Require Import ZArith List Bool.
From Verif.Base Require Import Fld Fp Primes Curves Group.
From Verif.Model Require Import Monad Evm Points HashEvm Dkg Lib.
Import ListNotations.
Open Scope Z_scope.

(** sum_k a_k x^k *)
Fixpoint poly_from (k : N) (coeffs : list Fr) (x : Fr) : Fr :=
  match coeffs with [] => f0 | a :: tl => (a * fpow x k + poly_from (N.succ k) tl x)%fld end.
Definition poly_at (coeffs : list Fr) (x : Fr) : Fr := poly_from 0 coeffs x.

(** what the BN254 pairing check answers on points a_i g1, b_i g2: whether sum_i a_i b_i = 0.
    (bilinearity and non-degeneracy; nothing is said about G2 points outside the subgroup generated by g2) *)
Definition pairing_ok (pairing : list (G1 * G2c) -> bool) : Prop :=
  forall l : list (Fr * Fr),
    pairing (map (fun '(a, b) => (g1mul g1 a, g2mul g2 b)) l) = feqb (fsum (map (fun '(a, b) => a * b)%fld l)) f0.

(** strictly increasing list *)
Fixpoint increasing (l : list Z) : Prop :=
  match l with
  | a :: (b :: _) as tl => a < b /\ increasing (tl)
  | _ => True
  end.

(** position p (counted from 0) breaks the order / the range *)
Definition bad_order (l : list Z) (p : nat) : Prop :=
  exists a b, nth_error l p = Some a /\ nth_error l (S p) = Some b /\ b <= a.
Definition bad_range (n : Z) (l : list Z) (p : nat) : Prop := exists a, nth_error l p = Some a /\ ~ (1 <= a <= n).

(** the Lagrange coefficient at zero of index i among idxs: the product over the other indices k of k / (k - i) *)
Definition lagrange0 (idxs : list Z) (i : Z) : Fr :=
  fprod (map (fun k => fr k * finv (fr k - fr i))%fld (filter (fun k => negb (k =? i)) idxs)).

(** a member key as [MemberKey::random] makes it *)
Definition key_pair (k : member_key) : Prop := mk_pk k = gkmul gk (mk_sk k).

(** the group secret: sum of the dealers' constant coefficients.  A dealer is the pair of its coefficients and its
    encryption randomness. *)
Definition group_secret (dealers : list (list Fr * Fr)) : Fr := fsum (map (fun d => hd f0 (fst d)) dealers).

(** An honest DKG followed by one DVRF evaluation by the members [idxs] (cf. mock_dvrf in src/lib.rs:700-754), with
    every check of the protocol made: *)
Section Run.
  Variable keccak : bytes -> Z.
  Variable pairing : list (G1 * G2c) -> bool.
  Variable poseidon : Fr -> Fr -> Fr.

  Definition deal_all (cfg : config) (members : list member_key) (dealers : list (list Fr * Fr)) : res (list member_pp) :=
    let* mps := mapM (fun '(coeffs, r) => member_params_new poseidon cfg (map mk_pk members) coeffs r) dealers in
    Ok (map mp_public_params mps).

  Definition member_eval (cfg : config) (members : list member_key) (pps : list member_pp) (gpp : global_pp)
      (nonce : Z -> Fr) (msg : bytes) (i : Z) : res partial_eval :=
    let* m := get members (i - 1) in
    let* key := dkg_share_key poseidon m cfg i pps in
    let* _ := share_key_verify key cfg (verify_keys gpp) in
    let* e := evaluate keccak key msg (nonce i) in
    let* v := get (verify_keys gpp) (i - 1) in
    let* _ := pe_verify keccak e cfg msg v in
    Ok e.

  Definition dvrf_run (cfg : config) (members : list member_key) (dealers : list (list Fr * Fr)) (idxs : list Z)
      (nonce : Z -> Fr) (msg : bytes) : res (global_pp * pseudo_random) :=
    let* pps := deal_all cfg members dealers in
    let* gpp := dkg_global_public_params pps in
    let* evals := mapM (member_eval cfg members pps gpp nonce msg) idxs in
    let* pr := combine_partial_evaluations keccak cfg evals in
    let* _ := pr_verify keccak pairing pr msg (g_g2a gpp) in
    Ok (gpp, pr).
End Run.
