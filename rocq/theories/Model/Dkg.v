(** src/dkg.rs (and src/error.rs).
    Scalars are [Fr], points are elements of the concrete groups [G1], [G2c]; [to_affine] is the identity on them.
    usize values are integers; indexing and u64 conversion are explicit.  Random scalars drawn from the rng are
    explicit arguments.  Feature g2chip is on (the default feature set of Cargo.toml). *)
From Coq Require Import ZArith String Ascii List Bool.
From Verif.Base Require Import Fld Fp EC Primes Curves Group.
From Verif.Model Require Import Monad Evm Strings Points HashEvm.
Import ListNotations.
Open Scope string_scope.
Open Scope list_scope.
Open Scope Z_scope.

(** usize/u64 bound *)
Definition M64 : Z := 2 ^ 64.
Definition is_usize (x : Z) : bool := (0 <=? x) && (x <? M64).
Definition zlen {A} (l : list A) : Z := Z.of_nat (length l).
(** slice indexing, panicking out of range *)
Definition get {A} (l : list A) (i : Z) : res A :=
  if i <? 0 then Panic "index out of bounds" else
  match nth_error l (Z.to_nat i) with Some a => Ok a | None => Panic "index out of bounds" end.

(** error.rs:4-22, the Display strings *)
Fixpoint chars (b : bytes) : string :=
  match b with [] => EmptyString | c :: r => String (ascii_of_N (Z.to_N c)) (chars r) end.
Definition show (i : Z) : string := chars (to_dec i).
Definition InvalidParams (t n : Z) : string := "invalid params (" ++ show t ++ ", " ++ show n ++ ")".
Definition InvalidIndex (i : Z) : string := "invalid index " ++ show i.
Definition InvalidOrder (i : Z) : string := "invalid index order " ++ show i.
Definition VerifyFailed : string := "verification failed".

(** dkg.rs:14 *)
Definition EVAL_PREFIX : bytes := ascii_bytes "DVRF pseudorandom generation 2023".

(** dkg.rs:17-30 *)
Definition evaluate_poly (coeffs : list Fr) (i : Z) : res Fr :=
  let* _ := assert (1 <=? zlen coeffs) "coeffs.len() >= 1" in
  let x := fr i in
  let* c0 := get coeffs 0 in
  Ok (fst (fold_left (fun '(eval, prod) a => (eval + a * prod, prod * x)%fld) (skipn 1 coeffs) (c0, x))).

(** dkg.rs:32-70 *)
Record config := mkConfig { threshold : Z; number_of_members : Z }.
Definition config_new (t n : Z) : res config :=
  if (0 <? t) && (t <=? n) then Ok (mkConfig t n) else Err (InvalidParams t n).
Definition instance_size (cfg : config) : Z := 7 * number_of_members cfg + 6 + 8.

(** dkg.rs:73-84; [coeffs.iter().sum()] folds from zero; the range 2..=n *)
Definition range2 (n : Z) : list Z := map Z.of_nat (seq 2 (Z.to_nat n - 1)).
Definition shares (n : Z) (coeffs : list Fr) : res (list Fr) :=
  let s1 := fold_left fadd coeffs (f0 : Fr) in
  let* rest := mapM (evaluate_poly coeffs) (range2 n) in
  Ok (s1 :: rest).

(** dkg.rs:86-90 *)
Record share_key := mkShareKey { index : Z; sk : Fr; vk : G1 }.

(** dkg.rs:108-118 *)
Definition share_key_verify (key : share_key) (cfg : config) (vks : list G1) : res unit :=
  if (index key <? 1) || (number_of_members cfg <? index key) then Err (InvalidIndex (index key)) else
  let* v := get vks (index key - 1) in
  if geqb (vk key) v then Ok tt else Err VerifyFailed.

(** dkg.rs:162-173 *)
Record partial_eval := mkPartialEval { pe_index : Z; pe_value : G1; pe_z : Fr; pe_c : Fr }.
(** dkg.rs:224-227 *)
Record pseudo_random := mkPseudoRandom { pr_proof : G1; pr_value : bytes }.

Definition coord_bytes (P : G1) : bytes := to_bytes (snd (xy P) : Fp q_mod) ++ to_bytes (fst (xy P) : Fp q_mod).

Section Dkg.
  Variable keccak : bytes -> Z.
  (** [multi_miller_loop(terms).final_exponentiation().is_identity()] *)
  Variable pairing : list (G1 * G2c) -> bool.

  Definition hash_to_curve_bn (domain msg : bytes) : res G1 := hash_to_curve_evm keccak domain msg.

  (** dkg.rs:132-145 and 194-207: bytes in the order v, vk, R2, R1, h, g (y before x), then reversed *)
  Definition transcript (v vk_ r2 r1 h g : G1) : bytes :=
    rev (coord_bytes v ++ coord_bytes vk_ ++ coord_bytes r2 ++ coord_bytes r1 ++ coord_bytes h ++ coord_bytes g).
  (** dkg.rs:147-153: keccak and [BnScalar::from_raw(from_be_bytes(..))] *)
  Definition challenge (v vk_ r2 r1 h g : G1) : Fr :=
    from_raw r_mod (from_be_bytes (keccak_vec keccak (transcript v vk_ r2 r1 h g))).

  (** dkg.rs:121-160, [r] is the scalar drawn at line 127 *)
  Definition evaluate (key : share_key) (input : bytes) (r : Fr) : res partial_eval :=
    let* h := hash_to_curve_bn EVAL_PREFIX input in
    let v := g1mul h (sk key) in
    let g := g1 in
    let cap_r_1 := g1mul g r in
    let cap_r_2 := g1mul h r in
    let c := challenge v (vk key) cap_r_2 cap_r_1 h g in
    let z := (c * sk key + r)%fld in
    Ok (mkPartialEval (index key) v z c).

  (** dkg.rs:176-221 *)
  Definition pe_verify (e : partial_eval) (cfg : config) (input : bytes) (vk_ : G1) : res unit :=
    if (number_of_members cfg <? pe_index e) || (pe_index e <? 1) then Err (InvalidIndex (pe_index e)) else
    let* h := hash_to_curve_bn EVAL_PREFIX input in
    let g := g1 in
    let cap_r_1 := (g1mul g (pe_z e) ⊕ ⊖ g1mul vk_ (pe_c e))%grp in
    let cap_r_2 := (g1mul h (pe_z e) ⊕ ⊖ g1mul (pe_value e) (pe_c e))%grp in
    let c_tilde := challenge (pe_value e) vk_ cap_r_2 cap_r_1 h g in
    if feqb (pe_c e) c_tilde then Ok tt else Err VerifyFailed.

  (** dkg.rs:230-243: loop over positions; [rest] is the suffix starting at position [i] *)
  Fixpoint check_indices_from (n i : Z) (rest : list Z) : res unit :=
    match rest with
    | [] => Ok tt
    | a :: tl =>
        let* _ := match tl with
                  | b :: _ => if b <=? a then Err (InvalidOrder i) else Ok tt
                  | [] => Ok tt
                  end in
        if (n <? a) || (a <? 1) then Err (InvalidIndex a) else check_indices_from n (i + 1) tl
    end.
  Definition check_indices (n : Z) (indices : list Z) : res unit := check_indices_from n 0 indices.

  (** dkg.rs:255-268 *)
  Definition lambda_of (indices : list Fr) (i : Fr) : res Fr :=
    let '(numerator, denominator) :=
      fold_left (fun '(num, den) k => if negb (feqb k i) then (num * k, den * (k - i))%fld else (num, den)) indices (f1 : Fr, f1 : Fr) in
    let* d := (if feq_dec denominator (f0 : Fr) then Panic "cannot divide zero" else Ok (finv denominator)) in
    Ok (numerator * d)%fld.

  (** the value of a pseudorandom: dkg.rs:281-286 and 320-325 *)
  Definition prf_value (proof : G1) : bytes := keccak_vec keccak (rev (coord_bytes proof)).

  (** dkg.rs:246-289 *)
  Definition combine_partial_evaluations (cfg : config) (sigmas : list partial_eval) : res pseudo_random :=
    let* _ := assert (zlen sigmas =? threshold cfg) "sigmas.len() == threshold" in
    let indices := map pe_index sigmas in
    let* _ := check_indices (number_of_members cfg) indices in
    let indices := map fr indices in
    let* lambdas := mapM (lambda_of indices) indices in
    let pis := map (fun '(sigma, lambda) => g1mul (pe_value sigma) lambda) (combine sigmas lambdas) in
    let* p0 := get pis 0 in
    let sum := fold_left gadd (skipn 1 pis) p0 in
    Ok (mkPseudoRandom sum (prf_value sum)).

  Definition bytes_eqb (a b : bytes) : bool := if list_eq_dec Z.eq_dec a b then true else false.

  (** dkg.rs:304-332 *)
  Definition pr_verify (p : pseudo_random) (input : bytes) (gpk : G2c) : res unit :=
    let* h := hash_to_curve_bn EVAL_PREFIX input in
    if negb (pairing [((⊖ h)%grp, gpk); (pr_proof p, g2)]) then Err VerifyFailed else
    if negb (bytes_eqb (pr_value p) (prf_value (pr_proof p))) then Err VerifyFailed else Ok tt.

  (** dkg.rs:335-341 *)
  Definition keygen (s : Fr) : Fr * G1 := (s, g1mul g1 s).

  (** dkg.rs:344-358 *)
  Definition is_dl_equal (ga : G1) (g2a : G2c) : res unit :=
    if negb (pairing [((⊖ g1)%grp, g2a); (ga, g2)]) then Err VerifyFailed else Ok tt.
End Dkg.
