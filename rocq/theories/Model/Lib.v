(** src/lib.rs and the point encodings of src/utils.rs. *)
From Coq Require Import ZArith String List Bool.
From Verif.Base Require Import Fld Fp EC Primes Curves Group.
From Verif.Model Require Import Monad Evm Strings Points HashEvm Dkg.
Import ListNotations.
Open Scope string_scope.
Open Scope list_scope.
Open Scope Z_scope.

(** lib.rs:41-47 *)
Definition BIT_LEN_LIMB : Z := 68.
Definition NUMBER_OF_LIMBS : nat := 4.
Definition WRAP_LEN : nat := 2.
Definition COORD_LEN : nat := NUMBER_OF_LIMBS / WRAP_LEN.
Definition POINT_LEN : nat := COORD_LEN * 2.
Definition POINT2_LEN : nat := POINT_LEN * 2.

(** the limbs of an [Integer] (halo2_ecc::integer, a dependency): NUMBER_OF_LIMBS base-2^68 digits, least first,
    each an element of the native field *)
Fixpoint limbs (n : nat) (x : Z) : list Fr :=
  match n with O => [] | S n' => fr (x mod 2 ^ BIT_LEN_LIMB) :: limbs n' (x / 2 ^ BIT_LEN_LIMB) end.

(** utils.rs:69-77: the inner loop over one coordinate: consecutive groups of WRAP_LEN = 2 limbs, s = hi * base + lo *)
Fixpoint wrap (l : list Fr) : list Fr :=
  match l with
  | lo :: hi :: tl => (hi * fr (2 ^ BIT_LEN_LIMB) + lo)%fld :: wrap tl
  | _ => []
  end.
Definition coord_to_public (x : Fq) : list Fr := wrap (limbs NUMBER_OF_LIMBS (fval (x : Fp q_mod))).
(** utils.rs:53-81 *)
Definition point_to_public (P : G1) : list Fr := coord_to_public (fst (xy P)) ++ coord_to_public (snd (xy P)).
(** utils.rs:108-140; a coordinate of G2 is c0 + c1 u, its limbs are those of c0 then those of c1
    (ecc_chip Point2::new / Integer of an extension element) *)
Definition point2_to_public (P : G2c) : list Fr :=
  let '(x, y) := xy P in coord_to_public (fst x) ++ coord_to_public (snd x) ++ coord_to_public (fst y) ++ coord_to_public (snd y).

(** W::from_repr(e.to_repr()).unwrap(): the same 32 bytes must be canonical in the other field *)
Definition fr_to_fq (e : Fr) : res Fq :=
  if fval (e : Fp r_mod) <? q_mod then Ok (fq (fval (e : Fp r_mod))) else Panic "from_repr: not canonical".
(** two.pow(BIT_LEN_LIMB * WRAP_LEN) *)
Definition wrap_base : Fq := fpow (fq 2) (Z.to_N (BIT_LEN_LIMB * Z.of_nat WRAP_LEN)).
(** utils.rs:91-95: most significant element first, x = x * base + v *)
Definition public_to_coord (l : list Fr) : res Fq :=
  match rev l with
  | [] => Panic "index out of bounds"
  | top :: rest =>
      let* x0 := fr_to_fq top in
      foldM (fun x e => let* v := fr_to_fq e in Ok (x * wrap_base + v)%fld) x0 rest
  end.
(** utils.rs:83-105 *)
Definition public_to_point (public : list Fr) : res G1 :=
  let* _ := assert (Nat.eqb (length public) POINT_LEN) "public.len() == POINT_LEN" in
  let* x := public_to_coord (firstn COORD_LEN public) in
  let* y := public_to_coord (skipn COORD_LEN public) in
  unwrap (g1_from_xy x y).
(** utils.rs:142-169 *)
Definition public_to_point2 (public : list Fr) : res G2c :=
  let* _ := assert (Nat.eqb (length public) (POINT_LEN * 2)) "public.len() == POINT_LEN * 2" in
  let* c0 := public_to_coord (firstn COORD_LEN public) in
  let* c1 := public_to_coord (firstn COORD_LEN (skipn COORD_LEN public)) in
  let* c2 := public_to_coord (firstn COORD_LEN (skipn (2 * COORD_LEN) public)) in
  let* c3 := public_to_coord (skipn (3 * COORD_LEN) public) in
  unwrap (g2_from_xy (c0, c1) (c2, c3)).

(** lib.rs:53-57 *)
Record member_key := mkMemberKey { mk_sk : Fq; mk_pk : Gk }.
(** lib.rs:64-70, [s] the scalar drawn *)
Definition member_random (s : Fq) : member_key := mkMemberKey s (gkmul gk s).

(** lib.rs:122-130 *)
Record member_pp := mkPP { public_shares : list G1; ciphers : list Fr; gr : Gk; ga : G1; g2a : G2c }.

(** lib.rs:224-232 *)
Record member_params := mkMP { mp_config : config; mp_coeffs : list Fr; mp_shares : list Fr; mp_r : Fr;
                               mp_public_keys : list Gk; mp_public_params : member_pp }.

(** lib.rs:322-327 *)
Record global_pp := mkGPP { g_ga : G1; g_g2a : G2c; verify_keys : list G1 }.

(** lib.rs:90-95 *)
Fixpoint position (pk : Gk) (l : list Gk) (i : Z) : option Z :=
  match l with [] => None | a :: tl => if geqb a pk then Some i else position pk tl (i + 1) end.
Definition member_index (k : member_key) (pks : list Gk) : option Z :=
  match position (mk_pk k) pks 0 with Some i => Some (i + 1) | None => None end.

(** lib.rs:133-163 (g2chip) *)
Definition instance_of (pp : member_pp) (pks : list Gk) : res (list Fr) :=
  let* gs := mapM (fun i => let* s := get (public_shares pp) (Z.of_nat i) in Ok (point_to_public s)) (seq 0 (length pks)) in
  Ok (point_to_public (ga pp) ++ concat gs ++ point2_to_public (g2a pp)
      ++ [fst (xy (gr pp)); snd (xy (gr pp))] ++ ciphers pp ++ flat_map (fun pk => [fst (xy pk); snd (xy pk)]) pks).

(** lib.rs:171-222: a cursor over the instance vector *)
Definition take (n : nat) (l : list Fr) : res (list Fr * list Fr) :=
  if Nat.leb n (length l) then Ok (firstn n l, skipn n l) else Panic "index out of bounds".
Fixpoint read_n {A} (f : list Fr -> res (A * list Fr)) (n : nat) (l : list Fr) : res (list A * list Fr) :=
  match n with
  | O => Ok ([], l)
  | S n' => let* (a, l1) := f l in let* (r, l2) := read_n f n' l1 in Ok (a :: r, l2)
  end.
Definition read_point (l : list Fr) : res (G1 * list Fr) :=
  let* (a, rest) := take POINT_LEN l in let* P := public_to_point a in Ok (P, rest).
Definition read_gk (l : list Fr) : res (Gk * list Fr) :=
  match l with x :: y :: rest => let* P := unwrap (gk_from_xy x y) in Ok (P, rest) | _ => Panic "index out of bounds" end.
Definition read_one (l : list Fr) : res (Fr * list Fr) :=
  match l with x :: rest => Ok (x, rest) | [] => Panic "index out of bounds" end.
Definition from_instance (cfg : config) (inst : list Fr) : res (member_pp * list Gk) :=
  let* _ := assert (zlen inst =? instance_size cfg) "len == instance.len()" in
  let n := Z.to_nat (number_of_members cfg) in
  let* (ga_, l) := read_point inst in
  let* (gs, l) := read_n read_point n l in
  let* (a2, l) := take POINT2_LEN l in
  let* g2a_ := public_to_point2 a2 in
  let* (gr_, l) := read_gk l in
  let* (cs, l) := read_n read_one n l in
  let* (pks, l) := read_n read_gk n l in
  Ok (mkPP gs cs gr_ ga_ g2a_, pks).

Section Lib.
  Variable keccak : bytes -> Z.
  Variable pairing : list (G1 * G2c) -> bool.
  (** Poseidon hash of two elements ([Hash::<_, P128Pow5T3Bn, ConstantLength<2>, 3, 2>]) *)
  Variable poseidon : Fr -> Fr -> Fr.

  (** lib.rs:80-87 *)
  Definition decrypt_share (k : member_key) (gr_ : Gk) (cipher : Fr) : Fr :=
    let pkr := gkmul gr_ (mk_sk k) in
    let key := poseidon (fst (xy pkr)) (snd (xy pkr)) in
    (cipher - key)%fld.

  (** lib.rs:98-119 *)
  Definition dkg_share_key (k : member_key) (cfg : config) (idx : Z) (pps : list member_pp) : res share_key :=
    if (idx <? 1) || (number_of_members cfg <? idx) then Err (InvalidIndex idx) else
    let* sk_ := foldM (fun acc pp => let* c := get (ciphers pp) (idx - 1) in
                                     Ok (acc + decrypt_share k (gr pp) c)%fld) (f0 : Fr) pps in
    Ok (mkShareKey idx sk_ (g1mul g1 sk_)).

  (** lib.rs:166-168 *)
  Definition check_public (pp : member_pp) : res unit := is_dl_equal pairing (ga pp) (g2a pp).

  (** lib.rs:236-292; [coeffs] and [r] are the scalars drawn (threshold many, then one) *)
  Definition member_params_new (cfg : config) (pks : list Gk) (coeffs : list Fr) (r : Fr) : res member_params :=
    let* _ := assert (zlen pks =? number_of_members cfg) "public_keys.len() == number_of_members" in
    let* a0 := get coeffs 0 in
    let ga_ := g1mul g1 a0 in
    let g2a_ := g2mul g2 a0 in
    let* sh := shares (number_of_members cfg) coeffs in
    let pub := map (fun s => g1mul g1 s) sh in
    let* rs := fr_to_fq r in
    let gr_ := gkmul gk rs in
    let* cs := mapM (fun i => let* pk := get pks (Z.of_nat i) in
                              let* s := get sh (Z.of_nat i) in
                              let pkr := gkmul pk rs in
                              let key := poseidon (fst (xy pkr)) (snd (xy pkr)) in
                              Ok (key + s)%fld) (seq 0 (Z.to_nat (number_of_members cfg))) in
    Ok (mkMP cfg coeffs sh r pks (mkPP pub cs gr_ ga_ g2a_)).

  (** lib.rs:332-334 *)
  Definition global_check_public (gpp : global_pp) : res unit := is_dl_equal pairing (g_ga gpp) (g_g2a gpp).

  (** lib.rs:337-364 *)
  Definition dkg_global_public_params (pps : list member_pp) : res global_pp :=
    let* p0 := get pps 0 in
    let rest := skipn 1 pps in
    let ga_ := fold_left (fun acc pp => acc ⊕ ga pp)%grp rest (ga p0) in
    let g2a_ := fold_left (fun acc pp => acc ⊕ g2a pp)%grp rest (g2a p0) in
    let* vks := mapM (fun i => let* v0 := get (public_shares p0) (Z.of_nat i) in
                               foldM (fun acc pp => let* s := get (public_shares pp) (Z.of_nat i) in Ok (acc ⊕ s)%grp) v0 rest)
                     (seq 0 (length (public_shares p0))) in
    Ok (mkGPP ga_ g2a_ vks).
End Lib.
