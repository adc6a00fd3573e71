(** src/utils.rs:185-388: the directory of setup parameters and keys. *)
From Coq Require Import ZArith String List Bool.
From Verif.Model Require Import Monad Evm Strings Points Dkg Files.
Import ListNotations.
Open Scope Z_scope.

(** halo2 ParamsKZG (a dependency), its points as the raw bytes of SerdeFormat::RawBytesUnchecked (utils.rs:29) *)
Record kzg := mkKzg { kzg_k : Z; kzg_g : list bytes; kzg_lagrange : list bytes; kzg_g2 : bytes; kzg_s_g2 : bytes }.
(** ParamsKZG::write_custom, RawBytesUnchecked *)
Definition write_custom (p : kzg) : bytes :=
  le_bytes 4 (kzg_k p) ++ concat (kzg_g p) ++ concat (kzg_lagrange p) ++ kzg_g2 p ++ kzg_s_g2 p.
(** read_raw_unchecked: exactly that many bytes, or a panic *)
Definition read_raw (n : nat) (b : bytes) : res (bytes * bytes) :=
  if Nat.leb n (length b) then Ok (firstn n b, skipn n b) else Panic "failed to fill whole buffer".
Fixpoint read_raws (count n : nat) (b : bytes) : res (list bytes * bytes) :=
  match count with
  | O => Ok ([], b)
  | S c => let* (x, r) := read_raw n b in let* (l, r') := read_raws c n r in Ok (x :: l, r')
  end.
(** ParamsKZG::read_custom, RawBytesUnchecked: k, then 2^k and 2^k points of 64 bytes, then two of 128; what follows is
    not looked at *)
Definition read_custom (b : bytes) : res kzg :=
  if Nat.ltb (length b) 4 then Err "failed to fill whole buffer" else
  let k := of_be (rev (firstn 4 b)) in
  let n := Z.to_nat (2 ^ k) in
  let* (g, b1) := read_raws n 64 (skipn 4 b) in
  let* (gl, b2) := read_raws n 64 b1 in
  let* (g2, b3) := read_raw 128 b2 in
  let* (sg2, _) := read_raw 128 b3 in
  Ok (mkKzg k g gl g2 sg2).

(** utils.rs:30 *)
Definition MAX_DEGREE : Z := 22.
Definition params_file (dir : path) (degree : Z) : path := join [dir; str "/params"; to_dec degree].
(** utils.rs:229-238; u64 arithmetic of a release build: the shift amount is taken modulo 64 and products wrap *)
Definition expected_len (degree : Z) : Z := (4 + (2 * 2 ^ (degree mod 64)) mod 2 ^ 64 * 64 + 2 * (2 * 64)) mod 2 ^ 64.

(** utils.rs:215-251, serde_format = RawBytesUnchecked *)
Definition load_params (p : path) (degree : Z) : cmd kzg :=
  do d := is_dir p in
  do b := read_file (if d : bool then params_file p degree else p) in
  lift (let* _ := require (zlen b =? expected_len degree) "invalid params file len" in read_custom b).

Section Cache.
  (** G1 FFT of halo2 (a dependency): Lagrange-basis points of the first 2^k points *)
  Variable g_to_lagrange : list bytes -> Z -> list bytes.
  (** ParamsKZG::downsize *)
  Definition downsize (p : kzg) (k : Z) : res kzg :=
    let* _ := assert (k <=? kzg_k p) "assertion failed: k <= self.k" in
    let g := firstn (Z.to_nat (2 ^ k)) (kzg_g p) in
    Ok (mkKzg k g (g_to_lagrange g k) (kzg_g2 p) (kzg_s_g2 p)).

  (** utils.rs:185-212 *)
  Definition load_or_create_params (dir : path) (degree : Z) : cmd kzg :=
    do o := try_ok (load_params (params_file dir degree) degree) in
    match o with
    | Some p => cret p
    | None =>
        do o' := try_ok (load_params (params_file dir MAX_DEGREE) MAX_DEGREE) in
        match o' with
        | Some p =>
            if degree <? MAX_DEGREE then
              do p' := lift (downsize p degree) in
              do _ := write_file (params_file dir degree) (write_custom p') in
              cret p'
            else cret p
        | None => lift (Err "download params22 first")
        end
    end.

  (** VerifyingKey / ProvingKey of halo2 (a dependency): their types, serialisation and generation for a circuit shape *)
  Variables vkey pkey : Type.
  Variable vk_write : vkey -> bytes.
  Variable vk_read : bytes -> res vkey.
  Variable pk_write : pkey -> bytes.
  Variable pk_read : bytes -> res pkey.
  Variable keygen_vk : kzg -> config -> res vkey.
  Variable keygen_pk : kzg -> vkey -> config -> res pkey.
  (** cfg!(feature = "g2chip") *)
  Variable g2chip : bool.

  (** utils.rs:262-266, 290-294, 328-334, 371-377 *)
  Definition key_file (kind : bytes) (dir : path) (cfg : config) (degree : Z) : path :=
    join [dir; str "/"; kind; if g2chip then str "-g2-" else str "-";
          to_dec (threshold cfg); str "-"; to_dec (number_of_members cfg); str "-"; to_dec degree].
  Definition vk_file := key_file (str "vk").
  Definition pk_file := key_file (str "pk").

  (** utils.rs:279-303 *)
  Definition load_vk (cfg : config) (dir : path) (degree : Z) : cmd vkey :=
    do d := is_dir dir in
    do b := read_file (if d : bool then vk_file dir cfg degree else dir) in
    lift (vk_read b).
  (** utils.rs:253-277 *)
  Definition load_pk (cfg : config) (dir : path) (degree : Z) : cmd pkey :=
    do d := is_dir dir in
    do b := read_file (if d : bool then pk_file dir cfg degree else dir) in
    lift (pk_read b).

  (** utils.rs:305-343 *)
  Definition load_or_create_vk (cfg : config) (dir : path) (params : kzg) (degree : Z) : cmd vkey :=
    do d := is_dir dir in
    do _ := lift (require d "invalid file directory") in
    do o := try_ok (load_vk cfg dir degree) in
    match o with
    | Some k => cret k
    | None =>
        do k := lift (match keygen_vk params cfg with Ok k => Ok k | _ => Panic "keygen_vk should not fail" end) in
        do _ := write_file (vk_file dir cfg degree) (vk_write k) in
        cret k
    end.
  (** utils.rs:345-386 *)
  Definition load_or_create_pk (cfg : config) (dir : path) (params : kzg) (degree : Z) : cmd pkey :=
    do d := is_dir dir in
    do _ := lift (require d "invalid file directory") in
    do o := try_ok (load_pk cfg dir degree) in
    match o with
    | Some k => cret k
    | None =>
        do v := load_or_create_vk cfg dir params degree in
        do k := lift (match keygen_pk params v cfg with Ok k => Ok k | _ => Panic "keygen_pk should not fail" end) in
        do _ := write_file (pk_file dir cfg degree) (pk_write k) in
        cret k
    end.
End Cache.
