(** What the parameter/key directory is supposed to hold, and how it is used over time. *)
From Coq Require Import ZArith String List Bool.
From Verif.Model Require Import Monad Evm Points Dkg Files Cache.
Import ListNotations.
Open Scope Z_scope.

(** parameters of degree d have 2^d points (64 bytes each) in both bases and two points of 128 bytes *)
Definition kzg_of_degree (d : Z) (p : kzg) : Prop :=
  kzg_k p = d /\ zlen (kzg_g p) = 2 ^ d /\ zlen (kzg_lagrange p) = 2 ^ d /\
  Forall (fun x => length x = 64%nat) (kzg_g p) /\ Forall (fun x => length x = 64%nat) (kzg_lagrange p) /\
  length (kzg_g2 p) = 128%nat /\ length (kzg_s_g2 p) = 128%nat.

Section Spec.
  Variable g_to_lagrange : list bytes -> Z -> list bytes.
  Definition lagrange_ok : Prop := forall d g, 0 <= d -> zlen g = 2 ^ d -> Forall (fun x => length x = 64%nat) g ->
    zlen (g_to_lagrange g d) = 2 ^ d /\ Forall (fun x => length x = 64%nat) (g_to_lagrange g d).

  (** the downloaded parameters, cut down to degree d (kept whole from degree 22 on) *)
  Definition params_for (srs : kzg) (d : Z) : kzg :=
    if d <? 22 then let g := firstn (Z.to_nat (2 ^ d)) (kzg_g srs) in mkKzg d g (g_to_lagrange g d) (kzg_g2 srs) (kzg_s_g2 srs)
    else srs.

  Variables vkey pkey : Type.
  Variable vk_write : vkey -> bytes.
  Variable vk_read : bytes -> res vkey.
  Variable pk_write : pkey -> bytes.
  Variable pk_read : bytes -> res pkey.
  Variable keygen_vk : kzg -> config -> res vkey.
  Variable keygen_pk : kzg -> vkey -> config -> res pkey.
  Variable g2chip : bool.

  (** a serialisation that reads back, and never reads a truncated file as a key *)
  Definition serial_ok {A} (w : A -> bytes) (r : bytes -> res A) : Prop :=
    (forall a, r (w a) = Ok a) /\ (forall a j x, (j < length (w a))%nat -> r (firstn j (w a)) <> Ok x).

  (** how the client uses the directory (bin/client.rs:238-258, 419-441, 487-503): parameters first, then a key *)
  Inductive use := UseParams (d : Z) | UseVk (cfg : config) (d : Z) | UsePk (cfg : config) (d : Z).
  Inductive got := GotParams (p : kzg) | GotVk (k : vkey) | GotPk (k : pkey).
  Definition run_use (dir : path) (u : use) : cmd got :=
    match u with
    | UseParams d => do p := load_or_create_params g_to_lagrange dir d in cret (GotParams p)
    | UseVk cfg d => do p := load_or_create_params g_to_lagrange dir d in
                     do k := load_or_create_vk vkey vk_write vk_read keygen_vk g2chip cfg dir p d in cret (GotVk k)
    | UsePk cfg d => do p := load_or_create_params g_to_lagrange dir d in
                     do k := load_or_create_pk vkey pkey vk_write vk_read pk_write pk_read keygen_vk keygen_pk g2chip cfg dir p d in cret (GotPk k)
    end.
  Definition in_range (u : use) : Prop :=
    match u with
    | UseParams d => 0 <= d < 2 ^ 32
    | UseVk cfg d | UsePk cfg d => 0 <= d < 2 ^ 32 /\ is_usize (threshold cfg) = true /\ is_usize (number_of_members cfg) = true
    end.

  (** the directory after any number of uses, each of which may have been killed at any point, starting from a directory
      that holds nothing but the downloaded parameters; anything outside the directory may change in between *)
  Inductive reached (dir : path) (srs : kzg) : fs -> Prop :=
  | R_start s : s dir = Some Dir -> s (params_file dir 22) = Some (File (write_custom srs)) ->
      (forall name, ~ In 47 name -> dir ++ [47] ++ name <> params_file dir 22 -> s (dir ++ [47] ++ name) = None) -> reached dir srs s
  | R_use s u s' : reached dir srs s -> in_range u -> crashed s (fst (run_use dir u s)) s' -> reached dir srs s'
  | R_other s s' : reached dir srs s -> s' dir = s dir -> (forall name, s' (dir ++ [47] ++ name) = s (dir ++ [47] ++ name)) -> reached dir srs s'.
End Spec.
