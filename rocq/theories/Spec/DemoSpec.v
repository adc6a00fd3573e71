(** What the demo scripts need before they start (README: the directories and `client setup`), and what they are expected
    to produce. *)
From Coq Require Import ZArith String List Bool.
From Verif.Base Require Import Fld Fp EC Primes Curves Group.
From Verif.Model Require Import Monad Evm Strings Points HashEvm Dkg Lib Serialise Files Cache Client Zkdvrf PairingSol.
From Verif.Spec Require Import Dvrf Onchain Histories CacheSpec ClientSpec.
Import ListNotations.
Open Scope Z_scope.

(** the working directory: the client's directories exist and no file name is taken by a directory; the
    parameters of degree [d] and the keys of the configuration are cached in the parameter directory *)
Record prepared {vkey pkey} (vk_read : bytes -> res vkey) (pk_read : bytes -> res pkey) (cfg : config) (d : Z) (P : kzg) (vk : vkey) (pk : pkey) (s : fs) : Prop := {
  pr_fs : good_fs s;
  pr_proofs : s DKG_PROOFS_DIR = Some Dir;
  pr_dat : forall i, s (proof_path i) <> Some Dir;
  pr_kzg : s KZG_PARAMS_DIR = Some Dir;
  pr_params : s (params_file KZG_PARAMS_DIR d) = Some (File (write_custom P));
  pr_vk : exists b, s (vk_file true KZG_PARAMS_DIR cfg d) = Some (File b) /\ vk_read b = Ok vk;
  pr_pk : exists b, s (pk_file true KZG_PARAMS_DIR cfg d) = Some (File b) /\ pk_read b = Ok pk }.

(** completeness of the proof system: a dealing of [cfg] to any keys gets a proof that the client's verification with
    either copy of the key accepts, and that the verifier [halo2] of the contract accepts too *)
Definition proofs_accepted {vkey pkey} (poseidon : Fr -> Fr -> Fr) (get_vk : pkey -> vkey)
    (create_proof : kzg -> pkey -> member_params -> list Fr -> Z -> res bytes) (verify_proof : kzg -> vkey -> bytes -> list Fr -> bool)
    (halo2 : bytes -> list Z -> res bool) (cfg : config) (P : kzg) (vk : vkey) (pk : pkey) : Prop :=
  forall pks coeffs r mp inst seed, zlen pks = number_of_members cfg -> zlen coeffs = Dkg.threshold cfg ->
    member_params_new poseidon cfg pks coeffs r = Ok mp -> instance_of (mp_public_params mp) pks = Ok inst ->
    exists proof, create_proof P pk mp inst seed = Ok proof /\ verify_proof P (get_vk pk) proof inst = true /\ verify_proof P vk proof inst = true /\
      forallb is_byte proof = true /\ halo2 proof (map val_r inst) = Ok true.

(** the random of a round: the input hashed to the curve, to the power of the group secret *)
Definition random_of (keccak : bytes -> Z) (secret : Fr) (k : Z) (p : prand) : Prop :=
  exists h, hash_to_curve_bn keccak EVAL_PREFIX (round_input k) = Ok h /\
    rproof p = PairingSol.enc (g1mul h secret) /\ be_bytes 32 (rvalue p) = prf_value keccak (g1mul h secret).
