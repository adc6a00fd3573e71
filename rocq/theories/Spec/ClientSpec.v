(** What a command of the client may rely on and what it may write. *)
From Coq Require Import ZArith String List Bool.
From Verif.Base Require Import Fld Fp EC Primes Curves Group.
From Verif.Model Require Import Monad Evm Strings Points HashEvm Dkg Lib Serialise Files Cache Client.
Import ListNotations.
Open Scope Z_scope.

(** a text format that reads back, and whose truncated texts are not read as values *)
Definition codec_ok {A} (c : codec A) : Prop :=
  (forall a, dec c (enc c a) = Ok a) /\ (forall a j x, (j < length (enc c a))%nat -> dec c (firstn j (enc c a)) <> Ok x).
Record json_ok (J : json) : Prop := {
  ok_points : codec_ok (j_points J); ok_point2 : codec_ok (j_point2 J); ok_member : codec_ok (j_member J);
  ok_share : codec_ok (j_share J); ok_eval : codec_ok (j_eval J); ok_evals : codec_ok (j_evals J);
  ok_random : codec_ok (j_random J); ok_strings : codec_ok (j_strings J); ok_instances : codec_ok (j_instances J);
  ok_params : codec_ok (j_params J); ok_pps : codec_ok (j_pps J); ok_gpp : codec_ok (j_gpp J) }.

(** the file [p] holds a text that reads as the records of [a] *)
Definition holds {A B} (s : fs) (p : path) (c : codec A) (read : A -> res B) (b : B) : Prop :=
  exists t a, s p = Some (File t) /\ dec c t = Ok a /\ read a = Ok b.

(** pks are the n keys whose coordinates stand at positions 5n+14, 5n+15, .. of the instance *)
Definition names_keys (cfg : config) (inst : list Fr) (pks : list Gk) : Prop :=
  zlen pks = number_of_members cfg /\
  forall k pk, nth_error pks k = Some pk ->
    nth_error inst (Z.to_nat (5 * number_of_members cfg + 14 + 2 * Z.of_nat k)) = Some (fst (xy pk)) /\
    nth_error inst (Z.to_nat (5 * number_of_members cfg + 14 + 2 * Z.of_nat k + 1)) = Some (snd (xy pk)).

Section Files.
  Variable J : json.
  Definition evals_file (s : fs) (l : list partial_eval) := holds s evals_path (j_evals J) (mapM to_eval) l.
  Definition gpk_file (s : fs) (P : G2c) := holds s gpk_path (j_point2 J) to_g2 P.
  Definition vks_file (s : fs) (l : list G1) := holds s vks_path (j_points J) (mapM to_g1) l.
  Definition pseudo_file (s : fs) (p : pseudo_random) := holds s pseudo_path (j_random J) to_random p.
  Definition mpks_file (s : fs) (l : list Gk) := holds s MEM_PUBLIC_KEYS_PATH (j_points J) (mapM to_gk) l.
  Definition instance_file (s : fs) (i : Z) (l : list Fr) := holds s (instance_path i) (j_strings J) (mapM read_fr) l.
  Definition instances_file (s : fs) (l : list (list Fr)) := holds s all_instances_path (j_instances J) (mapM (mapM read_fr)) l.
  Definition member_file (s : fs) (f : bytes) (k : member_key) := holds s (member_path f) (j_member J) to_member k.
  Definition share_file (s : fs) (i : Z) (k : share_key) := holds s (share_path i) (j_share J) to_share k.
  Definition eval_file (s : fs) (i : Z) (e : partial_eval) := holds s (eval_path i) (j_eval J) to_eval e.
End Files.

(** the evaluation is a valid one of the member it names, among the verification keys [vks] *)
Definition valid (keccak : bytes -> Z) (cfg : config) (input : bytes) (vks : list G1) (e : partial_eval) : bool :=
  match nth_error vks (Z.to_nat (pe_index e - 1)) with
  | Some v => is_ok (pe_verify keccak e cfg input v)
  | None => false
  end.
Definition in_members (cfg : config) (e : partial_eval) : Prop := 1 <= pe_index e <= number_of_members cfg.

(** decimal texts of 32-bit numbers: an optional '+', then at least one digit, leading zeros allowed *)
Definition denotes_u32 (t : bytes) (v : Z) : Prop :=
  exists ds, ds <> [] /\ Forall (fun d => 0 <= d <= 9) ds /\
             (t = map (fun d => 48 + d) ds \/ t = 43 :: map (fun d => 48 + d) ds) /\
             v = fold_left (fun a d => a * 10 + d) ds 0 /\ v < 2 ^ 32.

(** the directories the client creates first (client.rs:315-322) exist, and no name ending in .json is a directory *)
Definition jp (d name : bytes) : path := d ++ [47] ++ name ++ str ".json".
Definition dirs : list path := [DATA_DIR; MEMBERS_DIR; DKG_DIR; DKG_SECRETS_DIR; DKG_SHARES_DIR; RANDOM_DIR].
Record good_fs (s : fs) : Prop := { g_dirs : forall d, In d dirs -> s d = Some Dir; g_json : forall d n, s (jp d n) <> Some Dir }.

(** the command succeeds and turns the files [s] into [s'] *)
Definition succeeds (c : cmd unit) (s s' : fs) : Prop := exists w, c s = (w, Ok tt) /\ s' = effects s w.
