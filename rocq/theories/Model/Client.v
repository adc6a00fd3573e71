(** bin/client.rs, bin/mock.rs and bin/proof.rs: the commands of the client, as programs over the file system.
    The random values a command draws are explicit arguments.  Logging is left out.  [create_dir_all] (lines 317-322) is
    left out: the theorems that need the directories say so.  Halo2 proving and verifying are parameters.  JSON texts
    (serde_json, a dependency) are the codecs of [json]: one encoder and one decoder per type of file. *)
From Coq Require Import ZArith String List Bool.
From Verif.Base Require Import Fld Fp EC Primes Curves Group.
From Verif.Model Require Import Monad Evm Strings Points HashEvm Dkg Lib Serialise Files Cache.
Import ListNotations.
Open Scope Z_scope.

(** client.rs:41-50 *)
Definition KZG_PARAMS_DIR : path := str "./kzg_params".
Definition DATA_DIR : path := str "./data".
Definition MEM_PUBLIC_KEYS_PATH : path := join [DATA_DIR; str "/mpks.json"].
Definition MEMBERS_DIR : path := join [DATA_DIR; str "/members"].
Definition DKG_DIR : path := join [DATA_DIR; str "/dkg"].
Definition DKG_SECRETS_DIR : path := join [DKG_DIR; str "/secrets"].
Definition DKG_PROOFS_DIR : path := join [DKG_DIR; str "/proofs"].
Definition DKG_SHARES_DIR : path := join [DKG_DIR; str "/shares"].
Definition RANDOM_DIR : path := str "./data/random".
Definition member_path (f : bytes) : path := join [MEMBERS_DIR; str "/"; f; str ".json"].
Definition share_path (i : Z) : path := join [DKG_SHARES_DIR; str "/share_"; to_dec i; str ".json"].
Definition secret_path (i : Z) : path := join [DKG_SECRETS_DIR; str "/secret_"; to_dec i; str ".json"].
Definition proof_path (i : Z) : path := join [DKG_PROOFS_DIR; str "/proof_"; to_dec i; str ".dat"].
Definition instance_path (i : Z) : path := join [DKG_PROOFS_DIR; str "/instance_"; to_dec i; str ".json"].
Definition gpk_path : path := join [DKG_DIR; str "/gpk.json"].
Definition vks_path : path := join [DKG_DIR; str "/vks.json"].
Definition gpp_path : path := join [DKG_DIR; str "/gpp.json"].
Definition dkgs_public_path : path := join [DKG_DIR; str "/dkgs_public.json"].
Definition all_instances_path : path := join [DKG_DIR; str "/all_instances.json"].
Definition eval_path (i : Z) : path := join [RANDOM_DIR; str "/eval_"; to_dec i; str ".json"].
Definition evals_path : path := join [RANDOM_DIR; str "/evals.json"].
Definition pseudo_path : path := join [RANDOM_DIR; str "/pseudo.json"].

(** serde_json::to_string / from_str at one type *)
Record codec (A : Type) := Codec { enc : A -> bytes; dec : bytes -> res A }.
Arguments enc {A} _ _.
Arguments dec {A} _ _.
Record json := Json {
  j_points : codec (list s_point); j_point2 : codec s_point2; j_member : codec s_member; j_share : codec s_share;
  j_eval : codec s_eval; j_evals : codec (list s_eval); j_random : codec s_random;
  j_strings : codec (list bytes); j_instances : codec (list (list bytes));
  j_params : codec s_params; j_pps : codec (list s_pp); j_gpp : codec s_gpp }.

(** client.rs:327-353.  u32::from_str: an optional '+', then decimal digits, at least one, value below 2^32 *)
Fixpoint parse_digits (acc : Z) (s : bytes) : option Z :=
  match s with
  | [] => Some acc
  | c :: r => if (48 <=? c) && (c <=? 57) then
                let v := acc * 10 + (c - 48) in if v <? 2 ^ 32 then parse_digits v r else None
              else None
  end.
Definition parse_u32 (s : bytes) : option Z :=
  match s with
  | [] => None
  | 43 :: [] => None
  | 43 :: r => parse_digits 0 r
  | _ => parse_digits 0 s
  end.
Definition env_u32 (env : bytes -> option bytes) (key : bytes) : option Z :=
  match env key with Some v => parse_u32 v | None => None end.
Record params_config := PC { pc_threshold : Z; pc_members : Z; pc_degree : Z }.
Definition get_config (env : bytes -> option bytes) : params_config :=
  match env_u32 env (str "THRESHOLD"), env_u32 env (str "NUMBER_OF_MEMBERS"), env_u32 env (str "DEGREE") with
  | Some t, Some n, Some d => PC t n d
  | _, _, _ => PC 3 5 18
  end.
(** client.rs:161-165, 360 *)
Definition dkg_config (p : params_config) : res config := config_new (pc_threshold p) (pc_members p).

Section Client.
  Variable keccak : bytes -> Z.
  Variable pairing : list (G1 * G2c) -> bool.
  Variable poseidon : Fr -> Fr -> Fr.
  Variable J : json.
  (** the cache of utils.rs and the Halo2 back end; [create_proof params pk params_of_member instance seed] *)
  Variable g_to_lagrange : list bytes -> Z -> list bytes.
  Variables vkey pkey : Type.
  Variable vk_write : vkey -> bytes.
  Variable vk_read : bytes -> res vkey.
  Variable pk_write : pkey -> bytes.
  Variable pk_read : bytes -> res pkey.
  Variable keygen_vk : kzg -> config -> res vkey.
  Variable keygen_pk : kzg -> vkey -> config -> res pkey.
  Variable get_vk : pkey -> vkey.
  Variable create_proof : kzg -> pkey -> member_params -> list Fr -> Z -> res bytes.
  Variable verify_proof : kzg -> vkey -> bytes -> list Fr -> bool.

  Definition load_json {A} (c : codec A) (p : path) : cmd A := do b := read_file p in lift (dec c b).
  Definition save_json {A} (c : codec A) (p : path) (a : A) : cmd unit := write_file p (enc c a).

  (** client.rs:169-176 *)
  Definition save_share (k : share_key) : cmd unit := save_json (j_share J) (share_path (index k)) (of_share k).
  (** client.rs:179-194 *)
  Definition save_gpp (g : global_pp) : cmd unit :=
    do _ := save_json (j_point2 J) gpk_path (sg_g2a (of_gpp g)) in
    save_json (j_points J) vks_path (sg_vks (of_gpp g)).
  (** client.rs:203-217 *)
  Definition save_proof (proof : bytes) (inst : list Fr) (i : Z) : cmd unit :=
    do _ := write_file (proof_path i) proof in
    save_json (j_strings J) (instance_path i) (map write_fr inst).
  (** client.rs:220-236 (g2chip) *)
  Definition public_keys (cfg : config) (inst : list Fr) : res (list Gk) :=
    mapM (fun i => let* x := get inst (5 * number_of_members cfg + 14 + 2 * Z.of_nat i) in
                   let* y := get inst (5 * number_of_members cfg + 14 + 2 * Z.of_nat i + 1) in
                   unwrap (gk_from_xy x y)) (seq 0 (Z.to_nat (number_of_members cfg))).
  (** [Vec<GkG1>::eq] *)
  Fixpoint gk_list_eqb (a b : list Gk) : bool :=
    match a, b with [], [] => true | x :: a', y :: b' => geqb x y && gk_list_eqb a' b' | _, _ => false end.
  Definition check_index (cfg : config) (i : Z) : cmd unit :=
    lift (if (i <? 1) || (number_of_members cfg <? i) then Err "Invalid member index" else Ok tt).
  Definition file_path (file : option bytes) : cmd path :=
    lift (match file with Some f => Ok (member_path f) | None => Err "File path not available" end).

  (** client.rs:389-406, [s] the secret drawn *)
  Definition cmd_keygen (file : option bytes) (s : Fq) : cmd unit :=
    do p := file_path file in
    save_json (j_member J) p (of_member (member_random s)).

  (** proof.rs:47-68 *)
  Definition verify_single (params : kzg) (vk_ : vkey) (proof : bytes) (inst : list Fr) : res unit :=
    assert (verify_proof params vk_ proof inst) "assertion failed: result.is_ok()".
  (** proof.rs:17-45 *)
  Definition create_proof_checked (params : kzg) (pk_ : pkey) (mp : member_params) (inst : list Fr) (seed : Z) : res bytes :=
    let* proof := (match create_proof params pk_ mp inst seed with Ok p => Ok p | _ => Panic "unwrap" end) in
    let* _ := verify_single params (get_vk pk_) proof inst in
    Ok proof.

  (** client.rs:410-449; [coeffs], [r], [seed] the values drawn *)
  Definition cmd_prove (cfg : config) (degree : Z) (i : Z) (coeffs : list Fr) (r : Fr) (seed : Z) : cmd unit :=
    do _ := check_index cfg i in
    do mpks_bytes := load_json (j_points J) MEM_PUBLIC_KEYS_PATH in
    do mpks := lift (mapM to_gk mpks_bytes) in
    do mp := lift (member_params_new poseidon cfg mpks coeffs r) in
    do inst := lift (instance_of (mp_public_params mp) (mp_public_keys mp)) in
    do params := load_or_create_params g_to_lagrange KZG_PARAMS_DIR degree in
    do pk_ := load_or_create_pk vkey pkey vk_write vk_read pk_write pk_read keygen_vk keygen_pk true cfg KZG_PARAMS_DIR params degree in
    do proof := lift (create_proof_checked params pk_ mp inst seed) in
    save_proof proof inst i.

  (** client.rs:451-506 *)
  Definition cmd_verify (cfg : config) (degree : Z) (i : Z) : cmd unit :=
    do _ := check_index cfg i in
    do proof := read_file (proof_path i) in
    do inst_bytes := load_json (j_strings J) (instance_path i) in
    do inst := lift (mapM read_fr inst_bytes) in
    do mpks_bytes := load_json (j_points J) MEM_PUBLIC_KEYS_PATH in
    do mpks := lift (mapM to_gk mpks_bytes) in
    do pks := lift (public_keys cfg inst) in
    do _ := lift (require (gk_list_eqb pks mpks) "Member public keys do not match") in
    do params := load_or_create_params g_to_lagrange KZG_PARAMS_DIR degree in
    do vk_ := load_or_create_vk vkey vk_write vk_read keygen_vk true cfg KZG_PARAMS_DIR params degree in
    lift (verify_single params vk_ proof inst).

  (** client.rs:508-574 (g2chip) *)
  Definition cmd_derive (cfg : config) (index_ : option Z) (file : option bytes) : cmd unit :=
    do insts_bytes := load_json (j_instances J) all_instances_path in
    do insts := lift (mapM (mapM read_fr) insts_bytes) in
    do pps := lift (mapM (fun s => let* (pp, _) := from_instance cfg s in Ok pp) insts) in
    do gpp := lift (dkg_global_public_params pps) in
    do _ := save_gpp gpp in
    match index_ with
    | None => cret tt
    | Some i =>
        do _ := check_index cfg i in
        do p := file_path file in
        do member_bytes := load_json (j_member J) p in
        do member := lift (to_member member_bytes) in
        do share := lift (dkg_share_key poseidon member cfg i pps) in
        do _ := lift (share_key_verify share cfg (verify_keys gpp)) in
        save_share share
    end.

  (** client.rs:578-592, [r] the nonce drawn *)
  Definition cmd_eval (cfg : config) (i : Z) (input : bytes) (r : Fr) : cmd unit :=
    do _ := check_index cfg i in
    do share_bytes := load_json (j_share J) (share_path i) in
    do share := lift (to_share share_bytes) in
    do sigma := lift (evaluate keccak share input r) in
    save_json (j_eval J) (eval_path i) (of_eval sigma).

  (** client.rs:594-610 *)
  Definition cmd_rand_verify (cfg : config) (i : Z) (input : bytes) : cmd unit :=
    do _ := check_index cfg i in
    do sigma_bytes := load_json (j_eval J) (eval_path i) in
    do sigma := lift (to_eval sigma_bytes) in
    do vks_bytes := load_json (j_points J) vks_path in
    do vks := lift (mapM to_g1 vks_bytes) in
    do v := lift (get vks (i - 1)) in
    lift (pe_verify keccak sigma cfg input v).

  (** client.rs:634-643: the loop over the evaluations *)
  Fixpoint collect (cfg : config) (input : bytes) (vks : list G1) (evals : list partial_eval) : res (list partial_eval) :=
    match evals with
    | [] => Ok []
    | e :: tl =>
        let* _ := (if (pe_index e <? 1) || (number_of_members cfg <? pe_index e) then Err "Invalid member index" else Ok tt) in
        let* v := get vks (pe_index e - 1) in
        match pe_verify keccak e cfg input v with
        | Ok _ => let* r := collect cfg input vks tl in Ok (e :: r)
        | Err _ => collect cfg input vks tl
        | Panic m => Panic m
        end
    end.
  (** client.rs:612-665 *)
  Definition cmd_combine (cfg : config) (input : bytes) (skip : bool) : cmd unit :=
    do evals_bytes := load_json (j_evals J) evals_path in
    do evals := lift (mapM to_eval evals_bytes) in
    do gpk_bytes := load_json (j_point2 J) gpk_path in
    do gpk := lift (to_g2 gpk_bytes) in
    do verified := (if skip then cret evals else
                      do vks_bytes := load_json (j_points J) vks_path in
                      do vks := lift (mapM to_g1 vks_bytes) in
                      lift (collect cfg input vks evals)) in
    do _ := lift (if zlen verified <? threshold cfg then Err "Not enough valid partial evaluations" else Ok tt) in
    do pseudo := lift (combine_partial_evaluations keccak cfg (firstn (Z.to_nat (threshold cfg)) verified)) in
    do _ := lift (pr_verify keccak pairing pseudo input gpk) in
    save_json (j_random J) pseudo_path (of_random pseudo).

  (** client.rs:667-685 *)
  Definition cmd_verify_final (input : bytes) : cmd unit :=
    do pseudo_bytes := load_json (j_random J) pseudo_path in
    do pseudo := lift (to_random pseudo_bytes) in
    do gpk_bytes := load_json (j_point2 J) gpk_path in
    do gpk := lift (to_g2 gpk_bytes) in
    lift (pr_verify keccak pairing pseudo input gpk).

  (** [.unwrap()] on a Result *)
  Definition unwrap_res {A} (r : res A) : res A := match r with Ok a => Ok a | Err m => Panic m | Panic m => Panic m end.
  Fixpoint for_each {A} (f : A -> cmd unit) (l : list A) : cmd unit :=
    match l with [] => cret tt | a :: tl => do _ := f a in for_each f tl end.
  Fixpoint mapC {A B} (f : A -> cmd B) (l : list A) : cmd (list B) :=
    match l with [] => cret [] | a :: tl => do b := f a in do bs := mapC f tl in cret (b :: bs) end.
  Definition mock_member_path (i : Z) : path := join [MEMBERS_DIR; str "/member_"; to_dec i; str ".json"].
  (** positions 1, 2, .. beside the elements of a list (enumerate, counted from one) *)
  Definition numbered {A} (l : list A) : list (Z * A) := combine (map Z.of_nat (seq 1 (length l))) l.

  (** mock.rs:102-126; [secrets] the member secrets drawn, one per member *)
  Definition mock_members (secrets : list Fq) : cmd unit :=
    let members := map (fun s => of_member (member_random s)) secrets in
    do _ := save_json (j_points J) MEM_PUBLIC_KEYS_PATH (map sm_pk members) in
    for_each (fun '(i, m) => save_json (j_member J) (mock_member_path i) m) (numbered members).

  Definition one_to (n : Z) : list Z := map Z.of_nat (seq 1 (Z.to_nat n)).
  (** mock.rs:18-57 *)
  Definition save_params (dkgs : list member_params) (pps : list member_pp) (g : global_pp) : cmd unit :=
    do _ := for_each (fun '(i, d) => save_json (j_params J) (secret_path i) (of_params d)) (numbered dkgs) in
    do _ := save_json (j_pps J) dkgs_public_path (map of_pp pps) in
    do _ := save_json (j_gpp J) gpp_path (of_gpp g) in
    do _ := save_json (j_point2 J) gpk_path (sg_g2a (of_gpp g)) in
    save_json (j_points J) vks_path (sg_vks (of_gpp g)).
  (** mock.rs:128-170; [draws] the coefficients and randomness drawn for each member in turn *)
  Definition mock_dkg (cfg : config) (draws : list (list Fr * Fr)) : cmd unit :=
    do members := mapC (fun i => do b := load_json (j_member J) (mock_member_path i) in lift (to_member b)) (one_to (number_of_members cfg)) in
    let mpks := map mk_pk members in
    do dkgs := lift (mapM (fun '(coeffs, r) => unwrap_res (member_params_new poseidon cfg mpks coeffs r)) draws) in
    let pps := map mp_public_params dkgs in
    do insts := lift (mapM (fun d => instance_of (mp_public_params d) (mp_public_keys d)) dkgs) in
    do _ := save_json (j_instances J) all_instances_path (map (map write_fr) insts) in
    do gpp := lift (dkg_global_public_params pps) in
    do _ := save_params dkgs pps gpp in
    do keys := lift (mapM (fun '(i, m) => let* k := unwrap_res (dkg_share_key poseidon m cfg i pps) in
                                          let* _ := unwrap_res (share_key_verify k cfg (verify_keys gpp)) in Ok k) (numbered members)) in
    for_each save_share keys.

  (** mock.rs:172-203; [nonces] the nonces drawn *)
  Definition mock_random (cfg : config) (input : bytes) (nonces : list Fr) : cmd unit :=
    do keys := mapC (fun i => do b := load_json (j_share J) (share_path i) in lift (to_share b)) (one_to (number_of_members cfg)) in
    do gpp_bytes := load_json (j_gpp J) gpp_path in
    do gpp := lift (to_gpp gpp_bytes) in
    do sigmas := lift (mapM (fun '(i, (k, r)) => let* e := evaluate keccak k input r in
                                                 let* v := get (verify_keys gpp) (i - 1) in
                                                 let* _ := unwrap_res (pe_verify keccak e cfg input v) in Ok e) (numbered (combine keys nonces))) in
    do v := lift (if zlen sigmas <? threshold cfg then Panic "range end index out of range" else
                  unwrap_res (combine_partial_evaluations keccak cfg (firstn (Z.to_nat (threshold cfg)) sigmas))) in
    do _ := lift (unwrap_res (pr_verify keccak pairing v input (g_g2a gpp))) in
    do _ := save_json (j_evals J) evals_path (map of_eval sigmas) in
    save_json (j_random J) pseudo_path (of_random v).

  (** client.rs:47-151, 362-688: one run of the client after the configuration is read *)
  Inductive command :=
  | MockMembers (secrets : list Fq) | MockDkg (draws : list (list Fr * Fr)) | MockRandom (input : bytes) (nonces : list Fr)
  | Keygen (file : option bytes) (s : Fq)
  | Prove (i : Z) (coeffs : list Fr) (r : Fr) (seed : Z) | Verify (i : Z) | Derive (i : option Z) (file : option bytes)
  | Eval (i : Z) (input : bytes) (r : Fr) | RandVerify (i : Z) (input : bytes)
  | Combine (input : bytes) (skip : bool) | VerifyFinal (input : bytes).
  Definition run_command (cfg : config) (degree : Z) (c : command) : cmd unit :=
    match c with
    | MockMembers ss => mock_members ss
    | MockDkg draws => mock_dkg cfg draws
    | MockRandom input nonces => mock_random cfg input nonces
    | Keygen file s => cmd_keygen file s
    | Prove i coeffs r seed => cmd_prove cfg degree i coeffs r seed
    | Verify i => cmd_verify cfg degree i
    | Derive i file => cmd_derive cfg i file
    | Eval i input r => cmd_eval cfg i input r
    | RandVerify i input => cmd_rand_verify cfg i input
    | Combine input skip => cmd_combine cfg input skip
    | VerifyFinal input => cmd_verify_final input
    end.
  Definition main (env : bytes -> option bytes) (c : command) : cmd unit :=
    do cfg := lift (dkg_config (get_config env)) in
    run_command cfg (pc_degree (get_config env)) c.
End Client.
