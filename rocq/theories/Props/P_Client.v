(** C23-C25, C54: the commands of the client (bin/client.rs, bin/mock.rs).
    Every keccak and Poseidon function, every JSON text format that reads back and whose truncated texts are not read
    ([json_ok]; one exists), every file system. *)
From Coq Require Import ZArith String List Bool Lia Arith.
From Verif.Base Require Import Fld Fp EC Primes Curves Group Fermat.
From Verif.Model Require Import Monad Evm Strings Points HashEvm Dkg Lib Serialise Files Cache Client.
From Verif.Spec Require Import Dvrf CacheSpec ClientSpec.
From Verif.Proofs Require Import HashProofs DkgProofs DvrfProofs PairingExists SerialProofs CacheProofs ClientProofs InstanceProofs PipelineProofs PipelineRuns JsonExists.
From Verif.Props Require Import P_Dvrf.
Import ListNotations.
Open Scope Z_scope.

Section Combine.
  Variable keccak : bytes -> Z.
  Variable pairing : list (G1 * G2c) -> bool.
  Variable J : json.
  Hypothesis HJ : json_ok J.
  Variable cfg : config.
  Hypothesis Hcfg : exists t n, config_new t n = Ok cfg.
  Variable input : bytes.
  Notation combine_at skip s := (cmd_combine keccak pairing J cfg input skip s).
  Notation valid_in vks := (filter (valid keccak cfg input vks)).

  (** C23: either nothing is written and the command fails, or the one file written is pseudo.json with a pseudorandom
      that verifies against the key in gpk.json, combined from the first t of the evaluations in evals.json that verify
      against their member's key in vks.json (from the first t of all of them when told to skip verification) *)
  Theorem C23_only_verified (skip : bool) s w r : combine_at skip s = (w, r) ->
    (w = [] /\ r <> Ok tt) \/
    exists pr gpk evals used, w = [(pseudo_path, enc (j_random J) (of_random pr))] /\ r = Ok tt /\
      gpk_file J s gpk /\ evals_file J s evals /\ pr_verify keccak pairing pr input gpk = Ok tt /\
      threshold cfg <= zlen used /\ combine_partial_evaluations keccak cfg (firstn (Z.to_nat (threshold cfg)) used) = Ok pr /\
      (skip = true -> used = evals) /\
      (skip = false -> exists vks, vks_file J s vks /\ used = valid_in vks evals).
  Proof.
    intros E. apply combine_cases in E as [[-> N]|(evals & gpk & used & pr & He & Hg & C & T & P & V & -> & ->)]; [left; auto|].
    right. exists pr, gpk, evals, used. split; [reflexivity|]. split; [reflexivity|]. split; [exact Hg|]. split; [exact He|]. split; [exact V|]. split; [exact T|]. split; [exact P|]. unfold chosen in C. destruct skip; (split; intros X; [try discriminate X|try discriminate X]).
    - exact C.
    - destruct C as (vks & Hv & _ & ->). exists vks. split; [exact Hv|reflexivity].
  Qed.
  (** fewer than t verifying evaluations: nothing is written *)
  Theorem C23_not_enough s evals vks : evals_file J s evals -> vks_file J s vks -> zlen (valid_in vks evals) < threshold cfg ->
    fst (combine_at false s) = [] /\ snd (combine_at false s) <> Ok tt.
  Proof.
    intros He Hv L. destruct (combine_at false s) as [w r] eqn:E. cbn [fst snd]. apply combine_cases in E as [[-> N]|(ev & gpk & used & pr & He' & Hg & (vks' & Hv' & _ & ->) & T & _)]; [auto|].
    assert (ev = evals) by exact (holds_fun _ _ _ _ _ _ He' He). assert (vks' = vks) by exact (holds_fun _ _ _ _ _ _ Hv' Hv). subst. lia.
  Qed.
  (** invalid evaluations change nothing, wherever they stand *)
  Theorem C23_invalid_ignored s s' evals evals' vks gpk : evals_file J s evals -> evals_file J s' evals' -> vks_file J s vks -> vks_file J s' vks ->
    gpk_file J s gpk -> gpk_file J s' gpk -> s RANDOM_DIR = Some Dir -> s' RANDOM_DIR = Some Dir -> s pseudo_path <> Some Dir -> s' pseudo_path <> Some Dir ->
    zlen vks >= number_of_members cfg -> Forall (in_members cfg) evals -> Forall (in_members cfg) evals' -> valid_in vks evals = valid_in vks evals' ->
    forall pr, combine_at false s = ([(pseudo_path, enc (j_random J) (of_random pr))], Ok tt) -> combine_at false s' = ([(pseudo_path, enc (j_random J) (of_random pr))], Ok tt).
  Proof.
    intros He He' Hv Hv' Hg Hg' D D' N N' L F F' V pr E. apply combine_cases in E as [[X _]|(ev & gp & used & p & Ee & Eg & (vk_ & Ev & Fm & ->) & T & C & P & W & _)]; [discriminate|].
    assert (ev = evals) by exact (holds_fun _ _ _ _ _ _ Ee He). assert (vk_ = vks) by exact (holds_fun _ _ _ _ _ _ Ev Hv). assert (gp = gpk) by exact (holds_fun _ _ _ _ _ _ Eg Hg). subst.
    rewrite W. apply (combine_runs keccak pairing J cfg input false s' evals' gpk (valid_in vks evals')); auto; try (rewrite <- V; auto; fail). exists vks. auto.
  Qed.
  (** enough valid evaluations, the first t of them in increasing order and correct: the command succeeds *)
  Theorem C23_enough s evals vks (secret : Fr) : pairing_ok pairing -> evals_file J s evals -> vks_file J s vks -> gpk_file J s (g2mul g2 secret) ->
    s RANDOM_DIR = Some Dir -> s pseudo_path <> Some Dir -> zlen vks >= number_of_members cfg -> number_of_members cfg < M64 -> Forall (in_members cfg) evals ->
    let used := firstn (Z.to_nat (threshold cfg)) (valid_in vks evals) in
    threshold cfg <= zlen (valid_in vks evals) -> increasing (map pe_index used) ->
    (forall h, hash_to_curve_bn keccak EVAL_PREFIX input = Ok h ->
       gsum (map (fun e => g1mul (pe_value e) (lagrange0 (map pe_index used) (pe_index e))) used) = g1mul h secret) ->
    exists pr, combine_at false s = ([(pseudo_path, enc (j_random J) (of_random pr))], Ok tt) /\ pr_verify keccak pairing pr input (g2mul g2 secret) = Ok tt.
  Proof.
    intros HP He Hv Hg D N L M F used T Inc Sum. pose proof (valid_t cfg Hcfg) as Ht.
    assert (LU : zlen used = threshold cfg). { unfold used, zlen in *. rewrite firstn_length. lia. }
    assert (R : Forall (fun i => 1 <= i <= number_of_members cfg) (map pe_index used)).
    { apply Forall_forall. intros i I. apply in_map_iff in I as (e & <- & I). rewrite Forall_forall in F. apply F. unfold used in I.
      assert (X : forall k (l : list partial_eval), In e (firstn k l) -> In e l) by (intros k l; revert k; induction l as [|a l IH]; intros [|k]; cbn; try tauto; intros [?|?]; eauto).
      apply X in I. apply filter_In in I. tauto. }
    destruct (proj2 (C10_accepts_iff keccak cfg Hcfg used LU) (conj Inc R)) as [pr C].
    destruct (C10_value keccak cfg Hcfg used pr LU M C) as [E1 E2].
    assert (V : pr_verify keccak pairing pr input (g2mul g2 secret) = Ok tt).
    { destruct (C18_hash_total keccak EVAL_PREFIX input) as (h & Hh & _). apply (pr_verify_iff keccak pairing HP pr input secret h Hh). split; [rewrite E1; apply Sum; exact Hh|exact E2]. }
    exists pr. split; [|exact V]. apply (combine_runs keccak pairing J cfg input false s evals (g2mul g2 secret) (valid_in vks evals)); auto. exists vks. auto.
  Qed.
  (** an evaluation naming no member, or the same member twice among the first t valid ones, makes the command fail *)
  Theorem C23_out_of_range s evals : evals_file J s evals -> Exists (fun e => ~ in_members cfg e) evals ->
    fst (combine_at false s) = [] /\ snd (combine_at false s) <> Ok tt.
  Proof.
    intros He X. destruct (combine_at false s) as [w r] eqn:E. cbn [fst snd]. apply combine_cases in E as [[-> N]|(ev & gpk & used & pr & He' & Hg & (vks' & Hv' & F & ->) & _)]; [auto|].
    assert (ev = evals) by exact (holds_fun _ _ _ _ _ _ He' He). subst. apply Exists_exists in X as (e & I & N). rewrite Forall_forall in F. destruct (N (F e I)).
  Qed.
  Theorem C23_duplicate s evals vks : evals_file J s evals -> vks_file J s vks ->
    ~ increasing (map pe_index (firstn (Z.to_nat (threshold cfg)) (valid_in vks evals))) ->
    fst (combine_at false s) = [] /\ snd (combine_at false s) <> Ok tt.
  Proof.
    intros He Hv X. destruct (combine_at false s) as [w r] eqn:E. cbn [fst snd]. apply combine_cases in E as [[-> N]|(ev & gpk & used & pr & He' & Hg & (vks' & Hv' & _ & ->) & T & C & _)]; [auto|].
    assert (ev = evals) by exact (holds_fun _ _ _ _ _ _ He' He). assert (vks' = vks) by exact (holds_fun _ _ _ _ _ _ Hv' Hv). subst.
    destruct X. pose proof (valid_t cfg Hcfg) as Ht. apply (C10_accepts_iff keccak cfg Hcfg (firstn (Z.to_nat (threshold cfg)) (valid_in vks evals))).
    - unfold zlen in *. rewrite firstn_length. lia.
    - eauto.
  Qed.
  (** what is written is accepted by rand verify-final *)
  Theorem C23_then_final skip s w : combine_at skip s = (w, Ok tt) -> cmd_verify_final keccak pairing J input (effects s w) = ([], Ok tt).
  Proof.
    intros E. apply combine_cases in E as [[_ N]|(evals & gpk & used & pr & He & Hg & C & T & P & V & -> & _)]; [destruct (N tt eq_refl)|].
    apply verify_final_iff. exists pr, gpk. split; [|split; [|exact V]].
    - change (pseudo_file J (set s pseudo_path (File (enc (j_random J) (of_random pr)))) pr). apply holds_saved; [apply (ok_random J HJ)|apply random_round].
    - change (gpk_file J (set s pseudo_path (File (enc (j_random J) (of_random pr)))) gpk). apply holds_other; [exact pseudo_neq_gpk|exact Hg].
  Qed.
  (** rand verify-final writes nothing and succeeds exactly when the files hold a pseudorandom verifying against the key *)
  Theorem C23_final_iff s : cmd_verify_final keccak pairing J input s = ([], Ok tt) <->
    exists pr gpk, pseudo_file J s pr /\ gpk_file J s gpk /\ pr_verify keccak pairing pr input gpk = Ok tt.
  Proof. apply verify_final_iff. Qed.
  (** however the command is killed, pseudo.json is the old file, or does not read, or holds a verified pseudorandom *)
  Theorem C23_crash skip s s' pr : crashed s (fst (combine_at skip s)) s' -> pseudo_file J s' pr ->
    s' pseudo_path = s pseudo_path \/ exists gpk, gpk_file J s gpk /\ pr_verify keccak pairing pr input gpk = Ok tt.
  Proof.
    intros C H. destruct (combine_at skip s) as [w r] eqn:E. cbn [fst] in C. apply combine_cases in E as [[-> _]|(evals & gpk & used & p & He & Hg & _ & T & P & V & -> & _)].
    - left. destruct C as [(k & ->)|(w1 & p & b & w2 & j & X & _)]; [rewrite firstn_nil; reflexivity|destruct w1; discriminate].
    - assert (X : s' = s \/ exists j, s' = set s pseudo_path (File (firstn j (enc (j_random J) (of_random p))))).
      { destruct C as [(k & ->)|(w1 & q & b & w2 & j & X & ->)].
        - destruct k as [|k]; [left; reflexivity|]. right. cbn [firstn]. rewrite firstn_nil. exists (length (enc (j_random J) (of_random p))). rewrite firstn_all. reflexivity.
        - destruct w1 as [|a w1]; [|destruct w1; discriminate]. cbn [app] in X. assert (q = pseudo_path) by congruence. assert (b = enc (j_random J) (of_random p)) by congruence. subst. right. exists j. reflexivity. }
      destruct X as [->|(j & ->)]; [left; reflexivity|]. right. exists gpk. split; [exact Hg|]. destruct H as (t & a & Et & Dt & Ft). rewrite set_same in Et. assert (t = firstn j (enc (j_random J) (of_random p))) by congruence. subst t.
      destruct (firstn_torn (enc (j_random J) (of_random p)) j) as [T1|[_ T1]]; [|destruct (proj2 (ok_random J HJ) _ _ a T1 Dt)].
      rewrite T1, (proj1 (ok_random J HJ)) in Dt. assert (a = of_random p) by congruence. subst a. rewrite random_round in Ft. assert (p = pr) by congruence. subst. exact V.
  Qed.
End Combine.

Section Derive.
  Variable keccak : bytes -> Z.
  Variable poseidon : Fr -> Fr -> Fr.
  Variable J : json.
  Hypothesis HJ : json_ok J.
  Variable cfg : config.
  (** C24: a share key is written only when an index in 1..n and a member file were given; its index is that index, its
      verification key is the one at that index of the global parameters computed from the same instances, and those
      parameters are what gpk.json and vks.json now hold *)
  Theorem C24_share_only_verified idx file s w r i b : cmd_derive poseidon J cfg idx file s = (w, r) -> In (share_path i, b) w -> 0 <= i < 2 ^ 64 -> number_of_members cfg < 2 ^ 64 ->
    exists f m k insts pps gpp, idx = Some i /\ file = Some f /\ 1 <= i <= number_of_members cfg /\
      instances_file J s insts /\ mapM (fun x => let* (pp, _) := from_instance cfg x in Ok pp) insts = Ok pps /\ dkg_global_public_params pps = Ok gpp /\
      member_file J s f m /\ dkg_share_key poseidon m cfg i pps = Ok k /\ b = enc (j_share J) (of_share k) /\
      index k = i /\ get (verify_keys gpp) (i - 1) = Ok (vk k) /\ vk k = g1mul g1 (sk k) /\ r = Ok tt /\
      gpk_file J (effects s w) (g_g2a gpp) /\ vks_file J (effects s w) (verify_keys gpp) /\ share_file J (effects s w) i k.
  Proof.
    intros E I Hi Hn. assert (NG : forall j, gpk_path <> share_path j) by (intros j; apply (neq_at 11); rewrite share_11; vm_compute; discriminate).
    assert (NV : forall j, vks_path <> share_path j) by (intros j; apply (neq_at 11); rewrite share_11; vm_compute; discriminate).
    apply derive_cases in E as [[-> _]|(insts & pps & gpp & Hin & Hp & Hg & X)]; [destruct I|].
    destruct X as [(-> & _)|[(-> & _)|(j & f & m & k & -> & -> & R & Hm & Hk & V & -> & ->)]].
    - destruct I as [I|[]]. unfold gpk_write in I. destruct (NG i). congruence.
    - destruct I as [I|[I|[]]]; unfold gpk_write, vks_write in I; [destruct (NG i)|destruct (NV i)]; congruence.
    - assert (Ik : index k = j /\ vk k = g1mul g1 (sk k)).
      { unfold dkg_share_key in Hk. destruct (_ || _)%bool; [discriminate|]. apply bind_ok in Hk as (x & _ & Hk). assert (k = mkShareKey j x (g1mul g1 x)) by congruence. subst. split; reflexivity. }
      destruct Ik as [Ik Vk]. destruct I as [I|[I|[I|[]]]]; unfold gpk_write, vks_write, share_write in I; [destruct (NG i); congruence|destruct (NV i); congruence|].
      assert (Ej : share_path (index k) = share_path i) by congruence. assert (Eb : enc (j_share J) (of_share k) = b) by congruence. clear I.
      apply share_inj in Ej; [|lia|exact Hi]. subst b. assert (Jj : j = i) by congruence. rewrite Jj in *. clear Jj. exists f, m, k, insts, pps, gpp.
      repeat (split; [first [reflexivity|assumption|lia]|]).
      assert (V' : get (verify_keys gpp) (i - 1) = Ok (vk k)).
      { unfold share_key_verify in V. destruct (_ || _)%bool; [discriminate|]. rewrite Ik in V. destruct (get (verify_keys gpp) (i - 1)) as [v| |]; cbn [bind] in V; try discriminate.
        destruct (geqb (vk k) v) eqn:G; [|discriminate]. apply (proj1 (geqb_eq _ _ _)) in G. congruence. }
      split; [exact V'|]. split; [exact Vk|]. split; [reflexivity|].
      change (effects s [gpk_write J gpp; vks_write J gpp; share_write J k]) with
        (set (set (set s gpk_path (File (enc (j_point2 J) (of_g2 (g_g2a gpp))))) vks_path (File (enc (j_points J) (map of_g1 (verify_keys gpp))))) (share_path (index k)) (File (enc (j_share J) (of_share k)))).
      rewrite Ik. split; [|split].
      + apply holds_other; [apply NG|]. apply holds_other; [apply (neq_at 11); vm_compute; discriminate|]. apply holds_saved; [apply (ok_point2 J HJ)|apply g2_round].
      + apply holds_other; [apply NV|]. apply holds_saved; [apply (ok_points J HJ)|]. apply map_round. apply g1_round.
      + apply holds_saved; [apply (ok_share J HJ)|apply share_round; exact Vk].
  Qed.
  (** the command succeeds only after writing all it was asked for; its writes are gpk.json, vks.json, the share, in this order *)
  Theorem C24_order idx file s w r : cmd_derive poseidon J cfg idx file s = (w, r) ->
    let names := match idx with Some i => [gpk_path; vks_path; share_path i] | None => [gpk_path; vks_path] end in
    (exists k, map fst w = firstn k names) /\ (r = Ok tt <-> map fst w = names).
  Proof.
    intros E names. apply derive_cases in E as [[-> N]|(insts & pps & gpp & Hin & Hp & Hg & X)].
    - split; [exists 0%nat; reflexivity|]. split; [intros Y; destruct (N tt Y)|]. unfold names. destruct idx; discriminate.
    - destruct X as [(-> & N)|[(-> & N)|(j & f & m & k & -> & -> & R & Hm & Hk & V & -> & ->)]].
      + split; [exists 1%nat; unfold names; destruct idx; reflexivity|]. split; [intros Y; destruct (N tt Y)|]. unfold names. destruct idx; discriminate.
      + split; [exists 2%nat; unfold names; destruct idx; reflexivity|]. rewrite N. unfold names. destruct idx; split; try discriminate; reflexivity.
      + assert (Ik : index k = j). { unfold dkg_share_key in Hk. destruct (_ || _)%bool; [discriminate|]. apply bind_ok in Hk as (x & _ & Hk). assert (k = mkShareKey j x (g1mul g1 x)) by congruence. subst. reflexivity. }
        unfold names, gpk_write, vks_write, share_write. cbn [map fst]. rewrite Ik. split; [exists 3%nat; reflexivity|]. split; reflexivity.
  Qed.
End Derive.

(** C25 *)
Theorem C25_configured env t n d : (exists a b c, env (str "THRESHOLD") = Some a /\ env (str "NUMBER_OF_MEMBERS") = Some b /\ env (str "DEGREE") = Some c /\
    denotes_u32 a t /\ denotes_u32 b n /\ denotes_u32 c d) -> get_config env = PC t n d.
Proof.
  intros (a & b & c & Ea & Eb & Ec & Da & Db & Dc). unfold get_config, env_u32. rewrite Ea, Eb, Ec. apply parse_u32_iff in Da, Db, Dc. rewrite Da, Db, Dc. reflexivity.
Qed.
Theorem C25_default env : (exists key, In key [str "THRESHOLD"; str "NUMBER_OF_MEMBERS"; str "DEGREE"] /\
    forall a v, env key = Some a -> ~ denotes_u32 a v) -> get_config env = PC 3 5 18.
Proof.
  intros (key & I & N). assert (X : env_u32 env key = None).
  { unfold env_u32. destruct (env key) as [a|] eqn:E; [|reflexivity]. destruct (parse_u32 a) as [v|] eqn:P; [|reflexivity]. apply parse_u32_iff in P. destruct (N a v eq_refl P). }
  unfold get_config. destruct I as [<-|[<-|[<-|[]]]]; rewrite X; [reflexivity| |].
  - destruct (env_u32 env (str "THRESHOLD")); reflexivity.
  - destruct (env_u32 env (str "THRESHOLD")); [destruct (env_u32 env (str "NUMBER_OF_MEMBERS"))|]; reflexivity.
Qed.
Section Main.
  Variable keccak : bytes -> Z.
  Variable pairing : list (G1 * G2c) -> bool.
  Variable poseidon : Fr -> Fr -> Fr.
  Variable J : json.
  Variable lag : list bytes -> Z -> list bytes.
  Variables vkey pkey : Type.
  Variable vk_write : vkey -> bytes.
  Variable vk_read : bytes -> res vkey.
  Variable pk_write : pkey -> bytes.
  Variable pk_read : bytes -> res pkey.
  Variable keygen_vk : kzg -> config -> res vkey.
  Variable keygen_pk : kzg -> vkey -> config -> res pkey.
  Variable get_vk : pkey -> vkey.
  Variable create_proof : kzg -> pkey -> member_params -> list Fr -> Z -> res bytes.
  Variable verify_proof : kzg -> vkey -> bytes -> list Fr -> bool.
  Notation main_ := (main keccak pairing poseidon J lag vkey pkey vk_write vk_read pk_write pk_read keygen_vk keygen_pk get_vk create_proof verify_proof).
  Notation run_ := (run_command keccak pairing poseidon J lag vkey pkey vk_write vk_read pk_write pk_read keygen_vk keygen_pk get_vk create_proof verify_proof).
  (** an invalid pair stops the client before it touches a file; a valid one is what every command uses *)
  Theorem C25_invalid_pair env c s t n d : get_config env = PC t n d -> ~ (0 < t <= n) -> main_ env c s = ([], Err (InvalidParams t n)).
  Proof. intros E N. unfold main, dkg_config. rewrite E. cbn [pc_threshold pc_members]. rewrite C11_config_rejects by exact N. reflexivity. Qed.
  Theorem C25_valid_pair env c s t n d : get_config env = PC t n d -> 0 < t <= n -> main_ env c s = run_ (mkConfig t n) d c s.
  Proof.
    intros E N. unfold main, dkg_config. rewrite E. cbn [pc_threshold pc_members pc_degree].
    rewrite (proj2 (C11_config_iff t n (mkConfig t n))) by (cbn; lia). exact (lift_ok (mkConfig t n) (fun cfg => run_ cfg d c) s).
  Qed.

  (** C54: the whole pipeline of the client *)
  Section Pipeline.
    Hypothesis HP : pairing_ok pairing.
    Hypothesis HJ : json_ok J.
    Variable cfg : config.
    Variable degree : Z.
    Variable secrets : list Fq.
    Variable dealers : list (list Fr * Fr).
    Hypothesis HH : honest cfg (map member_random secrets) dealers.
    Notation step c s s' := (succeeds (run_ cfg degree c) s s').

    Theorem C54_mock_pipeline s0 input nonces (skip : bool) : good_fs s0 -> length nonces = length secrets -> exists s1 s2 s3 s4 h pr,
      step (MockMembers secrets) s0 s1 /\ step (MockDkg dealers) s1 s2 /\ step (MockRandom input nonces) s2 s3 /\
      step (Combine input skip) s3 s4 /\ step (VerifyFinal input) s4 s4 /\
      hash_to_curve_bn keccak EVAL_PREFIX input = Ok h /\ gpk_file J s4 (g2mul g2 (group_secret dealers)) /\ pseudo_file J s3 pr /\ pseudo_file J s4 pr /\
      pr_proof pr = g1mul h (group_secret dealers) /\ pr_value pr = prf_value keccak (g1mul h (group_secret dealers)).
    Proof.
      intros G L. destruct (members_runs J HJ cfg secrets dealers HH s0 G) as (w1 & E1 & P1 & M1 & _).
      pose proof (good_effects w1 P1 s0 G) as G1. set (s1 := effects s0 w1) in *.
      destruct (dkg_runs poseidon J HJ cfg secrets dealers HH s1 G1 M1) as (w2 & E2 & P2 & C2 & D2). pose proof (good_effects w2 P2 s1 G1) as G2. set (s2 := effects s1 w2) in *.
      destruct (random_runs keccak pairing HP poseidon J HJ cfg secrets dealers HH s2 input nonces G2 D2 ltac:(rewrite map_length; exact L)) as (w3 & h & es & E3 & P3 & C3 & (R1 & R2 & A)).
      pose proof (good_effects w3 P3 s2 G2) as G3. set (s3 := effects s2 w3) in *.
      assert (D3 : dkg_files poseidon J cfg secrets dealers s3).
      { apply (dkg_files_ext poseidon J cfg secrets dealers s2); [|exact D2]. intros p Hp. apply (effects_class 114 w3 s2 C3). rewrite Hp. discriminate. }
      pose proof (combine_pipeline keccak pairing HP poseidon J cfg secrets dealers HH s3 input h es skip G3 D3 R1 A) as E4.
      exists s1, s2, s3, (effects s3 [(pseudo_path, enc (j_random J) (of_random (the_random keccak dealers h)))]), h, (the_random keccak dealers h).
      split; [exists w1; auto|]. split; [exists w2; auto|]. split; [exists w3; auto|]. split; [eexists; split; [exact E4|reflexivity]|].
      assert (GP : gpk_file J (effects s3 [(pseudo_path, enc (j_random J) (of_random (the_random keccak dealers h)))]) (g2mul g2 (group_secret dealers))).
      { apply (holds_other s3); [exact pseudo_neq_gpk|]. apply (df_gpk _ _ _ _ _ _ D3). }
      assert (PS : pseudo_file J (effects s3 [(pseudo_path, enc (j_random J) (of_random (the_random keccak dealers h)))]) (the_random keccak dealers h)).
      { apply (holds_saved s3); [apply (ok_random J HJ)|apply random_round]. }
      split; [|split; [exact (ae_h _ _ _ _ _ _ _ A)|]; split; [exact GP|]; split; [exact R2|]; split; [exact PS|]; split; reflexivity].
      exists []. split; [|reflexivity]. apply verify_final_iff. exists (the_random keccak dealers h), (g2mul g2 (group_secret dealers)). split; [exact PS|]. split; [exact GP|].
      exact (proj2 (combine_es keccak pairing HP cfg secrets dealers HH input h es A)).
    Qed.
    (** every member can derive its share, evaluate any input and have the evaluation verified *)
    Theorem C54_member_flow s0 i input r : good_fs s0 -> 1 <= i <= number_of_members cfg -> exists s1 s2 s3 s4 k e h,
      step (MockMembers secrets) s0 s1 /\ step (MockDkg dealers) s1 s2 /\
      step (Derive (Some i) (Some (str "member_" ++ to_dec i))) s2 s3 /\ step (Eval i input r) s3 s4 /\ step (RandVerify i input) s4 s4 /\
      share_file J s3 i k /\ index k = i /\ sk k = fsum (map (fun d => poly_at (fst d) (fr i)) dealers) /\
      hash_to_curve_bn keccak EVAL_PREFIX input = Ok h /\ eval_file J s4 i e /\ pe_index e = i /\ pe_value e = g1mul h (sk k).
    Proof.
      intros G Hi. destruct (members_runs J HJ cfg secrets dealers HH s0 G) as (w1 & E1 & P1 & M1 & _).
      pose proof (good_effects w1 P1 s0 G) as G1. set (s1 := effects s0 w1) in *.
      destruct (dkg_runs poseidon J HJ cfg secrets dealers HH s1 G1 M1) as (w2 & E2 & P2 & C2 & D2). pose proof (good_effects w2 P2 s1 G1) as G2. set (s2 := effects s1 w2) in *.
      assert (I : In i (zseq (length (map member_random secrets)))). { apply in_zseq. pose proof (h_members _ _ _ HH) as HL. unfold zlen in HL. lia. }
      assert (M2 : members_in J secrets s2).
      { intros j m Hm. apply (holds_ext s1); [|apply M1; exact Hm]. apply (effects_class 100 w2 s1 C2). rewrite member_7. discriminate. }
      destruct (derive_pipeline poseidon J HJ cfg secrets dealers HH s2 i G2 M2 D2 I) as (w3 & E3 & P3 & C3 & S3 & V3). pose proof (good_effects w3 P3 s2 G2) as G3. set (s3 := effects s2 w3) in *.
      destruct (eval_pipeline keccak J cfg secrets dealers HH s3 i input r G3 I S3) as (h & Hh & E4).
      set (e := sigma keccak h (key_at dealers i) r) in *. set (s4 := effects s3 [(eval_path i, enc (j_eval J) (of_eval e))]).
      assert (Ev : eval_file J s4 i e). { apply (holds_saved s3); [apply (ok_eval J HJ)|apply eval_round]. }
      assert (V4 : vks_file J s4 (map (fun i => g1mul g1 (total dealers (fr i))) (zseq (length (map member_random secrets))))).
      { apply (holds_other s3); [|exact V3]. apply (neq_at 7). rewrite eval_7. vm_compute. discriminate. }
      exists s1, s2, s3, s4, (key_at dealers i), e, h.
      split; [exists w1; auto|]. split; [exists w2; auto|]. split; [exists w3; auto|]. split; [eexists; split; [exact E4|reflexivity]|].
      split; [exists []; split; [|reflexivity]; exact (rand_verify_pipeline keccak J cfg secrets dealers HH s4 i input h r Hh I Ev V4)|].
      split; [exact S3|]. split; [reflexivity|]. split; [cbn [sk key_at]; unfold total; f_equal; apply map_ext; intros d; symmetry; apply poly_at_peval|].
      split; [exact Hh|]. split; [exact Ev|]. split; reflexivity.
    Qed.
  End Pipeline.
End Main.

(** a concrete environment: the directories exist and are empty, the codec of Proofs/JsonExists.v, three members *)
Definition demo_fs : fs := fun p => if existsb (path_eqb p) dirs then Some Dir else None.
Lemma demo_good : good_fs demo_fs.
Proof.
  constructor.
  - intros d I. unfold demo_fs. rewrite (proj2 (existsb_exists _ _)); [reflexivity|]. exists d. split; [exact I|]. unfold path_eqb. destruct (list_eq_dec _ _ _); congruence.
  - intros d n. unfold demo_fs. destruct (existsb _ _) eqn:E; [|discriminate]. apply existsb_exists in E as (x & I & E). unfold path_eqb in E. destruct (list_eq_dec _ _ _) as [E'|]; [|discriminate].
    intros _. destruct (dir_not_jp x d n I). congruence.
Qed.
Example C54_meets (keccak : bytes -> Z) (poseidon : Fr -> Fr -> Fr) (input : bytes) : exists pairing s pr h, pairing_ok pairing /\
  cmd_verify_final keccak pairing some_json input s = ([], Ok tt) /\ pseudo_file some_json s pr /\
  hash_to_curve_bn keccak EVAL_PREFIX input = Ok h /\ pr_proof pr = g1mul h (group_secret demo_dealers).
Proof.
  destruct pairing_exists as [pairing HP].
  destruct (C54_mock_pipeline keccak pairing poseidon some_json (fun g _ => g) unit unit (fun _ => []) (fun _ => Ok tt) (fun _ => []) (fun _ => Ok tt) (fun _ _ => Ok tt) (fun _ _ _ => Ok tt) (fun _ => tt)
              (fun _ _ _ _ _ => Ok []) (fun _ _ _ _ => true) HP some_json_ok (mkConfig 2 3) 18 [fq 5; fq 6; fq 7] demo_dealers demo_honest demo_fs input [fr 1; fr 2; fr 3] false demo_good eq_refl)
    as (s1 & s2 & s3 & s4 & h & pr & _ & _ & _ & _ & (w & E & X) & Hh & _ & _ & Ps & Pr & _).
  exists pairing, s4, pr, h. split; [exact HP|]. split; [|split; [exact Ps|split; [exact Hh|exact Pr]]].
  cbn [run_command] in E. pose proof (verify_final_writes keccak pairing some_json input s4) as W. rewrite E in W. cbn [fst] in W. subst w. exact E.
Qed.
(** the other hypotheses are met too: a combination that writes, a derivation that writes a share *)
Example C23_meets (keccak : bytes -> Z) (poseidon : Fr -> Fr -> Fr) (input : bytes) : exists pairing s w, pairing_ok pairing /\
  cmd_combine keccak pairing some_json (mkConfig 2 3) input false s = (w, Ok tt) /\ w <> [].
Proof.
  destruct pairing_exists as [pairing HP].
  destruct (C54_mock_pipeline keccak pairing poseidon some_json (fun g _ => g) unit unit (fun _ => []) (fun _ => Ok tt) (fun _ => []) (fun _ => Ok tt) (fun _ _ => Ok tt) (fun _ _ _ => Ok tt) (fun _ => tt)
              (fun _ _ _ _ _ => Ok []) (fun _ _ _ _ => true) HP some_json_ok (mkConfig 2 3) 18 [fq 5; fq 6; fq 7] demo_dealers demo_honest demo_fs input [fr 1; fr 2; fr 3] false demo_good eq_refl)
    as (s1 & s2 & s3 & s4 & h & pr & _ & _ & _ & (w & E & X) & _).
  exists pairing, s3, w. split; [exact HP|]. cbn [run_command] in E. split; [exact E|]. intros ->.
  apply C23_only_verified in E as [[_ N]|(? & ? & ? & ? & W & _)]; [destruct (N eq_refl)|discriminate].
Qed.
Example C24_meets (poseidon : Fr -> Fr -> Fr) : exists s w b, cmd_derive poseidon some_json (mkConfig 2 3) (Some 2) (Some (str "member_" ++ to_dec 2)) s = (w, Ok tt) /\ In (share_path 2, b) w.
Proof.
  destruct pairing_exists as [pairing HP].
  destruct (C54_member_flow (fun _ => 0) pairing poseidon some_json (fun g _ => g) unit unit (fun _ => []) (fun _ => Ok tt) (fun _ => []) (fun _ => Ok tt) (fun _ _ => Ok tt) (fun _ _ _ => Ok tt) (fun _ => tt)
              (fun _ _ _ _ _ => Ok []) (fun _ _ _ _ => true) some_json_ok (mkConfig 2 3) 18 [fq 5; fq 6; fq 7] demo_dealers demo_honest demo_fs 2 [] (fr 1) demo_good ltac:(cbn [number_of_members]; lia))
    as (s1 & s2 & s3 & s4 & k & e & h & _ & _ & (w & E & X) & _).
  cbn [run_command] in E. exists s2, w. pose proof (proj1 (proj2 (C24_order _ _ _ _ _ _ _ _ E)) eq_refl) as N.
  assert (I : In (share_path 2) (map fst w)) by (rewrite N; right; right; left; reflexivity).
  apply in_map_iff in I as ([p b] & P & I). exists b. split; [exact E|]. cbn [fst] in P. rewrite <- P. exact I.
Qed.
Example C25_meets : denotes_u32 (str "+007") 7 /\ get_config (fun k => if path_eqb k (str "DEGREE") then Some (str "12") else if path_eqb k (str "THRESHOLD") then Some (str "2") else if path_eqb k (str "NUMBER_OF_MEMBERS") then Some (str "3") else None) = PC 2 3 12 /\
  get_config (fun k => if path_eqb k (str "DEGREE") then Some (str "12x") else if path_eqb k (str "THRESHOLD") then Some (str "2") else if path_eqb k (str "NUMBER_OF_MEMBERS") then Some (str "3") else None) = PC 3 5 18.
Proof. split; [apply parse_u32_iff; vm_compute; reflexivity|]. split; vm_compute; reflexivity. Qed.

Print Assumptions C23_only_verified.
Print Assumptions C23_enough.
Print Assumptions C23_crash.
Print Assumptions C24_share_only_verified.
Print Assumptions C24_order.
Print Assumptions C25_default.
Print Assumptions C25_valid_pair.
Print Assumptions C54_mock_pipeline.
Print Assumptions C54_member_flow.
Print Assumptions C54_meets.
