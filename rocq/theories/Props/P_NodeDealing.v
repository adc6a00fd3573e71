(** C49: what the node service submits as its dealing.
    Every chain of states read from the contract, every directory the parameter cache can be in (earlier runs killed
    anywhere), every json text format and key serialisation that read back what they write, every prover and verifier. *)
From Coq Require Import ZArith String List Bool Lia.
From Verif.Base Require Import Fld Fp EC Primes Curves Group Fermat.
From Verif.Model Require Import Monad Evm Strings Points HashEvm Dkg Lib Serialise Files Cache Client Zkdvrf PairingSol HashSol PseudoRandSol GppSol RealEnv Services.
From Verif.Spec Require Import Dvrf Onchain Histories Serial CacheSpec ClientSpec CircuitSpec ServiceSpec DemoSpec.
From Verif.Proofs Require Import HashProofs OnchainProofs DkgProofs DvrfProofs SerialProofs BytesProofs CacheProofs ClientProofs InstanceProofs ProveProofs PipelineProofs DemoFiles DemoSetup JsonExists.
From Verif.Props Require Import P_Dvrf P_Cache P_Client P_Prove P_Live P_EndToEnd P_Services P_Demo.
Import ListNotations.
Open Scope Z_scope.

Section Dealing.
  Variable keccak : bytes -> Z.
  Variable pairing : list (G1 * G2c) -> bool.
  Variable c : Zkdvrf.cfg.
  Variable poseidon : Fr -> Fr -> Fr.
  Variable J : json.
  Hypothesis HJ : json_ok J.
  Variable lag : list bytes -> Z -> list bytes.
  Hypothesis HL : lagrange_ok lag.
  Variables vkey pkey : Type.
  Variable vk_write : vkey -> bytes.
  Variable vk_read : bytes -> res vkey.
  Variable pk_write : pkey -> bytes.
  Variable pk_read : bytes -> res pkey.
  Variable keygen_vk : kzg -> config -> res vkey.
  Variable keygen_pk : kzg -> vkey -> config -> res pkey.
  Hypothesis HV : serial_ok vk_write vk_read.
  Hypothesis HP : serial_ok pk_write pk_read.
  Variable get_vk : pkey -> vkey.
  Hypothesis HG : forall p v cfg k, keygen_pk p v cfg = Ok k -> get_vk k = v.
  Variable create_proof : kzg -> pkey -> member_params -> list Fr -> Z -> res bytes.
  Variable verify_proof : kzg -> vkey -> bytes -> list Fr -> bool.
  Variable srs : kzg.
  Hypothesis HS : kzg_of_degree 22 srs.
  Variable o : options.
  Hypothesis HO : options_ok c o.
  Notation cfg := (mkConfig (o_threshold o) (o_members o)).
  Notation d := (o_degree o).
  Notation reach := (reached lag vkey pkey vk_write vk_read pk_write pk_read keygen_vk keygen_pk true KZG_PARAMS_DIR srs).
  Notation submit := (node_submit_pp keccak pairing poseidon J lag vkey pkey vk_write vk_read pk_write pk_read keygen_vk keygen_pk get_vk create_proof verify_proof o).

  (** whatever the node submits is the dealing made of the coefficients and randomness drawn to the keys the contract lists,
      at the node's own position, with a proof that verifies under the verification key of this group *)
  Theorem C49_dealing_valid ch coeffs r seed fs w call keys : reach fs -> good_fs fs -> getPkList (ch 0%nat) = map enck keys ->
    submit ch coeffs r seed fs = (w, Ok call) ->
    exists i mp inst proof v, getIndexPlus (ch 1%nat) (o_me o) = Ok i /\ 1 <= i <= o_members o /\
      member_params_new poseidon cfg keys coeffs r = Ok mp /\ instance_of (mp_public_params mp) keys = Ok inst /\
      keygen_vk (params_for lag srs d) cfg = Ok v /\ verify_proof (params_for lag srs d) v proof inst = true /\
      call = SubmitPublicParams (map val_r inst) proof.
  Proof.
    intros R G Pk H. unfold node_submit_pp in H.
    pose proof HO as [P0 U D Ot On Om].
    assert (Hcfg : 0 < Dkg.threshold cfg < 2 ^ 64 /\ 0 < number_of_members cfg < 2 ^ 64) by (cbn [Dkg.threshold number_of_members]; clear -P0 U; lia).
    assert (CR : forall cm s, client keccak pairing poseidon J lag vkey pkey vk_write vk_read pk_write pk_read keygen_vk keygen_pk get_vk create_proof verify_proof o cm s =
       run_command keccak pairing poseidon J lag vkey pkey vk_write vk_read pk_write pk_read keygen_vk keygen_pk get_vk create_proof verify_proof cfg d cm s)
      by (intros; exact (client_run keccak pairing c poseidon J lag vkey pkey vk_write vk_read pk_write pk_read keygen_vk keygen_pk get_vk create_proof verify_proof o HO cm s)).
    apply cb_inv in H as (w1 & [] & w2 & H1 & H & ->). rewrite (js_run (j_points J) MEM_PUBLIC_KEYS_PATH _ fs pl_mpks G) in H1. injection H1 as <-.
    set (fs0 := effects fs _) in H.
    assert (M0 : mpks_file J fs0 keys). { unfold fs0. cbn [effects fold_left]. apply holds_saved; [apply (ok_points J HJ)|]. rewrite Pk, map_map. exact (map_round (fun Q => point_text (enck Q)) to_gk keys gk_text). }
    assert (R0 : reach fs0).
    { apply (R_other _ _ _ _ _ _ _ _ _ _ _ _ fs); [exact R|..]; unfold fs0; cbn [effects fold_left].
      - apply set_other. intros E. apply mpks_not_kzg. rewrite <- E. reflexivity.
      - intros name. apply set_other. intros E. apply mpks_not_kzg. rewrite <- E. reflexivity. }
    clearbody fs0.
    apply cb_inv in H as (w3 & i & w4 & H1 & H & ->). apply li_inv in H1 as [-> Gi]. cbn [effects fold_left app] in H.
    apply cb_inv in H as (w5 & [] & w6 & H1 & H & ->). rewrite CR in H1. cbn [run_command] in H1.
    assert (Hr : CacheProofs.range cfg d) by (unfold CacheProofs.range; clear -Hcfg D; lia).
    assert (N1 : 1 <= number_of_members cfg) by (clear -Hcfg; lia).
    destruct (prove_inv poseidon J lag HL vkey pkey vk_write vk_read pk_write pk_read keygen_vk keygen_pk HV HP get_vk HG create_proof verify_proof srs HS cfg d i coeffs r seed fs0 w5
      (reached_inv lag HL vkey pkey vk_write vk_read pk_write pk_read keygen_vk keygen_pk true HV HP KZG_PARAMS_DIR srs HS fs0 R0) Hr N1 H1)
      as (Hi & mpks & mp & inst & proof & v & w0 & A & B & C & N & F & V & W & Kz & Iz).
    assert (mpks = keys) by exact (holds_fun _ _ _ _ _ _ A M0). subst mpks. clear H1.
    set (s1 := effects fs0 w0) in *.
    assert (E5 : effects fs0 w5 = set (set s1 (proof_path i) (File proof)) (instance_path i) (File (Client.enc (j_strings J) (map write_fr inst)))) by (rewrite Kz, effects_app; reflexivity).
    rewrite E5 in H. set (s2 := set _ (instance_path i) _) in H.
    assert (S1 : s2 (proof_path i) = Some (File proof)) by (unfold s2; rewrite set_other by apply proof_neq_instance; apply set_same).
    assert (S2 : s2 (instance_path i) = Some (File (Client.enc (j_strings J) (map write_fr inst)))) by apply set_same.
    assert (Kq : forall q, nth 2 q 0 = 107 -> s2 q = s1 q).
    { intros q Hq. unfold s2. rewrite !set_other; [reflexivity|intros X; rewrite X in Hq; exact (proof_not_kzg i Hq)|intros X; rewrite X in Hq; exact (instance_not_kzg i Hq)]. }
    assert (I2 : inv lag vkey pkey vk_write pk_write keygen_vk keygen_pk true KZG_PARAMS_DIR srs s2).
    { apply (inv_same lag vkey pkey vk_write pk_write keygen_vk keygen_pk srs s1); [exact Iz|apply Kq; reflexivity|intros name; apply Kq; reflexivity]. }
    clearbody s2.
    apply cb_inv in H as (w7 & [] & w8 & H1 & H & ->). rewrite CR in H1. cbn [run_command] in H1.
    pose proof (verify_writes J lag HL vkey pkey vk_write vk_read pk_write keygen_vk keygen_pk HV verify_proof srs HS cfg d i s2 I2 Hr) as Gw. rewrite H1 in Gw. cbn [fst] in Gw.
    assert (T1 : effects s2 w7 (proof_path i) = Some (File proof)) by (rewrite (good_other lag vkey pkey vk_write pk_write keygen_vk keygen_pk srs _ _ _ Gw (proof_not_kzg i)); exact S1).
    assert (T2 : effects s2 w7 (instance_path i) = Some (File (Client.enc (j_strings J) (map write_fr inst)))) by (rewrite (good_other lag vkey pkey vk_write pk_write keygen_vk keygen_pk srs _ _ _ Gw (instance_not_kzg i)); exact S2).
    apply cb_inv in H as (w9 & zk & w10 & H2 & H & ->). apply rd_inv in H2 as [-> H2]. cbn [effects fold_left app] in H.
    apply cb_inv in H as (w11 & l & w12 & H3 & H & ->). apply lj_inv in H3 as (-> & t & H3 & H3'). cbn [effects fold_left app] in H.
    apply li_inv in H as [_ H]. rewrite T1 in H2. injection H2 as <-. rewrite T2 in H3. injection H3 as <-.
    assert (Q : Ok l = Ok (map write_fr inst)) by (rewrite <- H3'; apply (ok_strings J HJ)). injection Q as ->. rewrite hex_insts in H. cbn [bind] in H. injection H as <-.
    exists i, mp, inst, proof, v. auto 8.
  Qed.
End Dealing.
Print Assumptions C49_dealing_valid.

(** a situation that meets the hypotheses: the degree-22 parameters and the keys of a group of three, cached by an earlier
    run, three keys on the contract, the node at position 2 *)
Definition nd_keys : list Gk := [gk; gkmul gk (fq 2); gk].
Definition nd_cfg : Zkdvrf.cfg := mkCfg 2 3 77 1 1 1 1 0.
Definition nd_chain (s0 : st) : st := set_pkList (map enck nd_keys) (set_addrToNode (fun a => mkNode a true 0 false (a - 101)) s0).
Definition nd_start : fs := set (set (set demo_fs DKG_PROOFS_DIR Dir) KZG_PARAMS_DIR Dir) (params_file KZG_PARAMS_DIR 22) (File (write_custom demo_srs)).
Definition nd_vk : list bool := [false; false].
Definition nd_writes : list (path * bytes) := [(vk_file true KZG_PARAMS_DIR (mkConfig 2 3) 22, bits_write nd_vk); (pk_file true KZG_PARAMS_DIR (mkConfig 2 3) 22, bits_write (true :: nd_vk))].
Lemma nd_kzg_neq q name : nth 2 q 0 <> 107 -> KZG_PARAMS_DIR ++ [47] ++ name <> q.
Proof. intros H E. apply H. rewrite <- E. reflexivity. Qed.
Lemma nd_demo_kzg name : demo_fs (KZG_PARAMS_DIR ++ [47] ++ name) = None.
Proof.
  unfold demo_fs. destruct (existsb _ _) eqn:E; [|reflexivity]. apply existsb_exists in E as (x & I & E). unfold path_eqb in E. destruct (list_eq_dec _ _ _) as [E'|]; [|discriminate].
  exfalso. revert E'. apply nd_kzg_neq. cbn [dirs In] in I. repeat destruct I as [<-|I]; try contradiction; vm_compute; discriminate.
Qed.
Notation nd_reach := (reached demo_lag (list bool) (list bool) bits_write bits_read bits_write bits_read demo_vk demo_pk true KZG_PARAMS_DIR demo_srs).
Lemma nd_started : nd_reach nd_start.
Proof.
  apply R_start; unfold nd_start.
  - rewrite set_other by (rewrite params_file_name; intros E; symmetry in E; exact (in_dir_neq _ _ E)). apply set_same.
  - apply set_same.
  - intros name _ H. rewrite set_other by exact H. rewrite set_other by apply in_dir_neq. rewrite set_other by (apply nd_kzg_neq; vm_compute; discriminate). apply nd_demo_kzg.
Qed.
Lemma nd_none kind : kind = str "vk" \/ kind = str "pk" -> nd_start (key_file true kind KZG_PARAMS_DIR (mkConfig 2 3) 22) = None.
Proof.
  intros K. unfold nd_start. rewrite set_other by (intros E; symmetry in E; revert E; apply C48_params_not_keys; exact K).
  rewrite key_file_name. rewrite set_other by apply in_dir_neq. rewrite set_other by (apply nd_kzg_neq; vm_compute; discriminate). apply nd_demo_kzg.
Qed.
Lemma nd_k : kzg_k demo_srs = 22. Proof. exact (proj1 demo_srs_ok). Qed.
Lemma nd_load : load_or_create_params demo_lag KZG_PARAMS_DIR 22 nd_start = ([], Ok demo_srs).
Proof.
  unfold load_or_create_params. apply (cb_run _ _ nd_start [] (Some demo_srs) []); [|reflexivity].
  unfold try_ok. assert (X : load_params (params_file KZG_PARAMS_DIR 22) 22 nd_start = ([], Ok demo_srs)); [|rewrite X; reflexivity].
  assert (F : nd_start (params_file KZG_PARAMS_DIR 22) = Some (File (write_custom demo_srs))) by apply set_same.
  unfold load_params. apply (cb_run _ _ nd_start [] false []); [unfold is_dir; rewrite F; reflexivity|].
  apply (cb_run _ _ nd_start [] (write_custom demo_srs) []); [apply rd_run; exact F|].
  unfold lift. rewrite (write_len 22 demo_srs ltac:(lia) demo_srs_ok), <- (expected_small 22) by lia. rewrite Z.eqb_refl. cbn [require bind]. rewrite (read_write 22 demo_srs); [reflexivity|lia|exact demo_srs_ok].
Qed.
Lemma nd_dir : nd_start KZG_PARAMS_DIR = Some Dir.
Proof. unfold nd_start. rewrite set_other by (rewrite params_file_name; intros E; symmetry in E; exact (in_dir_neq _ _ E)). apply set_same. Qed.
Lemma nd_use : run_use demo_lag (list bool) (list bool) bits_write bits_read bits_write bits_read demo_vk demo_pk true KZG_PARAMS_DIR (UsePk (mkConfig 2 3) 22) nd_start
  = (nd_writes, Ok (GotPk (list bool) (list bool) (true :: nd_vk))).
Proof.
  assert (Nv := nd_none (str "vk") (or_introl eq_refl)). assert (Np := nd_none (str "pk") (or_intror eq_refl)).
  fold (vk_file true KZG_PARAMS_DIR (mkConfig 2 3) 22) in Nv. fold (pk_file true KZG_PARAMS_DIR (mkConfig 2 3) 22) in Np.
  assert (ID : is_dir KZG_PARAMS_DIR nd_start = ([], Ok true)) by (unfold is_dir; rewrite nd_dir; reflexivity).
  assert (Kv : demo_vk demo_srs (mkConfig 2 3) = Ok nd_vk) by (unfold demo_vk; rewrite nd_k; reflexivity).
  assert (Pv : parent (vk_file true KZG_PARAMS_DIR (mkConfig 2 3) 22) = KZG_PARAMS_DIR) by (vm_compute; reflexivity).
  assert (Pp : parent (pk_file true KZG_PARAMS_DIR (mkConfig 2 3) 22) = KZG_PARAMS_DIR) by (vm_compute; reflexivity).
  set (v := vk_file true KZG_PARAMS_DIR (mkConfig 2 3) 22) in *. set (p := pk_file true KZG_PARAMS_DIR (mkConfig 2 3) 22) in *.
  set (s1 := set nd_start v (File (bits_write nd_vk))).
  assert (Nd : KZG_PARAMS_DIR <> v) by (vm_compute; discriminate). assert (Npv : p <> v) by (vm_compute; discriminate).
  cbn [run_use]. change nd_writes with ([] ++ nd_writes). apply (cb_run _ _ _ _ demo_srs); [exact nd_load|]. cbn [effects fold_left].
  change nd_writes with (nd_writes ++ []). apply (cb_run _ _ _ _ (true :: nd_vk)); [|reflexivity].
  unfold load_or_create_pk. apply (cb_run _ _ _ [] true nd_writes); [exact ID|]. apply (cb_run _ _ _ [] tt nd_writes); [reflexivity|]. cbn [effects fold_left].
  apply (cb_run _ _ _ [] None nd_writes).
  { unfold try_ok. assert (X : load_pk (list bool) bits_read true (mkConfig 2 3) KZG_PARAMS_DIR 22 nd_start = ([], Err "No such file or directory")); [|rewrite X; reflexivity].
    unfold load_pk. apply (cb_run _ _ _ [] true []); [exact ID|]. cbn [effects fold_left]. fold p. unfold cbind, read_file. rewrite Np. reflexivity. }
  cbn [effects fold_left]. change nd_writes with ([(v, bits_write nd_vk)] ++ [(p, bits_write (true :: nd_vk))]). apply (cb_run _ _ _ _ nd_vk).
  - unfold load_or_create_vk. apply (cb_run _ _ _ [] true [(v, bits_write nd_vk)]); [exact ID|]. apply (cb_run _ _ _ [] tt [(v, bits_write nd_vk)]); [reflexivity|]. cbn [effects fold_left].
    apply (cb_run _ _ _ [] None [(v, bits_write nd_vk)]).
    { unfold try_ok. assert (X : load_vk (list bool) bits_read true (mkConfig 2 3) KZG_PARAMS_DIR 22 nd_start = ([], Err "No such file or directory")); [|rewrite X; reflexivity].
      unfold load_vk. apply (cb_run _ _ _ [] true []); [exact ID|]. cbn [effects fold_left]. fold v. unfold cbind, read_file. rewrite Nv. reflexivity. }
    cbn [effects fold_left]. apply (cb_run _ _ _ [] nd_vk [(v, bits_write nd_vk)]); [unfold lift; rewrite Kv; reflexivity|].
    change [(v, bits_write nd_vk)] with ([(v, bits_write nd_vk)] ++ []) at 1. apply (cb_run _ _ _ _ tt); [|reflexivity]. cbn [effects fold_left]. fold v. unfold write_file. rewrite Pv, nd_dir, Nv. reflexivity.
  - cbn [effects fold_left]. fold s1. change [(p, bits_write (true :: nd_vk))] with ([] ++ [(p, bits_write (true :: nd_vk))] ++ []). apply (cb_run _ _ _ [] (true :: nd_vk)); [reflexivity|].
    apply (cb_run _ _ _ _ tt); [|reflexivity]. cbn [effects fold_left]. fold p. unfold write_file. rewrite Pp. unfold s1. rewrite (set_other _ _ _ _ Nd), nd_dir, (set_other _ _ _ _ Npv), Np. reflexivity.
Qed.
Definition nd_fs : fs := effects nd_start nd_writes.
Lemma nd_reached : nd_reach nd_fs.
Proof.
  apply (R_use _ _ _ _ _ _ _ _ _ _ _ _ nd_start (UsePk (mkConfig 2 3) 22)); [exact nd_started|cbn [in_range]; split; [lia|split; reflexivity]|].
  rewrite nd_use. left. exists 2%nat. reflexivity.
Qed.
Lemma nd_dirs q : nd_fs q = Some Dir -> In q (DKG_PROOFS_DIR :: KZG_PARAMS_DIR :: dirs).
Proof.
  unfold nd_fs, nd_writes. cbn [effects fold_left]. unfold nd_start. generalize (write_custom demo_srs). intros b X. apply set_dir in X as [[_ X]|X]; [discriminate X|]. apply set_dir in X as [[_ X]|X]; [discriminate X|]. apply set_dir in X as [[_ X]|X]; [discriminate X|].
  apply set_dir in X as [[-> _]|X]; [right; left; reflexivity|]. apply set_dir in X as [[-> _]|X]; [left; reflexivity|]. right. right.
  unfold demo_fs in X. destruct (existsb (path_eqb q) dirs) eqn:Y; [|discriminate]. apply existsb_exists in Y as (x & I & Y). unfold path_eqb in Y. destruct (list_eq_dec _ _ _) as [->|]; [|discriminate]. exact I.
Qed.
Lemma nd_prepared : prepared bits_read bits_read (mkConfig 2 3) 22 demo_srs nd_vk (true :: nd_vk) nd_fs.
Proof.
  assert (Dr : forall q, In q (DKG_PROOFS_DIR :: KZG_PARAMS_DIR :: dirs) -> nd_fs q = Some Dir).
  { intros q I. unfold nd_fs, nd_writes, nd_start. generalize (write_custom demo_srs). intros b. cbn [dirs In] in I. repeat destruct I as [<-|I]; try contradiction; vm_compute; reflexivity. }
  constructor.
  - constructor; [intros x I; apply Dr; right; right; exact I|]. intros x m X. apply nd_dirs, d_last in X as [X _]. apply X. unfold jp. rewrite !app_assoc. change (str ".json") with ([46; 106; 115; 111] ++ [110]). rewrite app_assoc. apply last_app.
  - apply Dr. left. reflexivity.
  - intros i X. apply nd_dirs, d_last in X as [_ X]. destruct (safe_proof i) as [_ [S|S]]; [|exact (X S)]. unfold proof_path, join in S. cbn [concat] in S. change (str ".dat") with ([46; 100; 97] ++ [116]) in S. rewrite app_nil_r, !app_assoc, last_app in S. discriminate S.
  - apply Dr. right. left. reflexivity.
  - unfold nd_fs, nd_writes, nd_start. generalize (write_custom demo_srs). intros b. vm_compute. reflexivity.
  - exists (bits_write nd_vk). split; [|apply bits_ok]. unfold nd_fs, nd_writes, nd_start. generalize (write_custom demo_srs). intros b. vm_compute. reflexivity.
  - exists (bits_write (true :: nd_vk)). split; [|apply bits_ok]. unfold nd_fs, nd_writes, nd_start. generalize (write_custom demo_srs). intros b. vm_compute. reflexivity.
Qed.
Example C49_dealing_meets pairing s0 : exists w call,
  options_ok nd_cfg (Opts 2 3 22 102) /\ nd_reach nd_fs /\ good_fs nd_fs /\ getPkList (nd_chain s0) = map enck nd_keys /\
  node_submit_pp live_keccak pairing (fun a _ : Fr => a) some_json demo_lag (list bool) (list bool) bits_write bits_read bits_write bits_read demo_vk demo_pk (fun k => tl k)
    (fun _ _ _ _ _ => Ok [1]) (fun _ v p _ => path_eqb p [1] && negb (hd true v)) (Opts 2 3 22 102) (fun _ => nd_chain s0) [fr 11; fr 12] (fr 13) 1 nd_fs = (w, Ok call).
Proof.
  assert (HO : options_ok nd_cfg (Opts 2 3 22 102)) by (constructor; cbn [o_threshold o_members o_degree o_me c_threshold c_number nd_cfg]; try reflexivity; try lia; split; reflexivity).
  destruct (C11_member_instance (fun a _ : Fr => a) (mkConfig 2 3) nd_keys [fr 11; fr 12] (fr 13)) as (mp & inst & Mp & In' & _); [reflexivity|reflexivity|discriminate|].
  pose proof nd_prepared as R. pose proof (pr_fs _ _ _ _ _ _ _ _ R) as G.
  set (w0 := [(MEM_PUBLIC_KEYS_PATH, Client.enc (j_points some_json) (map point_text (getPkList (nd_chain s0))))]). set (fs0 := effects nd_fs w0).
  assert (R0 : prepared bits_read bits_read (mkConfig 2 3) 22 demo_srs nd_vk (true :: nd_vk) fs0) by (apply ready_effects; [constructor; [apply safe_placed, pl_mpks|constructor]|exact R]).
  assert (M0 : mpks_file some_json fs0 nd_keys).
  { unfold fs0, w0. cbn [effects fold_left]. apply holds_saved; [apply (ok_points some_json some_json_ok)|]. change (getPkList (nd_chain s0)) with (map enck nd_keys). rewrite map_map. exact (map_round (fun Q => point_text (enck Q)) to_gk nd_keys gk_text). }
  destruct (submission_run (list bool) (list bool) bits_read bits_read (mkConfig 2 3) 22 demo_srs nd_vk (true :: nd_vk) (fun a _ : Fr => a) some_json some_json_ok demo_lag bits_write bits_write demo_vk demo_pk (fun k => tl k)
    (fun _ _ _ _ _ => Ok [1]) (fun _ v p _ => path_eqb p [1] && negb (hd true v)) (fun _ _ => Ok true)) with (i := 2) (coeffs := [fr 11; fr 12]) (r := fr 13) (seed := 1) (s := fs0) (mpks := nd_keys) (mp := mp) (inst := inst)
    as (proof & _ & _ & Run & _); auto; try lia.
  { intros pks coeffs r mp' inst' seed _ _ _ _. exists [1]. repeat split. }
  { exact demo_srs_ok. } { cbn [number_of_members]. lia. } { cbn [number_of_members]. lia. }
  eexists _, _. split; [exact HO|]. split; [exact nd_reached|]. split; [exact G|]. split; [reflexivity|].
  unfold node_submit_pp. apply (cb_run _ _ nd_fs w0 tt); [exact (js_run _ _ _ _ pl_mpks G)|]. fold fs0.
  change (getIndexPlus (nd_chain s0) (o_me (Opts 2 3 22 102))) with (Ok 2). rewrite lift_ok. etransitivity; [|exact Run].
  apply cbind_ext; [exact (client_run _ _ nd_cfg _ _ _ _ _ _ _ _ _ _ _ _ _ _ _ HO _ _)|]. intros _ s1. apply cbind_ext; [exact (client_run _ _ nd_cfg _ _ _ _ _ _ _ _ _ _ _ _ _ _ _ HO _ _)|]. intros _ s2. reflexivity.
Qed.
Print Assumptions C49_dealing_meets.
