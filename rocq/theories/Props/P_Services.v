(** C49, C50: the node and admin services on an evolving contract.
    Ranges over both contracts, every environment and history, every option set, every file system and every json text
    format that reads back what it writes. *)
From Coq Require Import ZArith String List Bool Lia.
From Verif.Base Require Import Fld Fp EC Primes Curves Group Fermat.
From Verif.Model Require Import Monad Evm Strings Points HashEvm Dkg Lib Serialise Files Cache Client Zkdvrf PairingSol HashSol PseudoRandSol GppSol RealEnv Services.
From Verif.Spec Require Import Dvrf Onchain Histories Serial CacheSpec ClientSpec ServiceSpec.
From Verif.Proofs Require Import ZkdvrfStep ZkdvrfInv1 ZkdvrfInv2 ZkdvrfInv3 BytesProofs SerialProofs DecimalProofs HashProofs HashSolProofs OnchainProofs VerifyProofs InstanceProofs DkgProofs DvrfProofs PairingExists Forward Setup CacheProofs ClientProofs PipelineProofs PipelineRuns JsonExists ServiceHex ServiceProofs.
From Verif.Props Require Import P_Dvrf P_Onchain P_Contract P_EndToEnd P_Live P_Client.
Import ListNotations.
Open Scope Z_scope.

(** ** C49: when the node evaluates *)
Section Polls.
  Variable v : variant.
  Variable E : env.
  Variable c : Zkdvrf.cfg.
  Notation hist := (Histories.hist v E c).

  (** [round] and [last] have the same number of decimal digits *)
  Definition same_length (a b : Z) : Prop := exists d : nat, 10 ^ Z.of_nat d <= a < 10 ^ Z.of_nat (S d) /\ 10 ^ Z.of_nat d <= b < 10 ^ Z.of_nat (S d).
  (** whenever the round number and the number of the last round it submitted for have one digit, or the same number of
      digits, the node evaluates exactly when the contract is Ready, lists the node as a member, has fewer than [thr]
      evaluations for the round and none of this node *)
  Theorem C49_evaluates o thr tr ch : evolves v E c tr ch ->
    let k := currentRoundNum (ch 2%nat) in let last := lastSubmittedRound (ch 4%nat) (o_me o) in
    (k <= 9 /\ last <= 9) \/ (same_length k last /\ k < 2 ^ 256 /\ last < 2 ^ 256) ->
    ((exists d, node_poll o thr ch = NEvaluate d) <->
     contractPhase (ch 0%nat) = Ready /\ nodeAddress (addrToNode (ch 1%nat) (o_me o)) = o_me o /\ last < k /\
     Z.of_nat (length (evals (tr 3%nat) k)) < thr).
  Proof.
    intros He k last D.
    pose proof (m_last _ _ _ _ _ (inv3 _ _ _ _ _ (chain_hist _ _ _ _ _ He 4%nat)) (o_me o)) as [L0 _]. fold last in L0.
    pose proof (m_last _ _ _ _ _ (inv3 _ _ _ _ _ (chain_hist _ _ _ _ _ He 2%nat)) 0) as K0. fold k in K0. assert (K1 : 0 <= k) by lia. clear K0.
    pose proof (m_cnt _ _ _ _ _ (inv3 _ _ _ _ _ (chain_hist _ _ _ _ _ He 3%nat)) k) as C.
    assert (G : bn_gt k last = (last <? k)).
    { destruct D as [[D1 D2]|((d & D1 & D2) & B1 & B2)]; [apply bn_gt_small; lia|].
      apply bn_gt_same; [change M256 with (2 ^ 256); lia|change M256 with (2 ^ 256); lia|].
      assert (Hd : (S d <= 78)%nat). { destruct (le_lt_dec (S d) 78) as [|H]; [assumption|]. exfalso.
        assert (10 ^ 78 <= 10 ^ Z.of_nat d) by (apply Z.pow_le_mono_r; lia). assert (2 ^ 256 < 10 ^ 78) by reflexivity. lia. }
      rewrite (to_dec_len d k), (to_dec_len d last) by assumption. reflexivity. }
    unfold node_poll. fold k. fold last. rewrite G, C.
    destruct (Z.eqb_spec (nodeAddress (addrToNode (ch 1%nat) (o_me o))) (o_me o)) as [A|A].
    - assert (Z0 : forall (b : bool) (x : node_action), (forall d, x <> NEvaluate d) -> forall d, (if b then NIdle else x) <> NEvaluate d) by (intros [] x H d; [discriminate|apply H]).
      destruct (contractPhase (ch 0%nat)); try (split; [intros [d X]; exfalso; revert X; first [apply Z0|idtac]; discriminate|intros (X & _); discriminate X]).
      destruct (Z.ltb_spec last k), (Z.ltb_spec (Z.of_nat (length (evals (tr 3%nat) k))) thr); cbn [andb]; split; try (intros [? X]; discriminate X); try (intros (_ & _ & ? & ?); lia); eauto 10.
    - split; [intros [? X]; discriminate X|tauto].
  Qed.
  (** the first evaluation derives the keys, the later ones do not *)
  Theorem C49_derives_once o thr ch d : node_poll o thr ch = NEvaluate d -> d = true <-> lastSubmittedRound (ch 4%nat) (o_me o) = 0.
  Proof.
    unfold node_poll. destruct (_ =? _); [|discriminate]. destruct (contractPhase _); try discriminate; try (destruct (status _); discriminate); try (destruct (statusPP _); discriminate).
    destruct (_ && _); [|discriminate]. intros X. assert (Y : d = (lastSubmittedRound (ch 4%nat) (o_me o) =? 0)) by congruence. rewrite Y. apply Z.eqb_eq.
  Qed.
  (** the claim is false at round ten: numbers are compared as decimal strings, and "10" sorts before "2" .. "9" *)
  Theorem C49_stalls_at_ten o thr ch : contractPhase (ch 0%nat) = Ready -> currentRoundNum (ch 2%nat) = 10 ->
    2 <= lastSubmittedRound (ch 4%nat) (o_me o) <= 9 -> node_poll o thr ch = NIdle.
  Proof.
    intros P R L. unfold node_poll. rewrite P, R, bn_gt_ten by exact L. cbn [andb]. destruct (_ =? _); reflexivity.
  Qed.
  (** a deployment in round ten whose members have all submitted in some of the rounds 2..9 is stuck: no node does
      anything, the admin does at most initiate a round, and the contract refuses that *)
  Theorem C49_deadlock tr s : hist tr s -> contractPhase s = Ready -> currentRoundNum s = 10 -> no_random s 10 ->
    roundSubmissionCount s 10 < c_threshold c -> (forall a, In a (map who (registrations tr)) -> 2 <= lastSubmittedRound s a <= 9) ->
    (forall o thr, In (o_me o) (map who (registrations tr)) -> node_poll o thr (fun _ => s) = NIdle) /\
    (forall o now1 now2 start last interval a, configured o s -> In a (admin_poll o now1 now2 start last interval (fun _ => s)) -> a = AInitiate) /\
    (forall a value x, apply v E s (mkTx a value InitiateRandom) <> Ok x).
  Proof.
    intros Hh P R NR T L. split; [|split].
    - intros o thr I. apply C49_stalls_at_ten; auto.
    - intros o now1 now2 start last interval a Cf I. unfold admin_poll in I. rewrite P, R in I.
      assert (Ht : o_threshold o = c_threshold c).
      { unfold configured, check_config in Cf. rewrite (i_t _ _ (inv0 _ _ _ _ _ Hh)) in Cf. destruct (Z.eqb_spec (c_threshold c) (o_threshold o)); [congruence|discriminate]. }
      rewrite Ht, (proj2 (Z.leb_gt (c_threshold c) (roundSubmissionCount s 10)) T), andb_false_r in I.
      destruct (now1 <? start); [destruct I|]. cbn [Z.eqb app] in I. destruct (interval <? _); [|destruct I]. destruct I as [<-|[]]. reflexivity.
    - intros a value [s' ev] X. destruct (apply_ok _ _ _ _ _ _ X) as [_ Rr]. apply no_random_iff in NR.
      inversion Rr; try discriminate. match goal with Hg : currentRoundNum s <> 0 -> _ |- _ => rewrite R in Hg; destruct (Hg ltac:(discriminate) NR) end.
  Qed.
End Polls.

(** such a deployment is reached by nine ordinary rounds in which every member took part *)
Definition stall_dealers : list (list Fr * Fr) := [([fr 11; fr 12; fr 13], fr 13); ([fr 21; fr 22; fr 23], fr 23); ([fr 31; fr 32; fr 33], fr 33)].
Lemma stall_honest : honest (mkConfig 3 3) demo_members stall_dealers.
Proof. constructor; [exists 3, 3; auto|reflexivity|repeat constructor|discriminate|repeat constructor]. Qed.
Definition stall_cfg : Zkdvrf.cfg := mkCfg 3 3 77 1 1 1 1 1000.
Section Stall.
  Variable v : variant.
  Variable poseidon : Fr -> Fr -> Fr.
  Variable ig : G2c -> bool.
  Variable pr : list (G1 * G2c) -> bool.
  Hypothesis HG : in_g2_ok ig.
  Hypothesis HP : pairing_ok pr.
  Let h2 := fun (_ : Z) (_ : bytes) (_ : list Z) => Ok true : res bool.
  Notation E := (real_env live_keccak ig pr h2).
  Notation hist := (Histories.hist v E stall_cfg).
  Lemma stall_deal : deal_all poseidon (mkConfig 3 3) demo_members stall_dealers = Ok (map (pp_of poseidon demo_members) stall_dealers).
  Proof. apply deal_all_ok; [reflexivity|cbn; lia|reflexivity|]. exact (h_coeffs _ _ _ stall_honest). Qed.
  Record ongoing (gpp : global_pp) (k : Z) (tr : list step) (s : st) : Prop := {
    og_hist : hist tr s; og_ready : contractPhase s = Ready; og_owner : owner s = 77; og_reg : map who (registrations tr) = [101; 102; 103];
    og_vk : getVkList s = map enc (verify_keys gpp); og_gpk : getGpk s = enc2 (g_g2a gpp); og_round : currentRoundNum s = k;
    og_done : k = 0 \/ ~ no_random s k; og_last : forall a, In a [101; 102; 103] -> lastSubmittedRound s a = k }.
  Variable pps : list member_pp.
  Variable gpp : global_pp.
  Hypothesis HD : deal_all poseidon (mkConfig 3 3) demo_members stall_dealers = Ok pps.
  Hypothesis HGPP : dkg_global_public_params pps = Ok gpp.
  Lemma ongoing_0 : exists tr s, ongoing gpp 0 tr s.
  Proof.
    pose proof HD as D'. rewrite stall_deal in D'. assert (X : pps = map (pp_of poseidon demo_members) stall_dealers) by congruence. clear D'.
    assert (W : Forall (fun pp => length (public_shares pp) = 3%nat) pps).
    { rewrite X. apply Forall_map, Forall_forall. intros d _. cbn [pp_of public_shares]. rewrite map_length. apply length_zseq. }
    destruct (all_instances (map mk_pk demo_members) pps W) as [insts FI].
    assert (LI : length insts = 3%nat) by (rewrite <- (Forall2_len FI), X, map_length; reflexivity). clear X.
    destruct (construct stall_cfg) as [s0| |] eqn:C; try discriminate.
    destruct (C53_honest_setup v live_keccak ig pr h2 poseidon HG HP stall_cfg _ _ _ stall_honest eq_refl pps gpp HD HGPP s0 [101; 102; 103] insts [[]; []; []]) as (tr & s & H & A & R & O & C0 & Wh & _ & VK & GK); auto.
    - reflexivity.
    - repeat constructor; cbn; intuition lia.
    - repeat constructor; reflexivity.
    - repeat constructor; apply key_neq0; split; reflexivity.
    - destruct insts as [|i1 [|i2 [|i3 [|]]]]; try discriminate. repeat constructor.
    - exists tr, s. pose proof (m_last _ _ _ _ _ (inv3 _ _ _ _ _ H)) as ML. constructor; [exact H|exact R|exact O|exact Wh|exact VK|exact GK|exact C0|left; reflexivity|].
      intros a _. specialize (ML a). lia.
  Qed.
  Lemma all_in (l m : list Z) : NoDup l -> incl l m -> (length m <= length l)%nat -> incl m l.
  Proof. intros N I L. apply NoDup_length_incl; assumption. Qed.
  Lemma ongoing_S k tr s : 0 <= k -> k + 1 < 2 ^ 256 -> ongoing gpp k tr s -> exists tr' s', ongoing gpp (k + 1) tr' s'.
  Proof.
    intros Hk Bk [H R O Wh VK GK Rd Dn La].
    assert (Q : quorum (mkConfig 3 3) [1; 2; 3]) by (split; [reflexivity|]; cbn; repeat constructor; lia).
    destruct (C01_any_quorum live_keccak poseidon _ _ _ stall_honest pr HP [1; 2; 3] (fun _ => fr 9) (round_input (k + 1)) Q) as (h & gpp' & p & Eh & Run & Pp & G2' & _ & Vr).
    rewrite G2' in Vr. destruct (proj1 (pr_verify_iff live_keccak pr HP p (round_input (k + 1)) _ h Eh) Vr) as [_ PV].
    destruct (C53_honest_round v live_keccak ig pr h2 poseidon live_keccak_ok HG HP stall_cfg _ _ _ stall_honest eq_refl eq_refl pps gpp HD HGPP tr s [1; 2; 3] (fun _ => fr 9) (k + 1) gpp' p H R) as (tr' & s' & H' & A' & (S1 & S2 & S3 & S4 & S5) & C' & R' & GR & Cn & _); auto.
    - rewrite O. split; reflexivity.
    - rewrite Wh. repeat constructor; reflexivity.
    - rewrite Rd. exact Dn.
    - lia.
    - rewrite PV, prf_value_word. intros X. apply be_inj in X; [|apply live_keccak_ok|split; [lia|reflexivity]].
      unfold live_keccak in X. pose proof (Z.mod_pos_bound (Z.of_nat (length (word (fst (enc (pr_proof p))) ++ word (snd (enc (pr_proof p)))))) 2 eq_refl). lia.
    - exists (tr ++ tr'), s'. pose proof (inv3 _ _ _ _ _ H') as J3.
      assert (EV : incl [101; 102; 103] (map fst (evals (tr ++ tr') (k + 1)))).
      { apply all_in; [apply (m_nd _ _ _ _ _ J3)| |].
        - intros a I. apply in_map_iff in I as ([b e] & <- & I). destruct (m_ev _ _ _ _ _ J3 (k + 1) b e I) as (i & vk & Z1 & _). rewrite R', Wh in Z1. cbn [fst]. eapply znth_in; eauto.
        - rewrite map_length. rewrite (m_cnt _ _ _ _ _ J3) in Cn. unfold zlen in Cn. cbn [length] in *. lia. }
      constructor; [exact H'|congruence|congruence| |congruence|congruence|exact C'| |].
      + rewrite R'. exact Wh.
      + right. unfold no_random. rewrite GR. discriminate.
      + intros a I. pose proof (m_range _ _ _ _ _ J3 (k + 1) a (EV a I)). pose proof (m_last _ _ _ _ _ J3 a). lia.
  Qed.
  Lemma ongoing_n (n : nat) : Z.of_nat n < 2 ^ 256 -> exists tr s, ongoing gpp (Z.of_nat n) tr s.
  Proof.
    induction n as [|n IH]; intros B; [exact ongoing_0|]. destruct IH as (tr & s & G); [lia|]. rewrite Nat2Z.inj_succ, <- Z.add_1_r. apply (ongoing_S (Z.of_nat n) tr s); [lia|lia|exact G].
  Qed.
End Stall.
Example C49_deadlock_reached v : exists E tr s, hist v E stall_cfg tr s /\ contractPhase s = Ready /\ currentRoundNum s = 10 /\ no_random s 10 /\
  roundSubmissionCount s 10 < c_threshold stall_cfg /\ map who (registrations tr) = [101; 102; 103] /\
  forall a, In a (map who (registrations tr)) -> 2 <= lastSubmittedRound s a <= 9.
Proof.
  destruct in_g2_exists as [ig HG]. destruct pairing_exists as [pr HP]. set (poseidon := fun a _ : Fr => a).
  destruct (C06_dkg_public poseidon _ _ _ stall_honest) as (pps & gpp & D & G & _).
  destruct (ongoing_n v poseidon ig pr HG HP pps gpp D G 9 ltac:(reflexivity)) as (tr & s & [H R O Wh VK GK Rd Dn La]).
  set (E := real_env live_keccak ig pr (fun _ _ _ => Ok true)) in *.
  destruct (C53_round_opens v live_keccak ig pr _ live_keccak_ok stall_cfg tr s H R) as (s1 & ev & A & C1 & (S1 & S2 & S3 & S4 & S5) & Rr1).
  - rewrite O. split; reflexivity.
  - rewrite Rd. reflexivity.
  - rewrite Rd. exact Dn.
  - set (t := mkTx (owner s) 0 InitiateRandom) in *. exists E, (tr ++ [mkStep s t (Ok (s1, ev))]), s1. assert (H1 : hist v E stall_cfg (tr ++ [mkStep s t (Ok (s1, ev))]) s1) by (apply hist_ok; auto).
    pose proof (inv3 _ _ _ _ _ H) as J3. pose proof (inv3 _ _ _ _ _ H1) as J31.
    assert (EV : evals (tr ++ [mkStep s t (Ok (s1, ev))]) 10 = []).
    { rewrite evals_app, evals_one. cbn [what t]. destruct (evals tr 10) as [|[a e] l] eqn:X; [destruct (currentRoundNum s =? 10); reflexivity|].
      pose proof (m_range _ _ _ _ _ J3 10 a) as Y. rewrite X in Y. specialize (Y (or_introl eq_refl)). pose proof (m_last _ _ _ _ _ J3 a). lia. }
    split; [exact H1|]. split; [congruence|]. split; [rewrite C1, Rd; reflexivity|]. split.
    { apply no_random_iff. rewrite Rr1, (r_last _ _ _ _ _ J3 10). destruct (randoms tr 10) as [|p l] eqn:X; [reflexivity|].
      pose proof (r_range _ _ _ _ _ J3 10) as Y. rewrite X in Y. specialize (Y ltac:(discriminate)). lia. }
    split; [rewrite (m_cnt _ _ _ _ _ J31), EV; reflexivity|]. rewrite registrations_app, registrations_one. cbn [what t]. rewrite app_nil_r. split; [exact Wh|].
    rewrite Wh. intros a I. specialize (La a I). assert (L : lastSubmittedRound s1 a = lastSubmittedRound s a); [|lia].
    destruct (apply_ok _ _ _ _ _ _ A) as [_ Rt]. inversion Rt; try discriminate. destruct (is_pre v); [match goal with Hx : exists h, _ |- _ => destruct Hx as (hh & _ & Hx); subst end|subst]; reflexivity.
Qed.

(** ** the programs the services start *)
Lemma read_insts insts : mapM (mapM read_fr) (map (map to_hex_string) (map (map val_r) insts)) = Ok insts.
Proof.
  induction insts as [|l insts IH]; [reflexivity|]. cbn [map mapM].
  assert (X : mapM read_fr (map to_hex_string (map val_r l)) = Ok l).
  { clear IH. induction l as [|x l IH]; [reflexivity|]. cbn [map mapM].
    assert (Y : read_fr (to_hex_string (val_r x)) = Ok x).
    { unfold read_fr, val_r. rewrite (read_text r_mod _ r0 (fval_range r_mod x r0) r256). rewrite of_Z_fval. reflexivity. }
    rewrite Y. cbn [bind]. rewrite IH. reflexivity. }
  rewrite X. cbn [bind]. rewrite IH. reflexivity.
Qed.
Lemma js_write_good {A B} (cd : codec A) p a (k : unit -> cmd B) s : placed p -> good_fs s ->
  cbind (js_write cd p a) k s = let '(w, r) := k tt (set s p (File (Client.enc cd a))) in ((p, Client.enc cd a) :: w, r).
Proof.
  intros P G. pose proof (proj1 (placed_save cd p a s P G)) as X. unfold save_json in X. unfold cbind, js_write. rewrite X. reflexivity.
Qed.
Lemma load_raw {A B} (cd : codec A) p a (k : A -> cmd B) s : codec_ok cd -> s p = Some (File (Client.enc cd a)) -> cbind (load_json cd p) k s = k a s.
Proof.
  intros [C _] F. unfold load_json, cbind, read_file, lift. rewrite F. cbn [effects fold_left app]. rewrite C. cbn [effects fold_left app]. destruct (k a s). reflexivity.
Qed.
Definition eval_call (e : s_eval) : res call :=
  let* value := point_arg (se_value e) in let* z := hex_num (se_z e) in let* c := hex_num (se_c e) in Ok (SubmitPartialEval (mkPeval (se_index e) value z c)).
Lemma eval_call_of e : eval_call (of_eval e) = Ok (SubmitPartialEval (mkPeval (pe_index e) (PairingSol.enc (pe_value e)) (val_r (pe_z e)) (val_r (pe_c e)))).
Proof. unfold eval_call, of_eval. cbn [se_value se_z se_c se_index]. rewrite point_arg_g1. cbn [bind]. rewrite hex_fr. cbn [bind]. rewrite hex_fr. reflexivity. Qed.
Lemma lift_run {A} (x : res A) s : lift x s = ([], x).
Proof. reflexivity. Qed.
Lemma increasing_firstn : forall l n, increasing l -> increasing (firstn n l).
Proof.
  induction l as [|a [|b l] IH]; intros [|[|n]] H; try exact I. destruct H as [H1 H2]. split; [exact H1|]. exact (IH (S n) H2).
Qed.
Lemma Forall_firstn {A} (P : A -> Prop) n l : Forall P l -> Forall P (firstn n l).
Proof. intros H. apply Forall_forall. intros x I. rewrite Forall_forall in H. apply H. rewrite <- (firstn_skipn n l). apply in_or_app. auto. Qed.
Section Programs.
  Variable v : variant.
  Variable keccak : bytes -> Z.
  Variable in_g2 : G2c -> bool.
  Variable pairing : list (G1 * G2c) -> bool.
  Variable halo2 : Z -> bytes -> list Z -> res bool.
  Hypothesis K : keccak_ok keccak.
  Hypothesis HG : in_g2_ok in_g2.
  Hypothesis HP : pairing_ok pairing.
  Variable c : Zkdvrf.cfg.
  Notation E := (real_env keccak in_g2 pairing halo2).
  Notation hist := (Histories.hist v E c).
  Variable poseidon : Fr -> Fr -> Fr.
  Variable J : json.
  Hypothesis HJ : json_ok J.
  Variable lag : list bytes -> Z -> list bytes.
  Variables vkey pkey : Type.
  Variable vk_write : vkey -> bytes.
  Variable vk_read : bytes -> res vkey.
  Variable pk_write : pkey -> bytes.
  Variable pk_read : bytes -> res pkey.
  Variable keygen_vk : kzg -> config -> res vkey.
  Variable keygen_pk : kzg -> vkey -> config -> res pkey.
  Variable get_vk : pkey -> vkey.
  Variable create_proof : kzg -> pkey -> member_params -> list Fr -> Z -> res bytes.
  Variable verify_proof : kzg -> vkey -> bytes -> list Fr -> bool.
  Variable addr_text : Z -> bytes.
  Variable o : options.
  Notation client_ := (client keccak pairing poseidon J lag vkey pkey vk_write vk_read pk_write pk_read keygen_vk keygen_pk get_vk create_proof verify_proof o).
  Notation node_derive_ := (node_derive keccak pairing poseidon J lag vkey pkey vk_write vk_read pk_write pk_read keygen_vk keygen_pk get_vk create_proof verify_proof addr_text o).
  Notation node_submit_eval_ := (node_submit_eval keccak pairing poseidon J lag vkey pkey vk_write vk_read pk_write pk_read keygen_vk keygen_pk get_vk create_proof verify_proof o).
  Notation node_register_ := (node_register keccak pairing poseidon J lag vkey pkey vk_write vk_read pk_write pk_read keygen_vk keygen_pk get_vk create_proof verify_proof addr_text o).
  Notation admin_create_gpp_ := (admin_create_gpp keccak pairing poseidon J lag vkey pkey vk_write vk_read pk_write pk_read keygen_vk keygen_pk get_vk create_proof verify_proof o).
  Notation admin_create_random_ := (admin_create_random keccak pairing poseidon J lag vkey pkey vk_write vk_read pk_write pk_read keygen_vk keygen_pk get_vk create_proof verify_proof o).
  Notation run_ := (run_command keccak pairing poseidon J lag vkey pkey vk_write vk_read pk_write pk_read keygen_vk keygen_pk get_vk create_proof verify_proof).

  (** the options agree with the contract, and the pair is one the client accepts *)
  Record options_ok : Prop := {
    oo_pair : 0 < o_threshold o <= o_members o; oo_u32 : o_members o < 2 ^ 32; oo_deg : 0 <= o_degree o < 2 ^ 32;
    oo_t : o_threshold o = c_threshold c; oo_n : o_members o = c_number c; oo_me : 0 < o_me o < M160 }.
  Hypothesis HO : options_ok.
  Notation cfg := (mkConfig (o_threshold o) (o_members o)).
  Lemma client_run cm s : client_ cm s = run_ cfg (o_degree o) cm s.
  Proof.
    destruct HO as [P U D _ _ _]. unfold client. apply C25_valid_pair; [|lia]. apply services_config; lia.
  Qed.
  Lemma client_bind {B} cm (k : unit -> cmd B) s : cbind (client_ cm) k s = cbind (run_ cfg (o_degree o) cm) k s.
  Proof. unfold cbind. rewrite client_run. reflexivity. Qed.
  Lemma cbind_ok {A B} (m : cmd A) (k : A -> cmd B) s w a : m s = (w, Ok a) -> cbind m k s = let '(w', r) := k a (effects s w) in (w ++ w', r).
  Proof. intros H. unfold cbind. rewrite H. reflexivity. Qed.

  Lemma index_of tr s i : hist tr s -> znth (map who (registrations tr)) i = Some (o_me o) -> getIndexPlus s (o_me o) = Ok (i + 1) /\ 0 <= i < c_number c.
  Proof.
    intros Hh Z. assert (R : 0 <= i < c_number c).
    { apply znth_range in Z. pose proof (inv1 _ _ _ _ _ Hh) as J1. pose proof (j_le _ _ _ _ J1). pose proof (NoDup_incl_length (j_rnd _ _ _ _ J1) (j_rin _ _ _ _ J1)). rewrite map_length in *. lia. }
    split; [|exact R]. rewrite znth_map in Z. destruct (znth (registrations tr) i) as [x|] eqn:X; [|discriminate]. cbn [option_map] in Z. assert (Y : who x = o_me o) by congruence.
    destruct (C27_registered_members v E c tr s Hh) as (_ & _ & _ & _ & H & _). rewrite <- Y. apply (H i x X). exact R.
  Qed.

  (** a node holding its share key and the contract's verification keys: running the evaluation program gives a
      transaction that the contract accepts *)
  Lemma evaluation_made tr s i fs r (k : share_key) vks : hist tr s -> let n := currentRoundNum s in 1 <= n ->
    znth (map who (registrations tr)) i = Some (o_me o) ->
    good_fs fs -> share_file J fs (i + 1) k -> vks_file J fs vks -> index k = i + 1 ->
    vk k = g1mul g1 (sk k) -> znth vks i = Some (vk k) ->
    exists e, let w := [(eval_path (i + 1), Client.enc (j_eval J) (of_eval e))] in
      let call := SubmitPartialEval (mkPeval (pe_index e) (enc (pe_value e)) (val_r (pe_z e)) (val_r (pe_c e))) in
      evaluate keccak k (round_input n) r = Ok e /\ pe_verify keccak e cfg (round_input n) (vk k) = Ok tt /\ pe_index e = i + 1 /\
      node_submit_eval_ (fun _ => s) r fs = (w, Ok call).
  Proof.
    intros Hh n Hn Zi G Sf Vf Ix Vsk Zv. destruct (index_of tr s i Hh Zi) as [Gi Ri]. destruct HO as [P U D Ot On Om].
    assert (Inp : roundInput s n = round_input n). { destruct (C31_rounds v E c tr s Hh) as (_ & _ & _ & _ & H & _). apply (H n). unfold n in *. lia. }
    destruct (evaluate_ok keccak k (round_input n) r) as (h' & _ & Ev). set (e := mkPartialEval _ _ _ _) in Ev.
    assert (Pv : pe_verify keccak e cfg (round_input n) (vk k) = Ok tt).
    { apply (evaluate_verifies keccak k (round_input n) r); [exact Vsk| |exact Ev]. cbn [number_of_members]. lia. }
    assert (Ie : pe_index e = i + 1) by exact Ix. clearbody e.
    set (W := [(eval_path (i + 1), Client.enc (j_eval J) (of_eval e))]).
    assert (CI : forall (k : unit -> cmd unit) st, cbind (check_index cfg (i + 1)) k st = k tt st).
    { intros k0 st. unfold check_index. cbn [number_of_members]. rewrite (proj2 (Z.ltb_ge (i + 1) 1)), (proj2 (Z.ltb_ge (o_members o) (i + 1))) by lia. cbn [orb]. apply lift_ok. }
    assert (E1 : run_ cfg (o_degree o) (Eval (i + 1) (round_input n) r) fs = (W, Ok tt)).
    { cbn [run_command]. unfold cmd_eval. rewrite CI, (load_ok _ _ _ _ _ _ Sf), Ev, lift_ok. apply placed_save; [apply pl_eval; lia|exact G]. }
    set (fs1 := effects fs W). assert (G1' : good_fs fs1) by (apply good_effects; [repeat constructor; apply pl_eval; cbn; lia|exact G]).
    assert (Ef : eval_file J fs1 (i + 1) e) by (apply holds_saved; [apply (ok_eval J HJ)|apply eval_round]).
    assert (Vf1 : vks_file J fs1 vks). { revert Vf. apply holds_ext. unfold fs1, W. cbn [effects fold_left]. rewrite set_other; [reflexivity|]. apply (neq_at 7). rewrite eval_7. vm_compute. discriminate. }
    assert (Gv : get vks (i + 1 - 1) = Ok (vk k)).
    { replace (i + 1 - 1) with i by lia. unfold znth in Zv. destruct (Z.ltb_spec i 0); [lia|]. apply get_ok; [lia|exact Zv]. }
    assert (E2 : run_ cfg (o_degree o) (RandVerify (i + 1) (round_input n)) fs1 = ([], Ok tt)).
    { cbn [run_command]. unfold cmd_rand_verify. rewrite CI, (load_ok _ _ _ _ _ _ Ef), (load_ok _ _ _ _ _ _ Vf1), Gv, lift_ok. unfold lift. rewrite Pv. reflexivity. }
    exists e. cbv zeta. split; [exact Ev|]. split; [exact Pv|]. split; [exact Ie|].
    unfold node_submit_eval. fold n. rewrite Inp, Gi, lift_ok, client_bind. rewrite (cbind_ok _ _ _ _ _ E1). fold fs1. rewrite client_bind, (cbind_ok _ _ _ _ _ E2). cbn [effects fold_left].
    rewrite (load_raw (j_eval J) (eval_path (i + 1)) (of_eval e)); [|apply (ok_eval J HJ)|unfold fs1, W; cbn [effects fold_left]; apply set_same].
    rewrite lift_run. change (let* value := point_arg (se_value (of_eval e)) in _) with (eval_call (of_eval e)). rewrite eval_call_of. reflexivity.
  Qed.
  Lemma evaluation_accepted tr s i fs r (k : share_key) vks : hist tr s -> let n := currentRoundNum s in 1 <= n -> no_random s n ->
    znth (map who (registrations tr)) i = Some (o_me o) -> ~ In (o_me o) (map fst (evals tr n)) ->
    good_fs fs -> share_file J fs (i + 1) k -> vks_file J fs vks -> getVkList s = map enc vks -> index k = i + 1 ->
    vk k = g1mul g1 (sk k) -> znth vks i = Some (vk k) ->
    exists e s' ev, let w := [(eval_path (i + 1), Client.enc (j_eval J) (of_eval e))] in
      let call := SubmitPartialEval (mkPeval (pe_index e) (enc (pe_value e)) (val_r (pe_z e)) (val_r (pe_c e))) in
      evaluate keccak k (round_input n) r = Ok e /\ node_submit_eval_ (fun _ => s) r fs = (w, Ok call) /\ apply v E s (mkTx (o_me o) 0 call) = Ok (s', ev) /\
      roundSubmissionCount s' n = roundSubmissionCount s n + 1 /\ same_setup s s' /\ currentRoundNum s' = currentRoundNum s /\ roundToRandom s' = roundToRandom s.
  Proof.
    intros Hh n Hn NR Zi NI G Sf Vf Vk Ix Vsk Zv. destruct (evaluation_made tr s i fs r k vks Hh Hn Zi G Sf Vf Ix Vsk Zv) as (e & X). cbv zeta in X. destruct X as (Ev & Pv & Ie & X).
    destruct HO as [P U D Ot On Om].
    destruct (C53_evaluation_accepted v keccak in_g2 pairing halo2 K c tr s n i (o_me o) (vk k) cfg e Hh eq_refl Hn NR Zi Om NI) as (s' & ev & A & Cn & Ss & Rn & Rr); [rewrite Vk, znth_map, Zv; reflexivity|exact On|exact Ie|exact Pv|].
    exists e, s', ev. cbv zeta. split; [exact Ev|]. split; [exact X|auto 6].
  Qed.
  Theorem C49_evaluation_accepted tr s i fs r (k : share_key) vks : hist tr s -> let n := currentRoundNum s in 1 <= n -> no_random s n ->
    znth (map who (registrations tr)) i = Some (o_me o) -> ~ In (o_me o) (map fst (evals tr n)) ->
    good_fs fs -> share_file J fs (i + 1) k -> vks_file J fs vks -> getVkList s = map enc vks -> index k = i + 1 ->
    vk k = g1mul g1 (sk k) -> znth vks i = Some (vk k) ->
    exists w call s' ev, node_submit_eval_ (fun _ => s) r fs = (w, Ok call) /\ apply v E s (mkTx (o_me o) 0 call) = Ok (s', ev) /\
      roundSubmissionCount s' n = roundSubmissionCount s n + 1.
  Proof.
    intros Hh n Hn NR Zi NI G Sf Vf Vk Ix Vsk Zv. destruct (evaluation_accepted tr s i fs r k vks Hh Hn NR Zi NI G Sf Vf Vk Ix Vsk Zv) as (e & s' & ev & X). cbv zeta in X. destruct X as (_ & X1 & X2 & X3 & _).
    eexists _, _, s', ev. split; [exact X1|]. split; [exact X2|exact X3].
  Qed.

  Lemma share_facts m i pps k gpp : dkg_share_key poseidon m cfg i pps = Ok k -> share_key_verify k cfg (verify_keys gpp) = Ok tt ->
    index k = i /\ vk k = g1mul g1 (sk k) /\ get (verify_keys gpp) (i - 1) = Ok (vk k).
  Proof.
    intros Hk V. assert (Ik : index k = i /\ vk k = g1mul g1 (sk k)).
    { unfold dkg_share_key in Hk. destruct (_ || _)%bool; [discriminate|]. apply bind_ok in Hk as (x & _ & Hk). assert (X : k = mkShareKey i x (g1mul g1 x)) by congruence. rewrite X. split; reflexivity. }
    destruct Ik as [Ik Vk]. split; [exact Ik|]. split; [exact Vk|].
    unfold share_key_verify in V. destruct (_ || _)%bool; [discriminate|]. rewrite Ik in V. destruct (get (verify_keys gpp) (i - 1)) as [v0| |]; cbn [bind] in V; try discriminate.
    destruct (geqb (vk k) v0) eqn:G; [|discriminate]. apply (proj1 (geqb_eq _ _ _)) in G. congruence.
  Qed.
  Lemma decoded insts : forall pps, mapM (fun x => let* (pp, _) := from_instance cfg x in Ok pp) insts = Ok pps -> Forall2 (fun inst pp => exists pks, from_instance cfg inst = Ok (pp, pks)) insts pps.
  Proof.
    intros pps H. apply mapM_inv in H. induction H as [|x y l l' H F IH]; constructor; [|exact IH]. apply bind_ok in H as ([pp pks] & H & H'). exists pks. congruence.
  Qed.
  (** the first evaluation of a node: it derives its share key from the instances stored in the contract, then evaluates;
      the contract accepts the result *)
  Theorem C49_first_evaluation tr s i fs r m (k : share_key) insts pps gpp : hist tr s -> let n := currentRoundNum s in 1 <= n -> no_random s n ->
    znth (map who (registrations tr)) i = Some (o_me o) -> ~ In (o_me o) (map fst (evals tr n)) ->
    good_fs fs -> member_file J fs (member_name addr_text o) m -> insts <> [] -> getPpList s = map (map val_r) insts ->
    mapM (fun x => let* (pp, _) := from_instance cfg x in Ok pp) insts = Ok pps -> dkg_global_public_params pps = Ok gpp ->
    dkg_share_key poseidon m cfg (i + 1) pps = Ok k -> share_key_verify k cfg (verify_keys gpp) = Ok tt ->
    exists w call s' ev, cbind (node_derive_ (fun _ => s)) (fun _ => node_submit_eval_ (fun _ => s) r) fs = (w, Ok call) /\ apply v E s (mkTx (o_me o) 0 call) = Ok (s', ev) /\
      roundSubmissionCount s' n = roundSubmissionCount s n + 1.
  Proof.
    intros Hh n Hn NR Zi NI G Mf NE L Dc Gp Sk Sv. destruct (index_of tr s i Hh Zi) as [Gi Ri]. pose proof HO as [P U D Ot On Om].
    assert (Rd : contractPhase s = Ready). { destruct (C31_rounds v E c tr s Hh) as (_ & H & _). apply H. fold n. lia. }
    destruct (C52_keys v keccak in_g2 pairing halo2 HG HP c tr s cfg insts pps Hh Rd On NE L (decoded _ _ Dc)) as (gpp' & sec & Gp' & VK & _). assert (gpp' = gpp) by congruence. subst gpp'.
    destruct (share_facts m (i + 1) pps k gpp Sk Sv) as (Ik & Vk & Gv).
    set (W0 := [(all_instances_path, Client.enc (j_instances J) (map (map to_hex_string) (getPpList s)))]). set (fs0 := effects fs W0).
    assert (G0 : good_fs fs0) by (apply good_effects; [repeat constructor; apply pl_inst|exact G]).
    assert (If0 : instances_file J fs0 insts). { apply holds_saved; [apply (ok_instances J HJ)|]. rewrite L. apply read_insts. }
    assert (Mf0 : member_file J fs0 (member_name addr_text o) m). { revert Mf. apply holds_ext. unfold fs0, W0. cbn [effects fold_left]. rewrite set_other; [reflexivity|]. apply member_neq. vm_compute. discriminate. }
    pose proof (pl_share (i + 1) ltac:(lia)) as PS.
    assert (PD : parent (share_path (index k)) = DKG_SHARES_DIR).
    { rewrite Ik, share_path_jp. unfold jp. rewrite parent_of; [reflexivity|]. apply in_app47; [apply not47; [no47|lia]|cbn; intuition lia]. }
    assert (E1 : cmd_derive poseidon J cfg (Some (i + 1)) (Some (member_name addr_text o)) fs0 = ([gpk_write J gpp; vks_write J gpp; share_write J k], Ok tt)).
    { apply (derive_runs poseidon J cfg (i + 1) (member_name addr_text o) fs0 insts pps gpp m k If0 Dc Gp); [cbn [number_of_members]; lia|exact Mf0|exact Sk|exact Sv| | | | | |exact PD].
      - apply (g_dirs _ G0). apply (in_dirs_nth 2). lia.
      - apply (g_dirs _ G0). apply (in_dirs_nth 4). lia.
      - rewrite gpk_jp. apply (g_json _ G0).
      - rewrite vks_jp. apply (g_json _ G0).
      - rewrite share_path_jp. apply (g_json _ G0). }
    set (W1 := [gpk_write J gpp; vks_write J gpp; share_write J k]) in *.
    assert (P1 : Forall (fun x => placed (fst x)) W1). { repeat constructor; [apply pl_gpk|apply pl_vks|]. unfold share_write. cbn [fst]. rewrite Ik. exact PS. }
    set (fs1 := effects fs0 W1). assert (G1' : good_fs fs1) by (apply good_effects; [exact P1|exact G0]).
    destruct (C24_share_only_verified poseidon J HJ cfg _ _ fs0 W1 (Ok tt) (i + 1) (Client.enc (j_share J) (of_share k)) E1) as (f & m' & k' & insts' & pps' & gpp' & _ & _ & _ & If' & Dc' & Gp'' & _ & _ & Bk & Ik' & _ & _ & _ & _ & Vf & Sf).
    { right. right. left. unfold share_write. rewrite Ik. reflexivity. } { assert (2 ^ 32 < 2 ^ 64) by reflexivity. lia. } { cbn [number_of_members]. assert (2 ^ 32 < 2 ^ 64) by reflexivity. lia. }
    assert (insts' = insts) by exact (holds_fun _ _ _ _ _ _ If' If0). subst insts'. assert (pps' = pps) by congruence. subst pps'. assert (gpp' = gpp) by congruence. subst gpp'.
    assert (Sf' : share_file J fs1 (i + 1) k).
    { exists (Client.enc (j_share J) (of_share k)), (of_share k). split; [|split; [apply (ok_share J HJ)|apply share_round; exact Vk]]. unfold fs1, W1. cbn [effects fold_left]. unfold share_write at 1. rewrite Ik. apply set_same. }
    destruct (C49_evaluation_accepted tr s i fs1 r k (verify_keys gpp) Hh Hn NR Zi NI G1' Sf' Vf VK Ik Vk) as (w & call & s' & ev & E2 & A & Cn).
    { apply get_inv in Gv as [_ Gv]. unfold znth. destruct (Z.ltb_spec i 0); [lia|]. replace (i + 1 - 1) with i in Gv by lia. exact Gv. }
    exists ((W0 ++ W1) ++ w), call, s', ev. split; [|auto].
    assert (E3 : node_derive_ (fun _ => s) fs = (W0 ++ W1, Ok tt)).
    { unfold node_derive. rewrite (js_write_good _ _ _ _ _ pl_inst G). change (set fs all_instances_path _) with fs0. rewrite Gi, lift_ok, client_run. cbn [run_command]. rewrite E1. reflexivity. }
    rewrite (cbind_ok _ _ _ _ _ E3). rewrite effects_app. change (effects (effects fs W0) W1) with fs1. rewrite E2. reflexivity.
  Qed.

  (** ** C50: what the admin reads and sends *)
  Definition conv (dealers : list (list Fr * Fr)) (h : G1) (e : peval) : Dkg.partial_eval :=
    mkPartialEval (indexPlus e) (g1mul h (total dealers (fr (indexPlus e)))) (fr (proof_z e)) (fr (proof_c e)).
  Definition rand_call (p : s_random) : res call :=
    let* proof := point_arg (sr_proof p) in
    let* _ := require (Nat.eqb (length (sr_value p)) 32) "invalid bytes32" in
    Ok (SubmitRandom (mkPrand proof (of_be (sr_value p)))).
  Lemma rand_call_of pr val : 0 <= val < 2 ^ 256 -> pr_value pr = be_bytes 32 val -> rand_call (of_random pr) = Ok (SubmitRandom (mkPrand (enc (pr_proof pr)) val)).
  Proof.
    intros B V. unfold rand_call, of_random. cbn [sr_proof sr_value]. rewrite point_arg_g1. cbn [bind]. rewrite V.
    assert (L : length (be_bytes 32 val) = 32%nat) by apply length_be. rewrite L. cbn [Nat.eqb require bind]. do 3 f_equal. rewrite of_be_be by lia. apply Z.mod_small. change (256 ^ Z.of_nat 32) with (2 ^ 256). exact B.
  Qed.
  (** all accepted evaluations of the round carry canonical numbers and the right value, enough of them were there
      when the reading started, and the files hold the keys of the contract: the admin's program gives a transaction
      that stores the random of the round, whatever is accepted meanwhile *)
  Lemma random_stored tr ch m k fs members dealers vks h : evolves v E c tr ch -> honest cfg members dealers -> 1 <= k ->
    (2 + Z.to_nat (c_number c) <= m)%nat -> currentRoundNum (ch 1%nat) >= k -> currentRoundNum (ch m) = k -> no_random (ch m) k -> owner (ch m) = o_me o ->
    getGpk (ch m) = enc2 (g2mul g2 (group_secret dealers)) -> getVkList (ch m) = map enc vks -> zlen vks = c_number c ->
    good_fs fs -> gpk_file J fs (g2mul g2 (group_secret dealers)) -> vks_file J fs vks ->
    hash_to_curve_bn keccak EVAL_PREFIX (round_input k) = Ok h -> prf_value keccak (g1mul h (group_secret dealers)) <> be_bytes 32 0 ->
    c_threshold c <= Z.of_nat (length (evals (tr 2%nat) k)) ->
    (forall a e, In (a, e) (evals (tr m) k) -> 0 <= proof_z e < r_mod /\ evalue e = enc (g1mul h (total dealers (fr (indexPlus e))))) ->
    exists b0 b1 s' ev p, admin_create_random_ ch k fs = ([(evals_path, b0); (pseudo_path, b1)], Ok (SubmitRandom p)) /\ apply v E (ch m) (mkTx (o_me o) 0 (SubmitRandom p)) = Ok (s', ev) /\
      getRandomAtRound s' k = Ok p /\ rproof p = enc (g1mul h (group_secret dealers)) /\ be_bytes 32 (rvalue p) = prf_value keccak (g1mul h (group_secret dealers)) /\
      same_setup (ch m) s' /\ currentRoundNum s' = currentRoundNum (ch m).
  Proof.
    intros He HH Hk Lm Rk1 Rk NR Ow Gk Vk Lv G Gf Vf Hh NZ T Acc. pose proof HO as [P U D Ot On Om]. set (input := round_input k) in *.
    set (secret := group_secret dealers) in *. set (tr2 := fun i => tr (2 + i)%nat). set (ch2 := fun i => ch (2 + i)%nat).
    assert (He2 : evolves v E c tr2 ch2) by (intros i; apply (He (2 + i)%nat)).
    set (l := read_evals ch2 k (c_number c)).
    destruct (slots v E c tr2 ch2 He2 k (Z.to_nat (c_number c)) 0) as [Inc F]. change (filter _ _) with l in Inc, F. cbn [Nat.add] in F.
    assert (Cn : (length (evals (tr2 0%nat) k) <= length l)%nat).
    { apply (slots_count v E c tr2 ch2 He2 k (Z.to_nat (c_number c))). rewrite Z2Nat.id; lia. }
    assert (Hm : Histories.hist v E c (tr m) (ch m)) by apply He.
    assert (FA : Forall (fun e => exists a, In (a, e) (evals (tr m) k)) l).
    { eapply Forall_impl; [|exact F]. intros e (_ & a & I). exists a. apply (chain_evals v E c tr ch He (2 + Z.to_nat (c_number c))%nat); [exact Lm|exact I]. }
    set (es := map (conv dealers h) l).
    assert (Ix : map pe_index es = map indexPlus l) by (unfold es; rewrite map_map; reflexivity).
    assert (FV : Forall (fun e => in_members cfg (conv dealers h e) /\ valid keccak cfg input vks (conv dealers h e) = true /\ to_eval (eval_text e) = Ok (conv dealers h e)) l).
    { eapply Forall_impl; [|exact FA]. intros e (a & I). destruct (Acc a e I) as [Hz Hv].
      destruct (C52_evaluation_verifies v keccak in_g2 pairing halo2 K c (tr m) (ch m) k a e cfg Hm I On) as (i & S & V & _ & Ie & Es & Zv & Hc & Ver).
      assert (S = g1mul h (total dealers (fr (indexPlus e)))) by (apply enc_inj; congruence). subst S. rewrite <- Ie in Ver. change (mkPartialEval _ _ _ _) with (conv dealers h e) in Ver.
      pose proof (pe_verify_range _ _ _ _ _ Ver) as Rg. split; [exact Rg|]. split; [|exact (eval_text_read e _ Hv Hz Hc)].
      unfold valid. cbn [pe_index conv]. replace (indexPlus e - 1) with i by lia. rewrite Vk, znth_map in Zv. unfold znth in Zv. destruct (i <? 0); [discriminate|].
      destruct (nth_error vks (Z.to_nat i)) as [V'|]; [|discriminate]. cbn [option_map] in Zv. assert (V' = V) by (apply enc_inj; congruence). subst V'. apply is_ok_unit. exact Ver. }
    set (W0 := [(evals_path, Client.enc (j_evals J) (map eval_text l))]). set (fs0 := effects fs W0).
    assert (G0 : good_fs fs0) by (apply good_effects; [repeat constructor; apply pl_evals|exact G]).
    assert (Ef : evals_file J fs0 es).
    { apply holds_saved; [apply (ok_evals J HJ)|]. unfold es. clear - FV. induction FV as [|e l' (_ & _ & X) F IH]; [reflexivity|]. cbn [map mapM]. rewrite X. cbn [bind]. rewrite IH. reflexivity. }
    assert (Gf0 : gpk_file J fs0 (g2mul g2 secret)). { revert Gf. apply holds_ext. unfold fs0, W0. cbn [effects fold_left]. rewrite set_other; [reflexivity|]. apply (neq_at 7). vm_compute. discriminate. }
    assert (Vf0 : vks_file J fs0 vks). { revert Vf. apply holds_ext. unfold fs0, W0. cbn [effects fold_left]. rewrite set_other; [reflexivity|]. apply (neq_at 7). vm_compute. discriminate. }
    assert (Fi : filter (valid keccak cfg input vks) es = es).
    { unfold es. clear - FV. induction FV as [|e l' (_ & X & _) F IH]; [reflexivity|]. cbn [map filter]. rewrite X, IH. reflexivity. }
    assert (Fm : Forall (in_members cfg) es). { unfold es. apply Forall_map. eapply Forall_impl; [|exact FV]. intros e (X & _). exact X. }
    assert (Le : Dkg.threshold cfg <= zlen es). { cbn [Dkg.threshold]. unfold zlen, es. rewrite map_length. change (tr2 0%nat) with (tr 2%nat) in Cn. lia. }
    destruct (cfg_facts _ _ _ HH) as (Ht & Htn & Hn). cbn [Dkg.threshold number_of_members] in Ht, Htn, Hn.
    set (used := firstn (Z.to_nat (Dkg.threshold cfg)) es).
    assert (Lu : zlen used = Dkg.threshold cfg). { unfold used, zlen in *. rewrite firstn_length. cbn [Dkg.threshold] in *. lia. }
    assert (Iu : increasing (map pe_index used)). { unfold used. rewrite <- firstn_map, Ix. apply increasing_firstn. exact Inc. }
    assert (Ru : Forall (fun i => 1 <= i <= number_of_members cfg) (map pe_index used)).
    { apply Forall_map. unfold used. apply Forall_firstn. exact Fm. }
    assert (Vu : map pe_value used = map (fun i => g1mul h (total dealers (fr i))) (map pe_index used)).
    { rewrite map_map. apply map_ext_in. intros x I. assert (I' : In x es) by (rewrite <- (firstn_skipn (Z.to_nat (Dkg.threshold cfg)) es); apply in_or_app; left; exact I). unfold es in I'. apply in_map_iff in I' as (y & <- & _). reflexivity. }
    set (pr := mkPseudoRandom (g1mul h secret) (prf_value keccak (g1mul h secret))).
    assert (Cb : combine_partial_evaluations keccak cfg used = Ok pr).
    { rewrite combine_ok by (try exact Lu; exact Ht). rewrite (proj2 (check_indices_ok _ _) (conj Iu Ru)). cbn [bind].
      assert (X : lagrange_sum used = g1mul h secret); [|rewrite X; reflexivity].
      apply (lagrange_sum_ok cfg members dealers Ht Hn (h_coeffs _ _ _ HH) h used (map pe_index used) eq_refl Vu); [|exact (increasing_NoDup _ Iu)|exact Ru].
      unfold zlen. rewrite map_length. exact Lu. }
    assert (Pv : pr_verify keccak pairing pr input (g2mul g2 secret) = Ok tt) by (apply (pr_verify_iff keccak pairing HP _ _ _ h Hh); split; reflexivity).
    set (W1 := [(pseudo_path, Client.enc (j_random J) (of_random pr))]).
    assert (E1 : run_ cfg (o_degree o) (Combine input false) fs0 = (W1, Ok tt)).
    { cbn [run_command]. apply (combine_runs keccak pairing J cfg input false fs0 es (g2mul g2 secret) es pr Ef Gf0); [|exact Le|exact Cb|exact Pv| |].
      - exists vks. split; [exact Vf0|]. split; [cbn [number_of_members]; lia|]. split; [exact Fm|symmetry; exact Fi].
      - apply (g_dirs _ G0). apply (in_dirs_nth 5). lia.
      - rewrite pseudo_jp. apply (g_json _ G0). }
    assert (E2 : run_ cfg (o_degree o) (VerifyFinal input) (effects fs0 W1) = ([], Ok tt)).
    { cbn [run_command]. apply (C23_then_final keccak pairing J HJ cfg input false fs0 W1). exact E1. }
    set (val := keccak (word (fst (enc (g1mul h secret))) ++ word (snd (enc (g1mul h secret))))).
    assert (BV : 0 <= val < 2 ^ 256) by apply K. assert (PV : pr_value pr = be_bytes 32 val) by (unfold pr; cbn [pr_value]; apply prf_value_word).
    assert (NV : val <> 0). { intros X. apply NZ. change (prf_value keccak (g1mul h secret)) with (pr_value pr). rewrite PV, X. reflexivity. }
    destruct (C53_random_accepted v keccak in_g2 pairing halo2 K HG c (tr m) (ch m) k secret pr val Hm (eq_sym Rk) Hk NR) as (s' & ev & A & GR & Ss & Rn).
    { rewrite Ow. exact Om. }
    { intros _. rewrite (m_cnt _ _ _ _ _ (inv3 _ _ _ _ _ Hm) k). destruct (chain_ext v E c tr ch He 2 m ltac:(lia)) as [t X]. rewrite X, evals_app, app_length. lia. }
    { exact Gk. } { lia. } { exact PV. } { exact Pv. }
    eexists _, _, s', ev, (mkPrand (enc (pr_proof pr)) val).
    split; [|split; [rewrite <- Ow at 1; exact A|split; [exact GR|split; [reflexivity|split; [exact (eq_sym PV)|split; [exact Ss|exact Rn]]]]]].
    assert (Inp : roundInput (ch 1%nat) k = input).
    { destruct (C31_rounds v E c (tr 1%nat) (ch 1%nat) ltac:(apply He)) as (_ & _ & _ & _ & H & _). apply (H k). lia. }
    assert (Mc : memberCount (ch 0%nat) = c_number c) by apply (i_n _ _ (inv0 v E c (tr 0%nat) (ch 0%nat) ltac:(apply He))).
    unfold admin_create_random. rewrite Inp, Mc. change (read_evals _ k (c_number c)) with l. rewrite (js_write_good _ _ _ _ _ pl_evals G). change (set fs evals_path _) with fs0.
    rewrite client_bind, (cbind_ok _ _ _ _ _ E1), client_bind, (cbind_ok _ _ _ _ _ E2). change (effects (effects fs0 W1) []) with (effects fs0 W1).
    rewrite (load_raw (j_random J) pseudo_path (of_random pr)); [|apply (ok_random J HJ)|unfold W1; cbn [effects fold_left]; apply set_same].
    rewrite lift_run. change (let* proof := point_arg (sr_proof (of_random pr)) in _) with (rand_call (of_random pr)). rewrite (rand_call_of pr val BV PV). reflexivity.
  Qed.
  Theorem C50_random_stored tr ch m k fs members dealers vks h : evolves v E c tr ch -> honest cfg members dealers -> 1 <= k ->
    (2 + Z.to_nat (c_number c) <= m)%nat -> currentRoundNum (ch 1%nat) >= k -> currentRoundNum (ch m) = k -> no_random (ch m) k -> owner (ch m) = o_me o ->
    getGpk (ch m) = enc2 (g2mul g2 (group_secret dealers)) -> getVkList (ch m) = map enc vks -> zlen vks = c_number c ->
    good_fs fs -> gpk_file J fs (g2mul g2 (group_secret dealers)) -> vks_file J fs vks ->
    hash_to_curve_bn keccak EVAL_PREFIX (round_input k) = Ok h -> prf_value keccak (g1mul h (group_secret dealers)) <> be_bytes 32 0 ->
    c_threshold c <= Z.of_nat (length (evals (tr 2%nat) k)) ->
    (forall a e, In (a, e) (evals (tr m) k) -> 0 <= proof_z e < r_mod /\ evalue e = enc (g1mul h (total dealers (fr (indexPlus e))))) ->
    exists w call s' ev p, admin_create_random_ ch k fs = (w, Ok call) /\ apply v E (ch m) (mkTx (o_me o) 0 call) = Ok (s', ev) /\
      getRandomAtRound s' k = Ok p /\ rproof p = enc (g1mul h (group_secret dealers)) /\ be_bytes 32 (rvalue p) = prf_value keccak (g1mul h (group_secret dealers)).
  Proof.
    intros A1 A2 A3 A4 A5 A6 A7 A8 A9 B1 B2 B3 B4 B5 B6 B7 B8 B9.
    destruct (random_stored tr ch m k fs members dealers vks h A1 A2 A3 A4 A5 A6 A7 A8 A9 B1 B2 B3 B4 B5 B6 B7 B8 B9) as (b0 & b1 & s' & ev & p & X1 & X2 & X3 & X4 & X5 & _).
    eexists _, _, s', ev, p. split; [exact X1|]. split; [exact X2|]. auto.
  Qed.

  (** whatever the files, the chain and the evaluations are, the program sends a transaction only if it carries a random
      that verifies for the round's input under the group key in the file *)
  Lemma cbind_inv {A B} (m : cmd A) (k : A -> cmd B) s w b : cbind m k s = (w, Ok b) ->
    exists w1 a w2, m s = (w1, Ok a) /\ k a (effects s w1) = (w2, Ok b) /\ w = w1 ++ w2.
  Proof.
    unfold cbind. destruct (m s) as [w1 [a| |]] eqn:E1; [|intros X; congruence|intros X; congruence]. destruct (k a (effects s w1)) as [w2 r2] eqn:E2. intros X.
    exists w1, a, w2. split; [reflexivity|]. split; [|congruence]. rewrite E2. congruence.
  Qed.
  Lemma js_path {A} (cd : codec A) p a s w r q : js_write cd p a s = (w, r) -> q <> p -> effects s w q = s q.
  Proof.
    unfold js_write, write_file. intros X N. assert (Y : w = [] \/ w = [(p, Client.enc cd a)]).
    { destruct (s p) as [[?|]|], (s (parent p)) as [[?|]|]; cbn [fst] in X; (left; congruence) || (right; congruence). }
    destruct Y as [->| ->]; [reflexivity|]. cbn [effects fold_left]. apply set_other. exact N.
  Qed.
  Lemma rand_call_inv (pr : Dkg.pseudo_random) cl : rand_call (of_random pr) = Ok cl -> cl = SubmitRandom (mkPrand (enc (pr_proof pr)) (of_be (pr_value pr))).
  Proof.
    unfold rand_call, of_random. cbn [sr_proof sr_value]. rewrite point_arg_g1. cbn [bind]. destruct (Nat.eqb _ _); cbn [require bind]; congruence.
  Qed.
  Theorem C50_only_verified ch k fs w call : admin_create_random_ ch k fs = (w, Ok call) ->
    exists (pr : Dkg.pseudo_random) gpk, gpk_file J fs gpk /\ pr_verify keccak pairing pr (roundInput (ch 1%nat) k) gpk = Ok tt /\
      call = SubmitRandom (mkPrand (enc (pr_proof pr)) (of_be (pr_value pr))).
  Proof.
    unfold admin_create_random. intros X.
    apply cbind_inv in X as (w1 & [] & w2 & X1 & X & _). apply cbind_inv in X as (w3 & [] & w4 & X3 & X & _). apply cbind_inv in X as (w5 & [] & w6 & X5 & X & _).
    rewrite client_run in X3, X5. cbn [run_command] in X3, X5.
    apply combine_cases in X3 as [[_ N]|(evs & gpk & used & pr & He & Hg & C & T & P & V & -> & _)]; [destruct (N tt eq_refl)|].
    assert (Y : w5 = []). { unfold cmd_verify_final in X5. apply load_bind in X5 as [(p & _ & X5)|[Y _]]; [|exact Y]. apply load_bind in X5 as [(g & _ & X5)|[Y _]]; [|exact Y]. rewrite lift_run in X5. congruence. }
    subst w5. change (effects ?s []) with s in X.
    rewrite (load_raw (j_random J) pseudo_path (of_random pr)) in X; [|apply (ok_random J HJ)|cbn [effects fold_left]; apply set_same].
    rewrite lift_run in X. change (let* proof := point_arg (sr_proof (of_random pr)) in _) with (rand_call (of_random pr)) in X.
    exists pr, gpk. split; [|split; [exact V|apply rand_call_inv; congruence]].
    revert Hg. apply holds_ext. symmetry. apply (js_path _ _ _ _ _ _ gpk_path X1). apply (neq_at 7). vm_compute. discriminate.
  Qed.
  (** an accepted evaluation whose z is not reduced is among those read: the program fails, however many others there are *)
  Theorem C50_noncanonical ch k fs e : good_fs fs -> In e (read_evals (fun i => ch (2 + i)%nat) k (memberCount (ch 0%nat))) -> r_mod <= proof_z e < 2 ^ 256 ->
    forall call, snd (admin_create_random_ ch k fs) <> Ok call.
  Proof.
    intros G I Hz call. destruct (admin_create_random_ ch k fs) as [w r] eqn:X. cbn [snd]. intros ->. unfold admin_create_random in X.
    rewrite (js_write_good _ _ _ _ _ pl_evals G) in X. destruct (cbind _ _ _) as [w2 r2] eqn:X2 in X. assert (r2 = Ok call) by congruence. subst r2. clear X.
    apply cbind_inv in X2 as (w3 & [] & w4 & X3 & _ & _). rewrite client_run in X3. cbn [run_command] in X3.
    apply combine_cases in X3 as [[_ N]|(evs & gpk & used & pr & (t & l & F & Dl & M) & _)]; [destruct (N tt eq_refl)|].
    rewrite set_same in F. pose proof (proj1 (ok_evals J HJ) (map eval_text (read_evals (fun i => ch (2 + i)%nat) k (memberCount (ch 0%nat))))) as D2.
    assert (t = Client.enc (j_evals J) (map eval_text (read_evals (fun i => ch (2 + i)%nat) k (memberCount (ch 0%nat))))) by congruence. subst t.
    assert (l = map eval_text (read_evals (fun i => ch (2 + i)%nat) k (memberCount (ch 0%nat)))) by congruence. subst l.
    apply mapM_inv in M. apply (in_map eval_text) in I. clear - M I Hz. induction M as [|x y l l' Hx M IH]; [destruct I|]. destruct I as [->|I]; [|exact (IH I)].
    unfold to_eval, eval_text in Hx. cbn [se_value se_z se_c se_index] in Hx. apply bind_ok in Hx as (pt & _ & Hx). apply bind_ok in Hx as (z & Hx & _).
    destruct (read_fr_text_fail _ Hz) as [m Y]. congruence.
  Qed.
  Lemma fast_reduced h sg z cc k : verifyPartialEvalFast keccak h sg (z + r_mod) cc k = verifyPartialEvalFast keccak h sg z cc k.
  Proof.
    assert (Z1 : forall P : G1, zmul (z + r_mod) P = zmul z P) by (intros P; rewrite zmul_add, G1_exponent, g0_r; reflexivity).
    assert (Z2 : forall p, scalar_mul p (z + r_mod) = scalar_mul p z) by (intros p; unfold scalar_mul; destruct (decode p); rewrite ?Z1; auto).
    unfold verifyPartialEvalFast. cbv zeta. rewrite !Z2. reflexivity.
  Qed.
  (** and any member can bring that about: the contract accepts its evaluation with z + r in place of z *)
  Theorem C50_poison s a e s' ev : apply v E s (mkTx a 0 (SubmitPartialEval e)) = Ok (s', ev) -> proof_z e + r_mod < 2 ^ 256 ->
    exists s'', apply v E s (mkTx a 0 (SubmitPartialEval (mkPeval (indexPlus e) (evalue e) (proof_z e + r_mod) (proof_c e)))) = Ok (s'', ev).
  Proof.
    intros A B. set (e' := mkPeval _ _ _ _).
    unfold apply in *. destruct (tx_ok (mkTx a 0 (SubmitPartialEval e))) eqn:T; [|discriminate A]. cbn [require bind] in A.
    assert (T' : tx_ok (mkTx a 0 (SubmitPartialEval e')) = true).
    { unfold tx_ok in *. cbn [sender tvalue what e' indexPlus evalue proof_z proof_c] in *. apply andb_prop in T as [T1 T2]. rewrite T1. cbn [andb].
      apply andb_prop in T2 as [T2 T3]. apply andb_prop in T2 as [T2 T4]. rewrite T2, T3. cbn [andb]. rewrite andb_true_r. apply u256.
      unfold is_u256 in T4. apply andb_prop in T4 as [T4 _]. apply Z.leb_le in T4. assert (0 < r_mod) by reflexivity. lia. }
    rewrite T'. cbn [require bind]. revert A. cbn [payable what tvalue Z.eqb require bind orb]. unfold dispatch. cbn [what]. unfold submitPartialEval.
    cbn [sender indexPlus evalue proof_z proof_c e'].
    cbn [verify_partial_eval verify_partial_eval_fast real_env].
    do 6 (match goal with |- (let* _ := ?x in _) = _ -> _ => destruct x; cbn [bind]; [|discriminate|discriminate] end).
    rewrite z_reduced, fast_reduced.
    do 2 (match goal with |- (let* _ := ?x in _) = _ -> _ => destruct x; cbn [bind]; [|discriminate|discriminate] end).
    cbn [roundSubmissionCount set_roundToEval set_lastSubmittedRound set_roundSubmissionCount threshold roundInput set_balance].
    match goal with |- (let* _ := ?x in _) = _ -> _ => destruct x; cbn [bind]; [|discriminate|discriminate] end.
    destruct (_ =? _); intros A; eexists; f_equal; f_equal; congruence.
  Qed.

  (** ** C50: the keys *)
  Definition g2_call (g : s_point2) : res call :=
    let* x0 := hex_num (s_x0 g) in let* x1 := hex_num (s_x1 g) in let* y0 := hex_num (s_y0 g) in let* y1 := hex_num (s_y1 g) in Ok (ComputeVk (G2pt x0 x1 y0 y1)).
  Lemma g2_call_of (Q : G2c) : g2_call (of_g2 Q) = Ok (ComputeVk (enc2 Q)).
  Proof. unfold g2_call, of_g2, enc2. destruct (xy Q) as [x y]. cbn [s_x0 s_x1 s_y0 s_y1]. rewrite hex_fq. cbn [bind]. rewrite hex_fq. cbn [bind]. rewrite hex_fq. cbn [bind]. rewrite hex_fq. reflexivity. Qed.
  (** once every member's parameters are on the contract the admin's program sends the key that makes it Ready, and leaves
      the contract's keys in the admin's files *)
  Lemma keys_completed tr s fs pps pkss insts gpp : hist tr s -> contractPhase s = NidkgComplete -> getPpList s = map (map val_r) insts -> good_fs fs ->
    Forall2 (fun pp pks => zlen pks = c_number c /\ length (public_shares pp) = length pks /\ length (ciphers pp) = length pks) pps pkss ->
    Forall2 (fun '(pp, pks) inst => instance_of pp pks = Ok inst) (combine pps pkss) insts ->
    dkg_global_public_params pps = Ok gpp -> (exists sec : Fr, g_ga gpp = g1mul g1 sec /\ g_g2a gpp = g2mul g2 sec) ->
    exists s' ev, let w := [(all_instances_path, Client.enc (j_instances J) (map (map to_hex_string) (getPpList s))); gpk_write J gpp; vks_write J gpp] in
      let call := ComputeVk (enc2 (g_g2a gpp)) in admin_create_gpp_ (fun _ => s) fs = (w, Ok call) /\ apply v E s (mkTx (o_me o) 0 call) = Ok (s', ev) /\ contractPhase s' = Ready /\
      getVkList s' = map enc (verify_keys gpp) /\ getGpk s' = enc2 (g_g2a gpp) /\
      good_fs (effects fs w) /\ gpk_file J (effects fs w) (g_g2a gpp) /\ vks_file J (effects fs w) (verify_keys gpp) /\ owner s' = owner s.
  Proof.
    intros Hh P L G F I Gp Sec. pose proof HO as [Pt U D Ot On Om].
    assert (Fc : Forall2 (fun pp pks => zlen pks = number_of_members cfg /\ length (public_shares pp) = length pks /\ length (ciphers pp) = length pks) pps pkss) by (cbn [number_of_members]; rewrite On; exact F).
    assert (Dc : mapM (fun x => let* (pp, _) := from_instance cfg x in Ok pp) insts = Ok pps).
    { clear - Fc I. revert insts I. induction Fc as [|pp pks pps pkss (A & S & C) F IH]; cbn [combine]; intros insts I; inversion I; subst; [reflexivity|]. cbn [mapM].
      rewrite (C12_round_trip cfg pp pks y) by assumption. cbn [bind]. rewrite (IH _ H3). reflexivity. }
    destruct (C53_setup_completes v keccak in_g2 pairing halo2 HG HP c tr s cfg pps pkss insts gpp (o_me o) Hh P Om ltac:(lia) On L Fc I Gp Sec) as (s' & ev & A & Rd & VK & GK & Ow).
    set (W0 := [(all_instances_path, Client.enc (j_instances J) (map (map to_hex_string) (getPpList s)))]). set (fs0 := effects fs W0).
    assert (G0 : good_fs fs0) by (apply good_effects; [repeat constructor; apply pl_inst|exact G]).
    assert (If0 : instances_file J fs0 insts). { apply holds_saved; [apply (ok_instances J HJ)|]. rewrite L. apply read_insts. }
    set (W1 := [gpk_write J gpp; vks_write J gpp]).
    assert (P1 : Forall (fun x => placed (fst x)) W1) by (repeat constructor; [apply pl_gpk|apply pl_vks]).
    assert (E1 : run_ cfg (o_degree o) (Derive None None) fs0 = (W1, Ok tt)).
    { cbn [run_command]. unfold cmd_derive. rewrite (load_ok _ _ _ _ _ _ If0), Dc, lift_ok, Gp, lift_ok. unfold save_gpp. rewrite cbind_assoc.
      rewrite (save_good _ _ _ _ _ pl_gpk G0). assert (G2' : good_fs (set fs0 gpk_path (File (Client.enc (j_point2 J) (sg_g2a (of_gpp gpp)))))) by (rewrite gpk_jp; apply good_set; exact G0).
      rewrite (save_good _ _ _ _ _ pl_vks G2'). reflexivity. }
    set (fs1 := effects fs0 W1).
    assert (Ng : gpk_path <> vks_path) by (apply (neq_at 11); vm_compute; discriminate).
    assert (Hg : fs1 gpk_path = Some (File (Client.enc (j_point2 J) (of_g2 (g_g2a gpp))))). { unfold fs1, W1, gpk_write, vks_write. cbn [effects fold_left]. rewrite set_other by exact Ng. apply set_same. }
    exists s', ev. cbv zeta. change (effects fs _) with fs1.
    split; [|split; [exact A|split; [exact Rd|split; [exact VK|split; [exact GK|split; [|split; [|split; [|exact Ow]]]]]]]].
    - unfold admin_create_gpp. rewrite (js_write_good _ _ _ _ _ pl_inst G). change (set fs all_instances_path _) with fs0.
      rewrite client_bind, (cbind_ok _ _ _ _ _ E1). fold fs1. rewrite (load_raw (j_point2 J) gpk_path (of_g2 (g_g2a gpp))); [|apply (ok_point2 J HJ)|exact Hg].
      rewrite lift_run. change (let* x0 := hex_num (s_x0 (of_g2 (g_g2a gpp))) in _) with (g2_call (of_g2 (g_g2a gpp))). rewrite g2_call_of. reflexivity.
    - apply good_effects; [exact P1|exact G0].
    - exists (Client.enc (j_point2 J) (of_g2 (g_g2a gpp))), (of_g2 (g_g2a gpp)). split; [exact Hg|]. split; [apply (ok_point2 J HJ)|apply g2_round].
    - unfold fs1, W1, gpk_write, vks_write. cbn [effects fold_left]. apply holds_saved; [apply (ok_points J HJ)|exact (map_round of_g1 to_g1 _ g1_round)].
  Qed.

  Theorem C50_keys_completed tr s fs pps pkss insts gpp : hist tr s -> contractPhase s = NidkgComplete -> getPpList s = map (map val_r) insts -> good_fs fs ->
    Forall2 (fun pp pks => zlen pks = c_number c /\ length (public_shares pp) = length pks /\ length (ciphers pp) = length pks) pps pkss ->
    Forall2 (fun '(pp, pks) inst => instance_of pp pks = Ok inst) (combine pps pkss) insts ->
    dkg_global_public_params pps = Ok gpp -> (exists sec : Fr, g_ga gpp = g1mul g1 sec /\ g_g2a gpp = g2mul g2 sec) ->
    exists w call s' ev, admin_create_gpp_ (fun _ => s) fs = (w, Ok call) /\ apply v E s (mkTx (o_me o) 0 call) = Ok (s', ev) /\ contractPhase s' = Ready /\
      getVkList s' = map enc (verify_keys gpp) /\ getGpk s' = enc2 (g_g2a gpp) /\
      good_fs (effects fs w) /\ gpk_file J (effects fs w) (g_g2a gpp) /\ vks_file J (effects fs w) (verify_keys gpp).
  Proof.
    intros Hh P L G F I Gp Sec. destruct (keys_completed tr s fs pps pkss insts gpp Hh P L G F I Gp Sec) as (s' & ev & X). cbv zeta in X. destruct X as (X1 & X2 & X3 & X4 & X5 & X6 & X7 & X8 & _).
    eexists _, _, s', ev. split; [exact X1|]. auto 8.
  Qed.

  (** ** C49: registration *)
  Definition pk_call (p : s_point) : res call := let* pk := point_arg p in Ok (RegisterNode pk).
  Lemma pk_call_of (P : Gk) : pk_call (of_gk P) = Ok (RegisterNode (enck P)).
  Proof. unfold pk_call, point_arg, of_gk, enck. cbn [s_x s_y]. rewrite hex_fr. cbn [bind]. rewrite hex_fr. reflexivity. Qed.
  (** a node that the owner added registers the key whose secret is in its member file, if no deposit is asked for *)
  Lemma registers tr s fs secret : hist tr s -> contractPhase s = Unregistered -> c_minDeposit c = 0 -> In (o_me o) (added tr) -> ~ In (o_me o) (map who (registrations tr)) ->
    good_fs fs -> ~ In 47 (addr_text (o_me o)) -> mk_pk (member_random secret) <> g0 ->
    exists s' ev, let w := [(member_path (member_name addr_text o), Client.enc (j_member J) (of_member (member_random secret)))] in
      let call := RegisterNode (enck (mk_pk (member_random secret))) in node_register_ secret fs = (w, Ok call) /\ apply v E s (mkTx (o_me o) 0 call) = Ok (s', ev) /\
      owner s' = owner s /\ contractPhase s' = (if is_pre v && (Z.of_nat (length (registrations tr)) + 1 =? c_number c) then Registered else Unregistered) /\
      member_file J (effects fs w) (member_name addr_text o) (member_random secret).
  Proof.
    intros Hh P Md I NI G N47 NZ. pose proof HO as [Pt U D Ot On Om]. set (m := member_random secret) in *.
    assert (Pl : placed (member_path (member_name addr_text o))).
    { exists MEMBERS_DIR, (str "member_" ++ addr_text (o_me o)). split; [|split; [apply (in_dirs_nth 1); lia|apply in_app47; [no47|exact N47]]].
      unfold member_path, member_name, jp, join. cbn [concat]. rewrite !app_nil_r. reflexivity. }
    set (W := [(member_path (member_name addr_text o), Client.enc (j_member J) (of_member m))]).
    assert (E1 : run_ cfg (o_degree o) (Keygen (Some (member_name addr_text o)) secret) fs = (W, Ok tt)).
    { cbn [run_command]. unfold cmd_keygen, file_path. rewrite lift_ok. exact (proj1 (placed_save _ _ _ _ Pl G)). }
    destruct (F_register v E c tr s (o_me o) (enck (mk_pk m)) Hh P Om) as (s' & ev & A & Ow & Ph); [rewrite Md; reflexivity|exact I|exact NI|apply enck_on_curve; exact NZ|apply enck_u256|].
    rewrite Md in A. exists s', ev. cbv zeta. fold m. split; [|split; [exact A|split; [exact Ow|split; [exact Ph|]]]].
    - unfold node_register. rewrite client_bind, (cbind_ok _ _ _ _ _ E1). rewrite (load_raw (j_member J) _ (of_member m)); [|apply (ok_member J HJ)|cbn [effects fold_left W]; apply set_same].
      rewrite lift_run. change (let* pk := point_arg (sm_pk (of_member m)) in _) with (pk_call (of_gk (mk_pk m))). rewrite pk_call_of. reflexivity.
    - cbn [effects fold_left]. apply holds_saved; [apply (ok_member J HJ)|]. apply member_round. reflexivity.
  Qed.
  Theorem C49_registers tr s fs secret : hist tr s -> contractPhase s = Unregistered -> c_minDeposit c = 0 -> In (o_me o) (added tr) -> ~ In (o_me o) (map who (registrations tr)) ->
    good_fs fs -> ~ In 47 (addr_text (o_me o)) -> mk_pk (member_random secret) <> g0 ->
    exists w call s' ev, node_register_ secret fs = (w, Ok call) /\ apply v E s (mkTx (o_me o) 0 call) = Ok (s', ev) /\
      call = RegisterNode (enck (mk_pk (member_random secret))) /\ member_file J (effects fs w) (member_name addr_text o) (member_random secret).
  Proof.
    intros Hh P Md I NI G N47 NZ. destruct (registers tr s fs secret Hh P Md I NI G N47 NZ) as (s' & ev & X). cbv zeta in X. destruct X as (X1 & X2 & _ & _ & X3).
    eexists _, _, s', ev. split; [exact X1|]. split; [exact X2|]. split; [reflexivity|exact X3].
  Qed.
  (** with a deposit the service's registration is refused: it sends no ether *)
  Theorem C49_no_deposit tr s pk : hist tr s -> 0 < c_minDeposit c -> forall x, apply v E s (mkTx (o_me o) 0 (RegisterNode pk)) <> Ok x.
  Proof.
    intros Hh D [s' ev] A. destruct (C27_who_may v E c tr s _ s' ev Hh A) as [_ H]. specialize (H pk eq_refl). cbn [tvalue] in H. lia.
  Qed.
End Programs.
