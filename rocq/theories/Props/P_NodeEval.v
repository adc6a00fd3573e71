(** C49, C50: what the services submit after the set-up.
    Every chain of states read from the contract and every directory: a submitted evaluation is one made with the node's
    stored share for the round's input and passes the contract's check under the key at the node's position; the submitted
    group key is the one every client derives from the dealings the contract lists.  C49_first_meets (P_NodeFirst.v) and
    C50_keys_completed with C68's and C69's runs meet the hypotheses. *)
From Coq Require Import ZArith String List Bool Lia.
From Verif.Base Require Import Fld Fp EC Primes Curves Group Fermat.
From Verif.Model Require Import Monad Evm Strings Points HashEvm Dkg Lib Serialise Files Cache Client Zkdvrf PairingSol HashSol PseudoRandSol GppSol RealEnv Services.
From Verif.Spec Require Import Dvrf Onchain Histories Serial CacheSpec ClientSpec CircuitSpec ServiceSpec DemoSpec.
From Verif.Proofs Require Import HashProofs OnchainProofs DkgProofs DvrfProofs SerialProofs BytesProofs CacheProofs ClientProofs InstanceProofs ProveProofs PipelineProofs PipelineRuns ZkdvrfInv1 ServiceProofs DemoFiles DemoSetup.
From Verif.Props Require Import P_Dvrf P_Onchain P_Contract P_EndToEnd P_Live P_Client.
From Verif.Props Require Import P_Services P_Cache P_Prove.
Import ListNotations.
Open Scope Z_scope.

Lemma evaluate_index keccak k input r e : evaluate keccak k input r = Ok e -> pe_index e = index k.
Proof.
  intros H. destruct (evaluate_ok keccak k input r) as (h & _ & E). rewrite E in H.
  exact (eq_sym (f_equal (fun x => match x with Ok e => pe_index e | _ => 0 end) H)).
Qed.
Lemma share_index poseidon m cfg i pps k : dkg_share_key poseidon m cfg i pps = Ok k -> index k = i.
Proof.
  unfold dkg_share_key. intros H. destruct (_ || _)%bool; [discriminate|]. apply bind_ok in H as (x & _ & H).
  exact (eq_sym (f_equal (fun x => match x with Ok e => index e | _ => 0 end) H)).
Qed.
Section NodeEval.
  Variable keccak : bytes -> Z.
  Variable pairing : list (G1 * G2c) -> bool.
  Variable c : Zkdvrf.cfg.
  Variable poseidon : Fr -> Fr -> Fr.
  Variable J : json.
  Hypothesis HJ : json_ok J.
  Variable lag : list bytes -> Z -> list bytes.
  Variables vkey pkey : Type.
  Variable vk_write : vkey -> bytes.
  Variable vk_read : bytes -> res vkey.
  Variable pk_write : pkey -> bytes.
  Variable pk_read : bytes -> res pkey.
  Variable keygen_vk : kzg -> config -> res vkey.
  Variable keygen_pk : kzg -> vkey -> config -> res pkey.
  Variable get_vk : pkey -> vkey.
  Variable create_proof : kzg -> pkey -> member_params -> list Fr -> Z -> res bytes.
  Variable verify_proof : kzg -> vkey -> bytes -> list Fr -> bool.
  Variable o : options.
  Hypothesis HO : options_ok c o.
  Notation cfg := (mkConfig (o_threshold o) (o_members o)).
  Notation submit := (node_submit_eval keccak pairing poseidon J lag vkey pkey vk_write vk_read pk_write pk_read keygen_vk keygen_pk get_vk create_proof verify_proof o).
  Notation create_gpp := (admin_create_gpp keccak pairing poseidon J lag vkey pkey vk_write vk_read pk_write pk_read keygen_vk keygen_pk get_vk create_proof verify_proof o).
  Let CR : forall cm s, client keccak pairing poseidon J lag vkey pkey vk_write vk_read pk_write pk_read keygen_vk keygen_pk get_vk create_proof verify_proof o cm s =
       run_command keccak pairing poseidon J lag vkey pkey vk_write vk_read pk_write pk_read keygen_vk keygen_pk get_vk create_proof verify_proof cfg (o_degree o) cm s.
  Proof. intros. exact (client_run keccak pairing c poseidon J lag vkey pkey vk_write vk_read pk_write pk_read keygen_vk keygen_pk get_vk create_proof verify_proof o HO cm s). Qed.

  (** whatever evaluation the node submits, it made with the share stored for its position, for the input of the current
      round, and it verifies under the verification key stored for that position *)
  Theorem C49_evaluation_valid ch r fs w call : submit ch r fs = (w, Ok call) ->
    exists i k e vks vkk, getIndexPlus (ch 2%nat) (o_me o) = Ok i /\ 1 <= i <= o_members o /\
      share_file J fs i k /\ vks_file J fs vks /\ nth_error vks (Z.to_nat (i - 1)) = Some vkk /\
      let input := roundInput (ch 1%nat) (currentRoundNum (ch 0%nat)) in
      evaluate keccak k input r = Ok e /\ pe_verify keccak e cfg input vkk = Ok tt /\
      call = SubmitPartialEval (mkPeval (pe_index e) (PairingSol.enc (pe_value e)) (val_r (pe_z e)) (val_r (pe_c e))).
  Proof.
    intros H. unfold node_submit_eval in H.
    apply cb_inv in H as (w1 & i & w2 & H1 & H & ->). apply li_inv in H1 as [-> Gi]. cbn [effects fold_left app] in H.
    apply cb_inv in H as (w3 & [] & w4 & H1 & H & ->). rewrite CR in H1. cbn [run_command] in H1. unfold cmd_eval in H1.
    set (input := roundInput _ _) in *.
    apply cb_inv in H1 as (w5 & [] & w6 & H2 & H1 & ->). apply (li_inv _ fs) in H2 as [-> Hi]. cbn [effects fold_left app] in H1.
    apply cb_inv in H1 as (w7 & kb & w8 & H2 & H1 & ->). apply lj_inv in H2 as (-> & t & T1 & T2). cbn [effects fold_left app] in H1.
    apply cb_inv in H1 as (w9 & k & w10 & H2 & H1 & ->). apply li_inv in H2 as [-> K1]. cbn [effects fold_left app] in H1.
    apply cb_inv in H1 as (w11 & e & w12 & H2 & H1 & ->). apply li_inv in H2 as [-> Ev]. cbn [effects fold_left app] in H1.
    apply wf_inv in H1. subst w12. cbn [effects fold_left app] in H. set (fs1 := set fs _ _) in H.
    assert (Ri : 1 <= i <= o_members o). { cbn [number_of_members] in Hi. clear -Hi. destruct (Z.ltb_spec i 1); [discriminate|]. destruct (Z.ltb_spec (o_members o) i); [discriminate|]. lia. }
    assert (Ef : eval_file J fs1 i e) by (apply holds_saved; [apply (ok_eval J HJ)|apply eval_round]).
    assert (Er : fs1 (eval_path i) = Some (File (Client.enc (j_eval J) (of_eval e)))) by apply set_same.
    assert (Vo : fs1 vks_path = fs vks_path). { unfold fs1. apply set_other. apply (neq_at 7). rewrite eval_7. vm_compute. discriminate. }
    clearbody fs1.
    apply cb_inv in H as (w13 & [] & w14 & H1 & H & ->). rewrite CR in H1. cbn [run_command] in H1. unfold cmd_rand_verify in H1.
    apply cb_inv in H1 as (w15 & [] & w16 & H2 & H1 & ->). apply (li_inv _ fs1) in H2 as [-> _]. cbn [effects fold_left app] in H1.
    apply cb_inv in H1 as (w17 & eb & w18 & H2 & H1 & ->). apply lj_inv in H2 as (-> & t1 & E1 & E2). cbn [effects fold_left app] in H1.
    apply cb_inv in H1 as (w19 & e' & w20 & H2 & H1 & ->). apply li_inv in H2 as [-> E3]. cbn [effects fold_left app] in H1.
    assert (e' = e). { exact (holds_fun fs1 (eval_path i) (j_eval J) to_eval e' e (ex_intro _ t1 (ex_intro _ eb (conj E1 (conj E2 E3)))) Ef). } subst e'.
    apply cb_inv in H1 as (w21 & vb & w22 & H2 & H1 & ->). apply lj_inv in H2 as (-> & t2 & V1 & V2). cbn [effects fold_left app] in H1.
    apply cb_inv in H1 as (w23 & vks & w24 & H2 & H1 & ->). apply li_inv in H2 as [-> V3]. cbn [effects fold_left app] in H1.
    apply cb_inv in H1 as (w25 & vkk & w26 & H2 & H1 & ->). apply li_inv in H2 as [-> V4]. cbn [effects fold_left app] in H1.
    apply li_inv in H1 as [-> Pv]. cbn [effects fold_left app] in H.
    apply cb_inv in H as (w27 & eb' & w28 & H1 & H & ->). apply lj_inv in H1 as (-> & t3 & F1 & F2). cbn [effects fold_left app] in H.
    apply li_inv in H as [_ H]. rewrite Er in F1. injection F1 as <-. rewrite (proj1 (ok_eval J HJ)) in F2. injection F2 as <-.
    change (eval_call (of_eval e) = Ok call) in H. rewrite eval_call_of in H. injection H as <-.
    exists i, k, e, vks, vkk. split; [exact Gi|]. split; [exact Ri|]. split; [exists t, kb; exact (conj T1 (conj T2 K1))|]. split; [exists t2, vb; rewrite <- Vo; exact (conj V1 (conj V2 V3))|].
    split; [|split; [exact Ev|split; [exact Pv|reflexivity]]]. clear -V4. unfold get in V4. destruct (i - 1 <? 0); [discriminate|]. destruct (nth_error vks _); [congruence|discriminate].
  Qed.

  (** the first evaluation of a node: the share is the one derived from the node's own member key and the dealings the
      contract lists, and the evaluation verifies under the key the dealings give that position *)
  Variable addr_text : Z -> bytes.
  Notation derive := (node_derive keccak pairing poseidon J lag vkey pkey vk_write vk_read pk_write pk_read keygen_vk keygen_pk get_vk create_proof verify_proof addr_text o).
  Theorem C49_first_evaluation_valid ch ch' r fs w call insts i : good_fs fs -> getPpList (ch 0%nat) = map (map val_r) insts ->
    getIndexPlus (ch 1%nat) (o_me o) = Ok i -> getIndexPlus (ch' 2%nat) (o_me o) = Ok i ->
    cbind (derive ch) (fun _ => submit ch' r) fs = (w, Ok call) ->
    exists m pps gpp k e, 1 <= i <= o_members o /\ member_file J fs (member_name addr_text o) m /\
      mapM (fun x => let* (pp, _) := from_instance cfg x in Ok pp) insts = Ok pps /\ dkg_global_public_params pps = Ok gpp /\
      dkg_share_key poseidon m cfg i pps = Ok k /\ vk k = g1mul g1 (sk k) /\ nth_error (verify_keys gpp) (Z.to_nat (i - 1)) = Some (vk k) /\
      let input := roundInput (ch' 1%nat) (currentRoundNum (ch' 0%nat)) in
      evaluate keccak k input r = Ok e /\ pe_verify keccak e cfg input (vk k) = Ok tt /\
      call = SubmitPartialEval (mkPeval (pe_index e) (PairingSol.enc (pe_value e)) (val_r (pe_z e)) (val_r (pe_c e))).
  Proof.
    intros G0 L I1 I2 H. apply cb_inv in H as (wa & [] & wb & H0 & H & _). unfold node_derive in H0. rewrite L in H0.
    apply cb_inv in H0 as (w1 & [] & w2 & H1 & H0 & ->). rewrite (js_run (j_instances J) all_instances_path _ fs pl_inst G0) in H1. injection H1 as <-. cbn [effects fold_left] in H0.
    rewrite effects_app in H. cbn [effects fold_left] in H.
    set (fs0 := set fs _ _) in *.
    assert (If0 : instances_file J fs0 insts) by (apply holds_saved; [apply (ok_instances J HJ)|apply read_insts]).
    assert (Mf0 : fs0 (member_path (member_name addr_text o)) = fs (member_path (member_name addr_text o))). { unfold fs0. apply set_other. apply member_neq. vm_compute. discriminate. }
    clearbody fs0.
    apply cb_inv in H0 as (w3 & i' & w4 & H1 & H0 & ->). apply li_inv in H1 as [-> Gi]. cbn [effects fold_left app] in H0, H.
    assert (i' = i) by congruence. subst i'. rewrite CR in H0. cbn [run_command] in H0.
    assert (NI : forall (r : res unit) w0, ClientProofs.idle w0 r -> r = Ok tt -> False) by (intros r0 w0 [_ N] E; exact (N tt E)).
    apply derive_cases in H0 as [X|(insts' & pps & gpp & F & D & G & X)]; [destruct (NI _ _ X eq_refl)|].
    assert (insts' = insts) by exact (holds_fun _ _ _ _ _ _ F If0). subst insts'.
    destruct X as [[_ N]|[[_ N]|(i' & f & m & k & Ei & Ef & Ri & Mf & Sk & Sv & -> & _)]]; [destruct (N tt eq_refl)|pose proof (proj1 N eq_refl) as Q; discriminate Q|].
    injection Ei as <-. injection Ef as <-. cbn [number_of_members] in Ri.
    destruct (share_facts poseidon o m i pps k gpp Sk Sv) as (Ik & Vk & Gv).
    set (fs1 := List.fold_left _ _ _) in H.
    assert (Sf : share_file J fs1 i k).
    { exists (Client.enc (j_share J) (of_share k)), (of_share k). split; [|split; [apply (ok_share J HJ)|apply share_round; exact Vk]]. unfold fs1. cbn [fold_left]. unfold share_write. rewrite Ik. apply set_same. }
    assert (Vf : vks_file J fs1 (verify_keys gpp)).
    { exists (Client.enc (j_points J) (map of_g1 (verify_keys gpp))), (map of_g1 (verify_keys gpp)). split; [|split; [apply (ok_points J HJ)|exact (map_round of_g1 to_g1 _ g1_round)]].
      unfold fs1. cbn [fold_left]. unfold share_write, vks_write. rewrite Ik. rewrite set_other; [apply set_same|]. apply (neq_at 11). rewrite share_path_eq. vm_compute. discriminate. }
    clearbody fs1.
    destruct (C49_evaluation_valid ch' r fs1 wb call H) as (i' & k' & e & vks' & vkk & A1 & _ & A3 & A4 & A5 & A6 & A7 & A8).
    assert (i' = i) by congruence. subst i'. assert (k' = k) by exact (holds_fun _ _ _ _ _ _ A3 Sf). subst k'.
    assert (vks' = verify_keys gpp) by exact (holds_fun _ _ _ _ _ _ A4 Vf). subst vks'.
    assert (Nv : nth_error (verify_keys gpp) (Z.to_nat (i - 1)) = Some (vk k)) by (apply get_inv in Gv as [_ Gv]; exact Gv).
    assert (Q : Some vkk = Some (vk k)) by (rewrite <- A5; exact Nv). injection Q as ->.
    exists m, pps, gpp, k, e. split; [exact Ri|]. split; [revert Mf; apply holds_ext; symmetry; exact Mf0|]. split; [exact D|]. split; [exact G|]. split; [exact Sk|]. split; [exact Vk|]. split; [exact Nv|].
    split; [exact A6|]. split; [exact A7|exact A8].
  Qed.

  (** the contract accepts it: no first evaluation a registered node sends in an open round is refused *)
  Variable v : variant.
  Variable in_g2 : G2c -> bool.
  Variable halo2 : Z -> bytes -> list Z -> res bool.
  Hypothesis K : keccak_ok keccak.
  Hypothesis HG : in_g2_ok in_g2.
  Hypothesis HP : pairing_ok pairing.
  Notation E := (real_env keccak in_g2 pairing halo2).
  Notation hist := (Histories.hist v E c).
  Theorem C49_sent_accepted tr s i fs r w call insts : hist tr s -> let n := currentRoundNum s in 1 <= n -> no_random s n ->
    znth (map who (registrations tr)) i = Some (o_me o) -> ~ In (o_me o) (map fst (evals tr n)) ->
    good_fs fs -> insts <> [] -> getPpList s = map (map val_r) insts ->
    cbind (derive (fun _ => s)) (fun _ => submit (fun _ => s) r) fs = (w, Ok call) ->
    exists s' ev, apply v E s (mkTx (o_me o) 0 call) = Ok (s', ev) /\ roundSubmissionCount s' n = roundSubmissionCount s n + 1.
  Proof.
    intros Hh n Hn NR Zi NI G NE L H. destruct (index_of v keccak in_g2 pairing halo2 c o tr s i Hh Zi) as [Gi Ri].
    destruct (C49_first_evaluation_valid (fun _ => s) (fun _ => s) r fs w call insts (i + 1) G L Gi Gi H) as (m & pps & gpp & k & e & Rm & _ & D & Gp & Sk & Vk & Nv & Ev & Pv & ->).
    assert (Ie : pe_index e = i + 1) by (rewrite (evaluate_index _ _ _ _ _ Ev); exact (share_index _ _ _ _ _ _ Sk)).
    pose proof HO as [P U Dg Ot On Om].
    assert (Rd : contractPhase s = Ready). { destruct (C31_rounds v E c tr s Hh) as (_ & Hr & _). apply Hr. fold n. clear -Hn. lia. }
    destruct (C52_keys v keccak in_g2 pairing halo2 HG HP c tr s cfg insts pps Hh Rd On NE L (decoded o _ _ D)) as (gpp' & sec & Gp' & VK & _).
    assert (Q : Ok gpp = Ok gpp') by (rewrite <- Gp; exact Gp'). injection Q as <-.
    assert (Inp : roundInput s n = round_input n). { destruct (C31_rounds v E c tr s Hh) as (_ & _ & _ & _ & Hr & _). apply (Hr n). clear -Hn. unfold n in *. lia. }
    fold n in Ev, Pv. rewrite Inp in Ev, Pv.
    destruct (C53_evaluation_accepted v keccak in_g2 pairing halo2 K c tr s n i (o_me o) (vk k) cfg e Hh eq_refl Hn NR Zi Om NI) as (s' & ev & A & Cn & _).
    - rewrite VK, znth_map. replace (znth (verify_keys gpp) i) with (Some (vk k)); [reflexivity|]. clear -Nv Ri. symmetry. unfold znth. destruct (Z.ltb_spec i 0); [lia|]. replace (i + 1 - 1) with i in Nv by lia. exact Nv.
    - exact On.
    - exact Ie.
    - exact Pv.
    - exists s', ev. split; [exact A|exact Cn].
  Qed.

  (** whatever group key the admin submits, it is the second-group key of the parameters derived from the dealings the
      contract lists *)
  Theorem C50_keys_derived ch fs w call insts : good_fs fs -> getPpList (ch 0%nat) = map (map val_r) insts -> create_gpp ch fs = (w, Ok call) ->
    exists pps gpp, mapM (fun x => let* (pp, _) := from_instance cfg x in Ok pp) insts = Ok pps /\
      dkg_global_public_params pps = Ok gpp /\ call = ComputeVk (enc2 (g_g2a gpp)).
  Proof.
    intros G0 L H. unfold admin_create_gpp in H. rewrite L in H.
    apply cb_inv in H as (w1 & [] & w2 & H1 & H & ->). rewrite (js_run (j_instances J) all_instances_path _ fs pl_inst G0) in H1. injection H1 as <-. cbn [effects fold_left] in H.
    set (fs0 := set fs _ _) in H.
    assert (If0 : instances_file J fs0 insts) by (apply holds_saved; [apply (ok_instances J HJ)|apply read_insts]). clearbody fs0.
    apply cb_inv in H as (w3 & [] & w4 & H1 & H & ->). rewrite CR in H1. cbn [run_command] in H1.
    assert (NI : forall (r : res unit) w0, ClientProofs.idle w0 r -> r = Ok tt -> False) by (intros r0 w0 [_ N] E; exact (N tt E)).
    apply derive_cases in H1 as [I|(insts' & pps & gpp & F & D & G & X)]; [destruct (NI _ _ I eq_refl)|].
    assert (insts' = insts) by exact (holds_fun _ _ _ _ _ _ F If0). subst insts'.
    assert (W : w3 = [gpk_write J gpp; vks_write J gpp]).
    { destruct X as [[_ N]|[[-> _]|(i & f & m & k & N & _)]]; [destruct (N tt eq_refl)|reflexivity|discriminate]. }
    subst w3. unfold gpk_write, vks_write in H. cbn [effects fold_left] in H.
    apply cb_inv in H as (w5 & gb & w6 & H1 & H & ->). apply lj_inv in H1 as (-> & t & T1 & T2). cbn [effects fold_left app] in H.
    assert (Ng : gpk_path <> vks_path) by (apply (neq_at 11); vm_compute; discriminate).
    rewrite set_other in T1 by exact Ng. rewrite set_same in T1. injection T1 as <-. rewrite (proj1 (ok_point2 J HJ)) in T2. injection T2 as <-.
    apply li_inv in H as [_ H]. change (g2_call (of_g2 (g_g2a gpp)) = Ok call) in H. rewrite g2_call_of in H. injection H as <-.
    exists pps, gpp. auto.
  Qed.
End NodeEval.
Print Assumptions C49_evaluation_valid.
Print Assumptions C49_first_evaluation_valid.
Print Assumptions C49_sent_accepted.
Print Assumptions C50_keys_derived.
