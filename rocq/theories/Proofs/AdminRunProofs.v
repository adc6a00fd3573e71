(** The admin service over all schedules: what holds along a run. *)
From Coq Require Import ZArith String List Bool Lia.
From Verif.Base Require Import Fld Fp EC Primes Curves Group Fermat.
From Verif.Model Require Import Monad Evm Strings Points HashEvm Dkg Lib Serialise Files Cache Client Zkdvrf PairingSol GppSol RealEnv Services ServiceRun AdminRun.
From Verif.Spec Require Import Dvrf Onchain Histories Serial CacheSpec ClientSpec ServiceSpec.
From Verif.Proofs Require Import ZkdvrfStep ZkdvrfInv1 ZkdvrfInv2 ZkdvrfInv3 ZkdvrfThms Forward SerialProofs CacheProofs ClientProofs PipelineProofs RunFrame RunProofs Stable OnchainProofs.
From Verif.Props Require Import P_Services.
Import ListNotations.
Open Scope Z_scope.

(** ** files *)
Definition only (l : list path) (w : list (path * bytes)) : Prop := Forall (fun x => In (fst x) l) w.
Lemma only_incl l l' w : incl l l' -> only l w -> only l' w.
Proof. intros I H. eapply Forall_impl; [|exact H]. intros x Ix. apply I, Ix. Qed.
Lemma only_effects l w s p : only l w -> ~ In p l -> effects s w p = s p.
Proof. intros H N. apply effects_other. intros I. apply in_map_iff in I as (x & <- & I). unfold only in H. rewrite Forall_forall in H. exact (N (H x I)). Qed.
Lemma firstn_only l k w : only l w -> only l (firstn k w).
Proof. intros H. revert k. induction H as [|x w' Hx Hw IH]; intros [|k]; cbn [firstn]; constructor; auto. apply IH. Qed.
Lemma only_crashed l w s s' : only l w -> crashed s w s' -> exists w', only l w' /\ s' = effects s w'.
Proof.
  intros H [[k ->]|(w1 & p & b & w2 & j & -> & ->)]; eexists; (split; [|reflexivity]).
  - apply firstn_only, H.
  - apply Forall_app in H as [H1 H2]. inversion H2. subst. apply Forall_app. split; [exact H1|]. constructor; [assumption|constructor].
Qed.
Definition GPP_FILES := [all_instances_path; gpk_path; vks_path].
Definition RANDOM_FILES := [evals_path; pseudo_path].
Lemma gpk_not_random : ~ In gpk_path RANDOM_FILES.
Proof. intros [X|[X|[]]]; revert X; apply (neq_at 7); vm_compute; discriminate. Qed.
Lemma vks_not_random : ~ In vks_path RANDOM_FILES.
Proof. intros [X|[X|[]]]; revert X; apply (neq_at 7); vm_compute; discriminate. Qed.
Lemma placed_files p : In p (GPP_FILES ++ RANDOM_FILES) -> placed p.
Proof. intros [<-|[<-|[<-|[<-|[<-|[]]]]]]; [apply pl_inst|apply pl_gpk|apply pl_vks|apply pl_evals|apply pl_pseudo]. Qed.
Lemma only_good w s : only (GPP_FILES ++ RANDOM_FILES) w -> good_fs s -> good_fs (effects s w).
Proof. intros H. apply good_effects. eapply Forall_impl; [|exact H]. intros x. apply placed_files. Qed.

Section Programs.
  Variable keccak : bytes -> Z.
  Variable pairing : list (G1 * G2c) -> bool.
  Variable c : Zkdvrf.cfg.
  Variable poseidon : Fr -> Fr -> Fr.
  Variable J : json.
  Hypothesis HJ : json_ok J.
  Variable lag : list bytes -> Z -> list bytes.
  Variables vkey pkey : Type.
  Variable vk_write : vkey -> bytes.
  Variable vk_read : bytes -> res vkey.
  Variable pk_write : pkey -> bytes.
  Variable pk_read : bytes -> res pkey.
  Variable keygen_vk : kzg -> config -> res vkey.
  Variable keygen_pk : kzg -> vkey -> config -> res pkey.
  Variable get_vk : pkey -> vkey.
  Variable create_proof : kzg -> pkey -> member_params -> list Fr -> Z -> res bytes.
  Variable verify_proof : kzg -> vkey -> bytes -> list Fr -> bool.
  Variable o : options.
  Hypothesis HO : options_ok c o.
  Notation gpp_ := (admin_create_gpp keccak pairing poseidon J lag vkey pkey vk_write vk_read pk_write pk_read keygen_vk keygen_pk get_vk create_proof verify_proof o).
  Notation random_ := (admin_create_random keccak pairing poseidon J lag vkey pkey vk_write vk_read pk_write pk_read keygen_vk keygen_pk get_vk create_proof verify_proof o).
  Notation run_ := (run_command keccak pairing poseidon J lag vkey pkey vk_write vk_read pk_write pk_read keygen_vk keygen_pk get_vk create_proof verify_proof (mkConfig (o_threshold o) (o_members o)) (o_degree o)).
  Lemma bind_client {B} cm (k : unit -> cmd B) s : cbind (client keccak pairing poseidon J lag vkey pkey vk_write vk_read pk_write pk_read keygen_vk keygen_pk get_vk create_proof verify_proof o cm) k s = cbind (run_ cm) k s.
  Proof. eapply client_bind; eassumption. Qed.

  Lemma js_cases {A} (cd : codec A) p a s : exists w, js_write cd p a s = (w, Ok tt) /\ (w = [] \/ w = [(p, Client.enc cd a)]).
  Proof. unfold js_write. destruct (write_cases p (Client.enc cd a) s) as [->|[e ->]]; cbn [fst]; eauto. Qed.
  Lemma load_quiet {A} (cd : codec A) p s : fst (load_json cd p s) = [].
  Proof. unfold load_json, cbind, read_file, lift. destruct (s p) as [[t|]|]; cbn [effects fold_left app fst]; [destruct (dec cd t); reflexivity|reflexivity|reflexivity]. Qed.
  Definition quiet {A} (m : cmd A) : Prop := forall s, fst (m s) = [].
  Lemma quiet_bind {A B} (m : cmd A) (k : A -> cmd B) : quiet m -> (forall a, quiet (k a)) -> quiet (cbind m k).
  Proof.
    intros Q K s. unfold cbind. pose proof (Q s) as L. destruct (m s) as [w0 [a| |]]; cbn [fst] in L; subst w0; [|reflexivity|reflexivity].
    pose proof (K a (effects s [])) as Y. destruct (k a (effects s [])) as [w1 r1]. exact Y.
  Qed.
  Lemma quiet_load {A} (cd : codec A) p : quiet (load_json cd p). Proof. intros s. apply load_quiet. Qed.
  Lemma quiet_lift {A} (r : res A) : quiet (lift r). Proof. intros s. reflexivity. Qed.
  Lemma quiet_read p : quiet (read_file p).
  Proof. intros s. unfold read_file. destruct (s p) as [[t|]|]; reflexivity. Qed.
  Lemma quiet_run {A} (m : cmd A) s w r : quiet m -> m s = (w, r) -> w = [].
  Proof. intros Q X. pose proof (Q s) as Y. rewrite X in Y. exact Y. Qed.
  Lemma gpp_result ch s w r : gpp_ ch s = (w, r) -> only GPP_FILES w /\
    match r with Ok a => exists Q, a = ComputeVk (enc2 Q) /\ gpk_file J (effects s w) Q | _ => True end.
  Proof.
    unfold admin_create_gpp. destruct (js_cases (j_instances J) all_instances_path (map (map to_hex_string) (getPpList (ch 0%nat))) s) as (w0 & Js & W0).
    intros X. rewrite (cbind_ok _ _ _ _ _ Js), bind_client in X. clear Js. set (s0 := effects s w0) in *.
    assert (O0 : only GPP_FILES w0) by (destruct W0 as [->| ->]; repeat constructor).
    destruct (run_ (Derive None None) s0) as [w1 r1] eqn:D. pose proof D as D'. cbn [run_command] in D'. apply derive_cases in D'.
    assert (O1 : only GPP_FILES w1).
    { destruct D' as [[-> _]|(insts & pps & gpp & _ & _ & _ & [[-> _]|[[-> _]|(i & f & m & k & X1 & _)]])]; [constructor| | |discriminate X1]; repeat apply Forall_cons; try apply Forall_nil; cbn [fst gpk_write vks_write]; [right; left; reflexivity|right; left; reflexivity|right; right; left; reflexivity]. }
    unfold cbind at 1 in X. rewrite D in X.
    assert (Fin : forall w' r', (w0 ++ (w1 ++ w'), r') = (w, r) -> w' = [] -> only GPP_FILES w).
    { intros w' r' Y ->. rewrite app_nil_r in Y. assert (E : w = w0 ++ w1) by congruence. rewrite E. apply Forall_app. split; assumption. }
    destruct r1 as [[]|e|e]; [|split; [apply (Fin [] (Err e)); [rewrite app_nil_r; exact X|reflexivity]|assert (E : r = Err e) by congruence; rewrite E; exact I]|split; [apply (Fin [] (Panic e)); [rewrite app_nil_r; exact X|reflexivity]|assert (E : r = Panic e) by congruence; rewrite E; exact I]].
    destruct (cbind (load_json (j_point2 J) gpk_path) _ (effects s0 w1)) as [w2 r2] eqn:L in X.
    assert (W2 : w2 = []) by (eapply quiet_run; [|exact L]; apply quiet_bind; [apply quiet_load|intros; apply quiet_lift]). subst w2. split; [apply (Fin [] r2); [exact X|reflexivity]|].
    destruct D' as [[-> N]|(insts & pps & gpp & _ & _ & _ & [[-> N]|[[-> _]|(i & f & m & k & X1 & _)]])]; [destruct (N tt eq_refl)|destruct (N tt eq_refl)| |discriminate X1].
    assert (Ng : gpk_path <> vks_path) by (apply (neq_at 11); vm_compute; discriminate).
    assert (Hg : effects s0 [gpk_write J gpp; vks_write J gpp] gpk_path = Some (File (Client.enc (j_point2 J) (of_g2 (g_g2a gpp))))).
    { unfold gpk_write, vks_write. cbn [effects fold_left]. rewrite set_other by exact Ng. apply set_same. }
    rewrite (load_raw (j_point2 J) gpk_path (of_g2 (g_g2a gpp))), lift_run in L; [|apply (ok_point2 J HJ)|exact Hg].
    change (let* x0 := hex_num (s_x0 (of_g2 (g_g2a gpp))) in _) with (g2_call (of_g2 (g_g2a gpp))) in L. rewrite g2_call_of in L.
    assert (Er : r = Ok (ComputeVk (enc2 (g_g2a gpp)))) by congruence. rewrite Er. exists (g_g2a gpp). split; [reflexivity|].
    assert (Ew : w = w0 ++ [gpk_write J gpp; vks_write J gpp]) by (rewrite app_nil_r in X; congruence). rewrite Ew. unfold effects. rewrite fold_left_app. change (fold_left _ w0 s) with s0.
    exists (Client.enc (j_point2 J) (of_g2 (g_g2a gpp))), (of_g2 (g_g2a gpp)). split; [exact Hg|]. split; [apply (ok_point2 J HJ)|apply g2_round].
  Qed.
  Lemma random_result ch k s w r : random_ ch k s = (w, r) -> only RANDOM_FILES w /\
    match r with Ok a => exists (pr : Dkg.pseudo_random) gpk, gpk_file J s gpk /\ pr_verify keccak pairing pr (roundInput (ch 1%nat) k) gpk = Ok tt /\
                   a = SubmitRandom (mkPrand (PairingSol.enc (pr_proof pr)) (of_be (pr_value pr))) | _ => True end.
  Proof.
    intros X. split.
    - unfold admin_create_random in X. match type of X with context [js_write (j_evals J) evals_path ?l] => destruct (js_cases (j_evals J) evals_path l s) as (w0 & Js & W0) end.
      rewrite (cbind_ok _ _ _ _ _ Js), bind_client in X. clear Js. set (s0 := effects s w0) in *.
      assert (O0 : only RANDOM_FILES w0) by (destruct W0 as [->| ->]; repeat constructor).
      unfold cbind at 1 in X. destruct (run_ _ s0) as [w1 r1] eqn:D in X. cbn [run_command] in D. apply combine_cases in D.
      assert (O1 : only RANDOM_FILES w1).
      { destruct D as [[-> _]|(evs & gpk & used & pr & _ & _ & _ & _ & _ & _ & -> & _)]; [constructor|]. constructor; [right; left; reflexivity|constructor]. }
      destruct r1 as [[]|e|e]; [|assert (E : w = w0 ++ w1) by congruence; rewrite E; apply Forall_app; split; assumption|assert (E : w = w0 ++ w1) by congruence; rewrite E; apply Forall_app; split; assumption].
      match type of X with context [cbind ?m ?kk (effects s0 w1)] => destruct (cbind m kk (effects s0 w1)) as [w2 r2] eqn:L end.
      assert (W2 : w2 = []).
      { rewrite bind_client in L. eapply quiet_run; [|exact L]. apply quiet_bind; [cbn [run_command]; unfold cmd_verify_final|intros []].
        - repeat first [apply quiet_bind; [|intros]|apply quiet_load|apply quiet_lift|apply quiet_read].
        - repeat first [apply quiet_bind; [|intros]|apply quiet_load|apply quiet_lift|apply quiet_read]. }
      subst w2. rewrite app_nil_r in X. assert (E : w = w0 ++ w1) by congruence. rewrite E. apply Forall_app. split; assumption.
    - destruct r as [a|e|e]; [|exact I|exact I].
      exact (C50_only_verified keccak pairing c poseidon J HJ lag vkey pkey vk_write vk_read pk_write pk_read keygen_vk keygen_pk get_vk create_proof verify_proof o HO ch k s w a X).
  Qed.
End Programs.
