(** The commands of the client run one after the other. *)
From Coq Require Import ZArith String List Bool Lia Arith.
From Verif.Base Require Import Fld Fp EC Primes Curves Group Fermat Poly.
From Verif.Model Require Import Monad Evm Strings Points HashEvm Dkg Lib Serialise Files Cache Client.
From Verif.Spec Require Import Dvrf CacheSpec ClientSpec.
From Verif.Proofs Require Import HashProofs DkgProofs DvrfProofs SerialProofs CacheProofs ClientProofs InstanceProofs GppProofs PipelineProofs.
From Verif.Props Require Import P_Dvrf.
Import ListNotations.
Open Scope Z_scope.

Lemma effects_last A p b B s : ~ In p (map fst B) -> effects s (A ++ (p, b) :: B) p = Some (File b).
Proof. intros N. rewrite effects_app. change (effects (effects s A) ((p, b) :: B)) with (effects (set (effects s A) p (File b)) B). rewrite effects_notin by exact N. apply set_same. Qed.
Lemma notin_at n v (p : path) l : nth n p 0 <> v -> Forall (fun q => nth n q 0 = v) l -> ~ In p l.
Proof. intros N F I. rewrite Forall_forall in F. apply F in I. congruence. Qed.
Lemma save_good {A B} (c : codec A) p a (k : unit -> cmd B) s : placed p -> good_fs s ->
  cbind (save_json c p a) k s = let '(w, r) := k tt (set s p (File (enc c a))) in ((p, enc c a) :: w, r).
Proof. intros P G. unfold cbind. rewrite (proj1 (placed_save c p a s P G)). reflexivity. Qed.
Lemma loop_good {X A B} (f : X -> cmd unit) (c : codec A) (pth : X -> path) (val : X -> A) l (k : unit -> cmd B) s :
  (forall x, In x l -> f x = save_json c (pth x) (val x)) -> (forall x, In x l -> placed (pth x)) -> good_fs s ->
  let w := map (fun x => (pth x, enc c (val x))) l in
  cbind (for_each f l) k s = let '(w', r) := k tt (effects s w) in (w ++ w', r).
Proof. intros F P G w. unfold cbind. rewrite (for_each_saves f c pth val l F P s G). fold w. reflexivity. Qed.

Lemma share_12 i : nth 12 (share_path i) 0 = 104. Proof. rewrite share_path_eq. reflexivity. Qed.
Lemma secret_12 i : nth 12 (secret_path i) 0 = 101. Proof. unfold secret_path, join at 1. cbn [concat]. reflexivity. Qed.
Lemma secret_11 i : nth 11 (secret_path i) 0 = 115. Proof. unfold secret_path, join at 1. cbn [concat]. reflexivity. Qed.
Lemma share_11 i : nth 11 (share_path i) 0 = 115. Proof. rewrite share_path_eq. reflexivity. Qed.
Lemma member_7 i : nth 7 (mock_member_path i) 0 = 109. Proof. rewrite mock_member_path_jp. reflexivity. Qed.
Lemma share_7 i : nth 7 (share_path i) 0 = 100. Proof. rewrite share_path_eq. reflexivity. Qed.
Lemma secret_7 i : nth 7 (secret_path i) 0 = 100. Proof. unfold secret_path, join at 1. cbn [concat]. reflexivity. Qed.
Lemma eval_7 i : nth 7 (eval_path i) 0 = 114. Proof. rewrite eval_path_eq. reflexivity. Qed.
Lemma eval_15 i : nth 15 (eval_path i) 0 = 118. Proof. rewrite eval_path_eq. reflexivity. Qed.

Section Pipeline.
  Variable keccak : bytes -> Z.
  Variable pairing : list (G1 * G2c) -> bool.
  Hypothesis HP : pairing_ok pairing.
  Variable poseidon : Fr -> Fr -> Fr.
  Variable J : json.
  Hypothesis HJ : json_ok J.
  Variable cfg : config.
  Variable secrets : list Fq.
  Variable dealers : list (list Fr * Fr).
  Let members := map member_random secrets.
  Hypothesis HH : honest cfg members dealers.
  Let n := length members.
  Let total := total dealers.
  Let pps := map (pp_of poseidon members) dealers.
  Let gpp := mkGPP (g1mul g1 (group_secret dealers)) (g2mul g2 (group_secret dealers)) (map (fun i => g1mul g1 (total (fr i))) (zseq n)).
  Definition key_at (i : Z) : share_key := mkShareKey i (DvrfProofs.total dealers (fr i)) (g1mul g1 (DvrfProofs.total dealers (fr i))).
  Let keys := map key_at (zseq n).

  Definition members_in (s : fs) : Prop := forall i m, get members (i - 1) = Ok m -> holds s (mock_member_path i) (j_member J) to_member m.

  Lemma range_i i : In i (zseq n) -> 1 <= i < 2 ^ 64.
  Proof. intros I. apply in_zseq in I. destruct (cfg_facts _ _ _ HH) as (_ & _ & N). pose proof (h_members _ _ _ HH) as L. unfold zlen in L. fold n in L. unfold M64 in N. lia. Qed.

  (** ** mock members *)
  Lemma members_runs s : good_fs s -> exists w, mock_members J secrets s = (w, Ok tt) /\ Forall (fun x => placed (fst x)) w /\
    members_in (effects s w) /\ mpks_file J (effects s w) (map mk_pk members).
  Proof.
    intros G. unfold mock_members. set (ms := map (fun s => of_member (member_random s)) secrets).
    assert (EM : ms = map of_member members) by (unfold ms, members; rewrite map_map; reflexivity).
    assert (NR : forall i m, In (i, m) (numbered ms) -> 1 <= i < 2 ^ 64).
    { intros i m I. apply (in_map fst) in I. rewrite numbered_fst in I. apply range_i. rewrite EM, map_length in I. exact I. }
    rewrite (save_good _ _ _ _ _ pl_mpks G).
    rewrite (for_each_saves _ (j_member J) (fun '(i, m) => mock_member_path i) (fun '(i, m) => m)).
    2:{ intros [i m] _. reflexivity. }
    2:{ intros [i m] I. apply pl_member. apply NR in I. lia. }
    2:{ rewrite mpks_jp. apply good_set. exact G. }
    eexists. split; [reflexivity|]. split; [|split].
    - constructor; [exact pl_mpks|]. apply Forall_forall. intros x I. apply in_map_iff in I as ([i m] & <- & I). apply pl_member. apply NR in I. lia.
    - intros i m Gm. exists (enc (j_member J) (of_member m)), (of_member m). split; [|split; [apply (proj1 (ok_member J HJ))|]].
      + match goal with |- effects s (?a :: ?b) _ = _ => change (effects s (a :: b)) with (effects (effects s [a]) b) end.
        apply effects_in.
        * rewrite map_map. rewrite (map_ext _ (fun x => mock_member_path (fst x))) by (intros [? ?]; reflexivity). rewrite <- (map_map fst mock_member_path), numbered_fst.
          rewrite EM, map_length. apply NoDup_map_on; [|apply NoDup_zseq]. intros x y Ix Iy. apply range_i in Ix, Iy. apply member_inj; lia.
        * apply in_map_iff. exists (i, of_member m). split; [reflexivity|]. apply numbered_nth. apply get_inv in Gm as [H0 Gm]. split; [lia|].
          rewrite EM, nth_error_map, Gm. reflexivity.
      + apply member_round. unfold members in Gm. rewrite get_map in Gm. apply bind_ok in Gm as (x & _ & E). assert (m = member_random x) by congruence. subst. reflexivity.
    - exists (enc (j_points J) (map sm_pk ms)), (map sm_pk ms). split; [|split; [apply (proj1 (ok_points J HJ))|]].
      + match goal with |- effects s (?a :: ?b) _ = _ => change (effects s (a :: b)) with (effects s ([] ++ a :: b)) end.
        apply effects_last. apply (notin_at 8 101); [vm_compute; discriminate|]. apply Forall_forall. intros p I. apply in_map_iff in I as ([q c] & <- & I). apply in_map_iff in I as ([i m] & E & I).
        cbn [fst]. assert (q = mock_member_path i) by congruence. subst. rewrite mock_member_path_jp. reflexivity.
      + rewrite EM, map_map. rewrite <- (map_map mk_pk of_gk). apply map_round. apply gk_round.
  Qed.

  (** ** mock dkg *)
  Lemma honest_members s : members_in s ->
    mapC (fun i => do b := load_json (j_member J) (mock_member_path i) in lift (to_member b)) (one_to (number_of_members cfg)) s = ([], Ok members).
  Proof.
    intros M. apply mapC_loads. rewrite (one_to_zseq members) by (apply (h_members _ _ _ HH)). apply Forall2_numbered. intros i m I. apply M.
    apply numbered_nth in I as [H E]. apply get_ok; [lia|exact E].
  Qed.
  Lemma deal_each : exists dkgs, mapM (fun '(coeffs, r) => unwrap_res (member_params_new poseidon cfg (map mk_pk members) coeffs r)) dealers = Ok dkgs /\
    map mp_public_params dkgs = pps /\ Forall (fun d => mp_public_keys d = map mk_pk members) dkgs /\ length dkgs = length dealers.
  Proof.
    destruct (cfg_facts _ _ _ HH) as (Ht & Htn & Hn). unfold pps. pose proof (deal_ok poseidon cfg members dealers Ht Htn (h_members _ _ _ HH) (h_coeffs _ _ _ HH)) as D.
    revert D. generalize dealers; intros l0. induction l0 as [|[co r] l IH]; intros D.
    - exists []. repeat split. constructor.
    - destruct IH as (ds & E & M & F & L); [intros d I; apply D; right; exact I|]. destruct (D (co, r)) as (mp & Em & Ep); [left; reflexivity|]. cbn [fst snd] in Em.
      exists (mp :: ds). cbn [mapM map length]. rewrite Em. cbn [unwrap_res bind]. rewrite E. cbn [bind]. split; [reflexivity|]. split; [cbn [map]; rewrite Ep, M; reflexivity|]. split; [|lia].
      constructor; [|exact F]. unfold member_params_new in Em. apply bind_ok in Em as (? & _ & Em). apply bind_ok in Em as (? & _ & Em). apply bind_ok in Em as (? & _ & Em).
      apply bind_ok in Em as (? & _ & Em). apply bind_ok in Em as (? & _ & Em). assert (X : forall a b : member_params, Ok a = Ok b -> mp_public_keys b = mp_public_keys a) by congruence.
      apply X in Em. cbn [mp_public_keys] in Em. exact Em.
  Qed.
  Lemma inst_each dkgs : map mp_public_params dkgs = pps -> Forall (fun d => mp_public_keys d = map mk_pk members) dkgs ->
    exists insts, mapM (fun d => instance_of (mp_public_params d) (mp_public_keys d)) dkgs = Ok insts /\
      mapM (fun i => let* (pp, _) := from_instance cfg i in Ok pp) insts = Ok pps.
  Proof.
    intros M F. assert (P : Forall (fun d => length (public_shares (mp_public_params d)) = n /\ length (ciphers (mp_public_params d)) = n) dkgs).
    { apply Forall_forall. intros d I. apply (in_map mp_public_params) in I. rewrite M in I. unfold pps in I. apply in_map_iff in I as (x & <- & _).
      split; [apply pp_of_shares|]. unfold pp_of. cbn [ciphers]. rewrite map_length, combine_length, length_zseq, map_length. apply Nat.min_id. }
    rewrite <- M. clear M. induction dkgs as [|d l IH]; [exists []; split; reflexivity|].
    inversion F as [|? ? F1 F2]. inversion P as [|? ? [P1 P1'] P2]. subst. destruct (IH F2 P2) as (is & E1 & E2).
    assert (LP : length (map mk_pk members) = n) by (apply map_length).
    pose proof (instance_shares (mp_public_params d) (map mk_pk members) ltac:(rewrite LP; exact P1)) as E.
    match type of E with _ = Ok ?x => set (inst := x) in E end. exists (inst :: is).
    cbn [mapM map]. rewrite F1, E. cbn [bind]. rewrite E1. cbn [bind]. split; [reflexivity|].
    assert (ZL : zlen (map mk_pk members) = number_of_members cfg) by (unfold zlen; rewrite map_length; apply (h_members _ _ _ HH)).
    rewrite (from_instance_of cfg (mp_public_params d) (map mk_pk members) inst); auto; [|rewrite LP; exact P1|rewrite LP; exact P1'|].
    - cbn [bind]. rewrite E2. reflexivity.
    - exact (proj1 (C11_instance_size cfg _ _ _ ZL ltac:(rewrite LP; exact P1') E)).
  Qed.
  Lemma keys_each : mapM (fun '(i, m) => let* k := unwrap_res (dkg_share_key poseidon m cfg i pps) in
                                          let* _ := unwrap_res (share_key_verify k cfg (verify_keys gpp)) in Ok k) (numbered members) = Ok keys.
  Proof.
    destruct (cfg_facts _ _ _ HH) as (Ht & Htn & Hn). rewrite (mapM_ok _ (fun x => key_at (fst x))).
    - unfold keys. rewrite <- (map_map fst key_at), numbered_fst. reflexivity.
    - intros [i m] I. apply numbered_nth in I as [Hi I]. assert (Gm : get members (i - 1) = Ok m) by (apply get_ok; [lia|exact I]).
      assert (L : (Z.to_nat (i - 1) < n)%nat) by (unfold n; apply nth_error_Some; congruence).
      unfold pps. assert (SK : dkg_share_key poseidon m cfg i (map (pp_of poseidon members) dealers) = Ok (key_at i)) by (apply share_key_ok; auto; apply HH). rewrite SK. cbn [unwrap_res bind fst].
      unfold share_key_verify. cbn [index vk key_at]. pose proof (h_members _ _ _ HH) as HL. unfold zlen in HL. fold n in HL.
      rewrite (proj2 (Z.ltb_ge i 1)), (proj2 (Z.ltb_ge (number_of_members cfg) i)) by lia. cbn [orb]. unfold gpp. cbn [verify_keys].
      pose proof (vk_at members dealers i ltac:(fold n; lia)) as V. change (length members) with n in V. fold total in V. rewrite V. cbn [bind].
      rewrite (proj2 (geqb_eq _ _ _)) by reflexivity. cbn [unwrap_res bind]. reflexivity.
  Qed.
  (** what the files of the DKG say *)
  Record dkg_files (s : fs) : Prop := {
    df_insts : exists insts, instances_file J s insts /\ mapM (fun i => let* (pp, _) := from_instance cfg i in Ok pp) insts = Ok pps;
    df_gpk : gpk_file J s (g2mul g2 (group_secret dealers));
    df_vks : vks_file J s (verify_keys gpp);
    df_gpp : holds s gpp_path (j_gpp J) to_gpp gpp;
    df_share : forall i, In i (zseq n) -> share_file J s i (key_at i) }.
  Lemma gpp_ok : dkg_global_public_params pps = Ok gpp.
  Proof. destruct (cfg_facts _ _ _ HH) as (Ht & Htn & Hn). exact (global_honest poseidon cfg members dealers (h_dealers _ _ _ HH) (h_coeffs _ _ _ HH)). Qed.

  Lemma dkg_runs s : good_fs s -> members_in s -> exists w, mock_dkg poseidon J cfg dealers s = (w, Ok tt) /\ Forall (fun x => placed (fst x)) w /\
    Forall (fun x => nth 7 (fst x) 0 = 100) w /\ dkg_files (effects s w).
  Proof.
    intros G M. unfold mock_dkg. destruct deal_each as (dkgs & Ed & Ep & Ek & Ld). destruct (inst_each dkgs Ep Ek) as (insts & Ei & Er).
    unfold cbind at 1. rewrite (honest_members s M). change (effects s []) with s. rewrite Ed, lift_ok, Ei, lift_ok.
    set (w1 := (all_instances_path, enc (j_instances J) (map (map write_fr) insts))).
    rewrite (save_good _ _ _ _ _ pl_inst G). fold w1. assert (G1' : good_fs (set s all_instances_path (File (snd w1)))) by (rewrite inst_jp; apply good_set; exact G).
    rewrite Ep, gpp_ok, lift_ok. unfold save_params. rewrite cbind_assoc.
    assert (NR : forall i m, In (i, m) (numbered dkgs) -> 0 <= i). { intros i m I. apply numbered_nth in I as [I _]. lia. }
    rewrite (loop_good _ (j_params J) (fun '(i, d) => secret_path i) (fun '(i, d) => of_params d)); [|intros [i d] _; reflexivity| |exact G1'].
    2:{ intros [i d] I. apply pl_secret. exact (NR _ _ I). }
    set (w2 := map (fun x => ((let '(i, _) := x in secret_path i), enc (j_params J) (let '(_, d) := x in of_params d))) (numbered dkgs)).
    assert (P2 : Forall (fun x => placed (fst x)) w2). { apply Forall_forall. intros x I. apply in_map_iff in I as ([i d] & <- & I). apply pl_secret. exact (NR _ _ I). }
    pose proof (good_effects _ P2 _ G1') as G2'. set (s2 := effects (set s all_instances_path (File (snd w1))) w2) in *.
    rewrite cbind_assoc, (save_good _ _ _ _ _ pl_pub G2'). set (b3 := enc (j_pps J) (map of_pp pps)). assert (G3 : good_fs (set s2 dkgs_public_path (File b3))) by (rewrite pub_jp; apply good_set; exact G2').
    rewrite cbind_assoc, (save_good _ _ _ _ _ pl_gpp G3). set (b4 := enc (j_gpp J) (of_gpp gpp)). set (s3 := set s2 dkgs_public_path (File b3)) in *.
    assert (G4 : good_fs (set s3 gpp_path (File b4))) by (rewrite gpp_jp; apply good_set; exact G3). set (s4 := set s3 gpp_path (File b4)) in *.
    rewrite cbind_assoc, (save_good _ _ _ _ _ pl_gpk G4). set (b5 := enc (j_point2 J) (sg_g2a (of_gpp gpp))).
    assert (G5 : good_fs (set s4 gpk_path (File b5))) by (rewrite gpk_jp; apply good_set; exact G4). set (s5 := set s4 gpk_path (File b5)) in *.
    rewrite (save_good _ _ _ _ _ pl_vks G5). set (b6 := enc (j_points J) (sg_vks (of_gpp gpp))).
    assert (G6 : good_fs (set s5 vks_path (File b6))) by (rewrite vks_jp; apply good_set; exact G5). set (s6 := set s5 vks_path (File b6)) in *.
    rewrite keys_each, lift_ok.
    assert (KR : forall k, In k keys -> 1 <= index k < 2 ^ 64). { intros k I. apply in_map_iff in I as (i & <- & I). cbn [index key_at]. apply range_i. exact I. }
    rewrite (for_each_saves _ (j_share J) (fun k => share_path (index k)) of_share); [|intros k _; reflexivity| |exact G6].
    2:{ intros k I. apply pl_share. apply KR in I. lia. }
    set (w7 := map (fun x => (share_path (index x), enc (j_share J) (of_share x))) keys).
    eexists. split; [reflexivity|].
    assert (P7 : Forall (fun x => placed (fst x)) w7). { apply Forall_forall. intros x I. apply in_map_iff in I as (k & <- & I). apply pl_share. apply KR in I. lia. }
    split; [|split].
    { constructor; [exact pl_inst|]. apply Forall_app. split; [exact P2|]. constructor; [exact pl_pub|]. constructor; [exact pl_gpp|]. constructor; [exact pl_gpk|]. constructor; [exact pl_vks|]. exact P7. }
    { constructor; [reflexivity|]. apply Forall_app. split; [apply Forall_forall; intros x I; apply in_map_iff in I as ([i d] & <- & I); apply secret_7|].
      do 4 (constructor; [reflexivity|]). apply Forall_forall. intros x I. apply in_map_iff in I as (k & <- & I). apply share_7. }
    change (w1 :: w2 ++ _) with ([w1] ++ w2 ++ [(dkgs_public_path, b3)] ++ [(gpp_path, b4)] ++ [(gpk_path, b5)] ++ [(vks_path, b6)] ++ w7).
    rewrite !effects_app. change (effects s [w1]) with (set s all_instances_path (File (snd w1))). fold s2.
    change (effects s2 [(dkgs_public_path, b3)]) with s3. change (effects s3 [(gpp_path, b4)]) with s4. change (effects s4 [(gpk_path, b5)]) with s5. change (effects s5 [(vks_path, b6)]) with s6.
    assert (N7 : forall p, nth 11 p 0 <> 115 -> effects s6 w7 p = s6 p).
    { intros p N. apply effects_notin. apply (notin_at 11 115); [exact N|]. apply Forall_forall. intros q I. apply in_map_iff in I as (x & <- & I). apply in_map_iff in I as (k & <- & I). apply share_11. }
    assert (N2 : forall p, nth 11 p 0 <> 115 -> s2 p = set s all_instances_path (File (snd w1)) p).
    { intros p N. unfold s2. apply effects_notin. apply (notin_at 11 115); [exact N|]. apply Forall_forall. intros q I. apply in_map_iff in I as (x & <- & I). apply in_map_iff in I as ([i k] & <- & I). apply secret_11. }
    constructor.
    - exists insts. split; [|exact Er]. exists (snd w1), (map (map write_fr) insts). split; [|split; [apply (proj1 (ok_instances J HJ))|]].
      + rewrite N7 by (vm_compute; discriminate). unfold s6, s5, s4, s3. rewrite !set_other by (apply (neq_at 11); vm_compute; discriminate). rewrite N2 by (vm_compute; discriminate). apply set_same.
      + apply map_round. intros l. apply map_round. apply fr_round.
    - exists b5, (sg_g2a (of_gpp gpp)). split; [|split; [apply (proj1 (ok_point2 J HJ))|]].
      + rewrite N7 by (vm_compute; discriminate). unfold s6. rewrite set_other by (apply (neq_at 11); vm_compute; discriminate). apply set_same.
      + apply g2_round.
    - exists b6, (sg_vks (of_gpp gpp)). split; [|split; [apply (proj1 (ok_points J HJ))|]].
      + rewrite N7 by (vm_compute; discriminate). apply set_same.
      + apply map_round. apply g1_round.
    - exists b4, (of_gpp gpp). split; [|split; [apply (proj1 (ok_gpp J HJ))|apply gpp_round]].
      rewrite N7 by (vm_compute; discriminate). unfold s6, s5. rewrite !set_other by ((apply (neq_at 11); vm_compute; discriminate) || (apply (neq_at 13); vm_compute; discriminate)). apply set_same.
    - intros i I. exists (enc (j_share J) (of_share (key_at i))), (of_share (key_at i)). split; [|split; [apply (proj1 (ok_share J HJ))|apply share_round; reflexivity]].
      apply effects_in.
      + unfold w7, keys. rewrite !map_map. cbn [fst index key_at]. apply NoDup_map_on; [|apply NoDup_zseq]. intros x y Ix Iy. apply range_i in Ix, Iy. apply share_inj; lia.
      + apply in_map_iff. exists (key_at i). split; [reflexivity|]. apply in_map. exact I.
  Qed.

  (** ** mock random *)
  Lemma load_keys s : dkg_files s ->
    mapC (fun i => do b := load_json (j_share J) (share_path i) in lift (to_share b)) (one_to (number_of_members cfg)) s = ([], Ok keys).
  Proof.
    intros D. apply mapC_loads. rewrite (one_to_zseq members) by (apply (h_members _ _ _ HH)). unfold keys. fold n.
    assert (X : forall i, In i (zseq n) -> share_file J s i (key_at i)) by apply (df_share s D). revert X. generalize (zseq n). intros l X.
    induction l as [|i l IH]; cbn [map]; constructor; [apply X; left; reflexivity|]. apply IH. intros j I. apply X. right. exact I.
  Qed.
  Definition sigma (h : G1) (k : share_key) (r : Fr) : partial_eval :=
    mkPartialEval (index k) (g1mul h (sk k))
      (challenge keccak (g1mul h (sk k)) (vk k) (g1mul h r) (g1mul g1 r) h g1 * sk k + r)%fld
      (challenge keccak (g1mul h (sk k)) (vk k) (g1mul h r) (g1mul g1 r) h g1).
  Lemma evaluate_sigma input h k r : hash_to_curve_bn keccak EVAL_PREFIX input = Ok h -> evaluate keccak k input r = Ok (sigma h k r).
  Proof. intros Hh. destruct (evaluate_ok keccak k input r) as (h' & Hh' & E). assert (h' = h) by congruence. subst h'. exact E. Qed.
  Lemma vk_get i : In i (zseq n) -> get (verify_keys gpp) (i - 1) = Ok (vk (key_at i)).
  Proof. intros I. apply in_zseq in I. exact (vk_at members dealers i ltac:(fold n; lia)). Qed.
  Lemma sigma_verifies input h i r : hash_to_curve_bn keccak EVAL_PREFIX input = Ok h -> In i (zseq n) -> pe_verify keccak (sigma h (key_at i) r) cfg input (vk (key_at i)) = Ok tt.
  Proof.
    intros Hh I. apply (evaluate_verifies keccak (key_at i) input r); [reflexivity| |apply evaluate_sigma; exact Hh]. cbn [index key_at]. apply in_zseq in I.
    pose proof (h_members _ _ _ HH) as HL. unfold zlen in HL. fold n in HL. lia.
  Qed.
  (** the evaluations of all members on one input *)
  Record all_evals (input : bytes) (h : G1) (es : list partial_eval) : Prop := {
    ae_h : hash_to_curve_bn keccak EVAL_PREFIX input = Ok h;
    ae_idx : map pe_index es = zseq n;
    ae_val : map pe_value es = map (fun i => g1mul h (total (fr i))) (zseq n);
    ae_ok : forall e, In e es -> pe_verify keccak e cfg input (vk (key_at (pe_index e))) = Ok tt }.
  Lemma in_numbered_combine (nonces : list Fr) i k r : In (i, (k, r)) (numbered (combine keys nonces)) -> k = key_at i /\ In i (zseq n).
  Proof.
    intros I. apply numbered_nth in I as [Hi I].
    assert (X : forall (a : list share_key) (b : list Fr) m x y, nth_error (combine a b) m = Some (x, y) -> nth_error a m = Some x).
    { clear. induction a as [|u a IH]; intros [|v b] [|m] x y; cbn; try discriminate; [congruence|]. apply IH. }
    apply X in I. unfold keys in I. rewrite nth_error_map in I. destruct (nth_error (zseq n) (Z.to_nat (i - 1))) as [j|] eqn:E; [|discriminate].
    assert (j = i).
    { unfold zseq in E. rewrite nth_error_map in E. destruct (nth_error (seq 1 n) (Z.to_nat (i - 1))) as [m|] eqn:E'; [|discriminate].
      assert (L : (Z.to_nat (i - 1) < n)%nat) by (rewrite <- (seq_length n 1); apply nth_error_Some; congruence).
      rewrite (nth_error_nth' _ 0%nat) in E' by (rewrite seq_length; exact L). rewrite seq_nth in E' by exact L. cbn in E. assert (m = (1 + Z.to_nat (i - 1))%nat) by congruence. assert (j = Z.of_nat m) by (cbn in E; congruence). lia. }
    subst j. cbn in I. split; [congruence|]. eapply nth_error_In. exact E.
  Qed.
  Lemma sigmas_each input h nonces : hash_to_curve_bn keccak EVAL_PREFIX input = Ok h -> length nonces = n ->
    exists es, mapM (fun '(i, (k, r)) => let* e := evaluate keccak k input r in
                                          let* v := get (verify_keys gpp) (i - 1) in
                                          let* _ := unwrap_res (pe_verify keccak e cfg input v) in Ok e) (numbered (combine keys nonces)) = Ok es /\
      all_evals input h es.
  Proof.
    intros Hh L. pose (g := fun x : Z * (share_key * Fr) => sigma h (key_at (fst x)) (snd (snd x))).
    exists (map g (numbered (combine keys nonces))). split.
    - apply mapM_ok. intros [i [k r]] I. apply in_numbered_combine in I as [-> I]. rewrite (evaluate_sigma _ h) by exact Hh. cbn [bind]. rewrite (vk_get i I). cbn [bind].
      rewrite (sigma_verifies _ _ _ _ Hh I). reflexivity.
    - assert (LC : length (combine keys nonces) = n) by (rewrite combine_length; unfold keys; rewrite map_length, length_zseq, L; apply Nat.min_id).
      constructor.
      + exact Hh.
      + rewrite map_map. unfold g. cbn [pe_index sigma index key_at]. rewrite <- LC. rewrite <- numbered_fst. reflexivity.
      + rewrite map_map. unfold g. cbn [pe_value sigma sk key_at]. rewrite <- (map_map fst (fun i => g1mul h (DvrfProofs.total dealers (fr i)))). rewrite numbered_fst, LC. reflexivity.
      + intros e I. apply in_map_iff in I as ([i [k r]] & <- & I). apply in_numbered_combine in I as [_ I]. unfold g. cbn [fst snd pe_index sigma index key_at]. apply sigma_verifies; auto.
  Qed.
  Lemma incr_zseq k m : increasing (map Z.of_nat (seq k m)).
  Proof. revert k. induction m as [|m IH]; intros k; [exact I|]. cbn [seq map]. specialize (IH (S k)). destruct m as [|m]; [exact I|]. cbn [seq map] in *. split; [lia|exact IH]. Qed.
  Lemma firstn_zseq k m : (k <= m)%nat -> firstn k (zseq m) = zseq k.
  Proof.
    unfold zseq. intros L. rewrite firstn_map. f_equal. revert m L. generalize 1%nat. induction k as [|k IH]; intros a m L; [reflexivity|]. destruct m as [|m]; [lia|]. cbn [seq firstn]. f_equal. apply IH. lia.
  Qed.
  Definition the_random (h : G1) : pseudo_random := mkPseudoRandom (g1mul h (group_secret dealers)) (prf_value keccak (g1mul h (group_secret dealers))).
  Lemma evals_len input h es : all_evals input h es -> zlen es = number_of_members cfg.
  Proof.
    intros A. pose proof (ae_idx _ _ _ A) as E. apply (f_equal (@length Z)) in E. rewrite map_length, length_zseq in E. unfold zlen. rewrite E. exact (h_members _ _ _ HH).
  Qed.
  Lemma combine_es input h es : all_evals input h es ->
    combine_partial_evaluations keccak cfg (firstn (Z.to_nat (threshold cfg)) es) = Ok (the_random h) /\ pr_verify keccak pairing (the_random h) input (g2mul g2 (group_secret dealers)) = Ok tt.
  Proof.
    intros A. destruct (cfg_facts _ _ _ HH) as (Ht & Htn & Hn). pose proof (evals_len _ _ _ A) as L. pose proof (h_members _ _ _ HH) as HL. unfold zlen in HL. fold n in HL.
    assert (Lt : zlen (firstn (Z.to_nat (threshold cfg)) es) = threshold cfg). { unfold zlen in *. rewrite firstn_length. lia. }
    assert (Ei : map pe_index (firstn (Z.to_nat (threshold cfg)) es) = zseq (Z.to_nat (threshold cfg))).
    { rewrite <- firstn_map, (ae_idx _ _ _ A). apply firstn_zseq. lia. }
    assert (R : Forall (fun i => 1 <= i <= number_of_members cfg) (zseq (Z.to_nat (threshold cfg)))). { apply Forall_forall. intros i I. apply in_zseq in I. lia. }
    split.
    - rewrite combine_ok by assumption. rewrite Ei. rewrite (proj2 (check_indices_ok _ _)); [|split; [apply incr_zseq|exact R]]. cbn [bind]. unfold the_random.
      assert (X : lagrange_sum (firstn (Z.to_nat (threshold cfg)) es) = g1mul h (group_secret dealers)); [|rewrite X; reflexivity].
      apply (lagrange_sum_ok cfg members dealers Ht Hn (h_coeffs _ _ _ HH) h _ (zseq (Z.to_nat (threshold cfg)))); [exact Ei| | |apply NoDup_zseq|exact R].
      + rewrite <- firstn_map, (ae_val _ _ _ A), firstn_map, firstn_zseq by lia. reflexivity.
      + unfold zlen. rewrite length_zseq. lia.
    - apply (pr_verify_iff keccak pairing HP _ _ _ h (ae_h _ _ _ A)). split; reflexivity.
  Qed.
  Lemma valid_es input h es : all_evals input h es -> filter (valid keccak cfg input (verify_keys gpp)) es = es /\ Forall (in_members cfg) es.
  Proof.
    intros A. assert (X : forall e, In e es -> In (pe_index e) (zseq n)). { intros e I. rewrite <- (ae_idx _ _ _ A). apply in_map. exact I. }
    pose proof (h_members _ _ _ HH) as HL. unfold zlen in HL. fold n in HL. split.
    - pose proof (ae_ok _ _ _ A) as O. clear A. induction es as [|e l IH]; [reflexivity|]. cbn [filter]. rewrite IH; [|intros x I; apply X; right; exact I|intros x I; apply O; right; exact I].
      unfold valid. pose proof (vk_get (pe_index e) (X e (or_introl eq_refl))) as V. apply get_inv in V as [_ V]. rewrite V. rewrite (O e (or_introl eq_refl)). reflexivity.
    - apply Forall_forall. intros e I. apply X in I. apply in_zseq in I. unfold in_members. lia.
  Qed.
  (** what the files of the random generation say *)
  Definition rand_files (s : fs) (input : bytes) (h : G1) (es : list partial_eval) : Prop := evals_file J s es /\ pseudo_file J s (the_random h) /\ all_evals input h es.

  Lemma random_runs s input nonces : good_fs s -> dkg_files s -> length nonces = n -> exists w h es, mock_random keccak pairing J cfg input nonces s = (w, Ok tt) /\
    Forall (fun x => placed (fst x)) w /\ Forall (fun x => nth 7 (fst x) 0 = 114) w /\ rand_files (effects s w) input h es.
  Proof.
    intros G D L. destruct (C18_hash_total keccak EVAL_PREFIX input) as (h & Hh & _).
    destruct (sigmas_each input h nonces Hh L) as (es & Es & A). destruct (combine_es input h es A) as [C V]. pose proof (evals_len _ _ _ A) as Le. destruct (cfg_facts _ _ _ HH) as (Ht & Htn & Hn).
    unfold mock_random. unfold cbind at 1. rewrite (load_keys s D). change (effects s []) with s. rewrite (load_ok _ _ _ _ _ _ (df_gpp s D)). rewrite Es, lift_ok.
    rewrite (proj2 (Z.ltb_ge (zlen es) (threshold cfg))) by lia. rewrite C. cbn [unwrap_res]. rewrite lift_ok. cbn [g_g2a gpp]. change (g_g2a gpp) with (g2mul g2 (group_secret dealers)). rewrite V. cbn [unwrap_res]. rewrite lift_ok.
    rewrite (save_good _ _ _ _ _ pl_evals G). set (b1' := enc (j_evals J) (map of_eval es)). assert (G1' : good_fs (set s evals_path (File b1'))) by (rewrite evals_jp; apply good_set; exact G).
    rewrite (proj1 (placed_save (j_random J) pseudo_path (of_random (the_random h)) _ pl_pseudo G1')). set (b2' := enc (j_random J) (of_random (the_random h))).
    exists [(evals_path, b1'); (pseudo_path, b2')], h, es. split; [reflexivity|]. split; [repeat (constructor; try exact pl_evals; try exact pl_pseudo)|]. split; [repeat constructor|].
    change (effects s [(evals_path, b1'); (pseudo_path, b2')]) with (set (set s evals_path (File b1')) pseudo_path (File b2')). split; [|split; [|exact A]].
    - apply holds_other; [apply pseudo_neq_evals|]. apply holds_saved; [apply (ok_evals J HJ)|]. apply map_round. apply eval_round.
    - apply holds_saved; [apply (ok_random J HJ)|apply random_round].
  Qed.
  Lemma dkg_files_ext s s' : (forall p, nth 7 p 0 = 100 -> s' p = s p) -> dkg_files s -> dkg_files s'.
  Proof.
    intros X [(insts & Di & Er) Dg Dv Dp Ds]. constructor.
    - exists insts. split; [|exact Er]. revert Di. apply holds_ext. apply X. reflexivity.
    - revert Dg. apply holds_ext. apply X. reflexivity.
    - revert Dv. apply holds_ext. apply X. reflexivity.
    - revert Dp. apply holds_ext. apply X. reflexivity.
    - intros i I. specialize (Ds i I). revert Ds. apply holds_ext. apply X. apply share_7.
  Qed.
  Lemma effects_class v w s : Forall (fun x => nth 7 (fst x) 0 = v) w -> forall p, nth 7 p 0 <> v -> effects s w p = s p.
  Proof. intros F p N. apply effects_notin. apply (notin_at 7 v); [exact N|]. apply Forall_forall. intros q I. apply in_map_iff in I as (x & <- & I). rewrite Forall_forall in F. auto. Qed.

  (** ** rand combine, rand verify-final, dkg derive, rand eval, rand verify *)
  Lemma combine_pipeline s input h es skip : good_fs s -> dkg_files s -> evals_file J s es -> all_evals input h es ->
    cmd_combine keccak pairing J cfg input skip s = ([(pseudo_path, enc (j_random J) (of_random (the_random h)))], Ok tt).
  Proof.
    intros G D E A. destruct (combine_es _ _ _ A) as [C V]. destruct (valid_es _ _ _ A) as [F M]. pose proof (evals_len _ _ _ A) as Le. destruct (cfg_facts _ _ _ HH) as (Ht & Htn & Hn).
    apply (combine_runs keccak pairing J cfg input skip s es (g2mul g2 (group_secret dealers)) es); auto; try lia.
    - apply (df_gpk s D).
    - destruct skip; [reflexivity|]. exists (verify_keys gpp). split; [apply (df_vks s D)|]. split; [|split; [exact M|symmetry; exact F]].
      unfold zlen, gpp. cbn [verify_keys]. rewrite map_length, length_zseq. pose proof (h_members _ _ _ HH) as HL. unfold zlen in HL. fold n in HL. lia.
    - apply (g_dirs s G). apply (in_dirs_nth 5). lia.
    - rewrite pseudo_jp. apply (g_json s G).
  Qed.
  Lemma derive_pipeline s i : good_fs s -> members_in s -> dkg_files s -> In i (zseq n) -> exists w,
    cmd_derive poseidon J cfg (Some i) (Some (str "member_" ++ to_dec i)) s = (w, Ok tt) /\ Forall (fun x => placed (fst x)) w /\ Forall (fun x => nth 7 (fst x) 0 = 100) w /\ share_file J (effects s w) i (key_at i) /\
    vks_file J (effects s w) (verify_keys gpp).
  Proof.
    intros G M D I. destruct (cfg_facts _ _ _ HH) as (Ht & Htn & Hn). destruct (df_insts s D) as (insts & Hi & Er).
    pose proof (h_members _ _ _ HH) as HL. unfold zlen in HL. fold n in HL. pose proof (proj1 (in_zseq _ _) I) as R. pose proof (range_i i I) as R2.
    assert (exists m, get members (i - 1) = Ok m) as [m Hm].
    { destruct (nth_error members (Z.to_nat (i - 1))) as [m|] eqn:E; [exists m; apply get_ok; auto; lia|]. apply nth_error_None in E. fold n in E. lia. }
    assert (SK : dkg_share_key poseidon m cfg i pps = Ok (key_at i)) by (apply share_key_ok; auto; apply HH).
    assert (SV : share_key_verify (key_at i) cfg (verify_keys gpp) = Ok tt).
    { unfold share_key_verify. cbn [index key_at]. rewrite (proj2 (Z.ltb_ge i 1)), (proj2 (Z.ltb_ge (number_of_members cfg) i)) by lia. cbn [orb]. rewrite (vk_get i I). cbn [bind]. rewrite (proj2 (geqb_eq _ _ _)) by reflexivity. reflexivity. }
    assert (Pl : placed (share_path i)) by (apply pl_share; lia).
    eexists. split; [|split; [|split; [|split]]].
    - apply (derive_runs poseidon J cfg i (str "member_" ++ to_dec i) s insts pps gpp m (key_at i)); auto.
      + apply gpp_ok.
      + lia.
      + unfold member_file. rewrite <- mock_member_path_member. apply M. exact Hm.
      + apply (g_dirs s G). apply (in_dirs_nth 2). lia.
      + apply (g_dirs s G). apply (in_dirs_nth 4). lia.
      + rewrite gpk_jp. apply (g_json s G).
      + rewrite vks_jp. apply (g_json s G).
      + cbn [index key_at]. rewrite share_path_jp. apply (g_json s G).
      + cbn [index key_at]. rewrite share_path_jp. unfold jp. apply parent_of. apply in_app47; [apply not47; [no47|lia]|no47].
    - constructor; [exact pl_gpk|]. constructor; [exact pl_vks|]. constructor; [exact Pl|constructor].
    - constructor; [reflexivity|]. constructor; [reflexivity|]. constructor; [apply share_7|constructor].
    - match goal with |- share_file J (effects s [?a; ?b; ?c]) _ _ => change (effects s [a; b; c]) with (set (set (set s (fst a) (File (snd a))) (fst b) (File (snd b))) (fst c) (File (snd c))) end.
      cbn [share_write fst snd index key_at]. apply holds_saved; [apply (ok_share J HJ)|apply share_round; reflexivity].
    - match goal with |- vks_file J (effects s [?a; ?b; ?c]) _ => change (effects s [a; b; c]) with (set (set (set s (fst a) (File (snd a))) (fst b) (File (snd b))) (fst c) (File (snd c))) end.
      cbn [share_write vks_write fst snd index key_at]. apply holds_other; [apply (neq_at 11); rewrite share_11; vm_compute; discriminate|]. apply holds_saved; [apply (ok_points J HJ)|]. apply map_round. apply g1_round.
  Qed.
  Lemma check_index_ok {B} i (k : unit -> cmd B) s : In i (zseq n) -> cbind (check_index cfg i) k s = k tt s.
  Proof.
    intros I. apply in_zseq in I. pose proof (h_members _ _ _ HH) as HL. unfold zlen in HL. fold n in HL. unfold check_index.
    rewrite (proj2 (Z.ltb_ge i 1)), (proj2 (Z.ltb_ge (number_of_members cfg) i)) by lia. cbn [orb]. apply lift_ok.
  Qed.
  Lemma eval_pipeline s i input r : good_fs s -> In i (zseq n) -> share_file J s i (key_at i) -> exists h,
    hash_to_curve_bn keccak EVAL_PREFIX input = Ok h /\
    cmd_eval keccak J cfg i input r s = ([(eval_path i, enc (j_eval J) (of_eval (sigma h (key_at i) r)))], Ok tt).
  Proof.
    intros G I S. destruct (C18_hash_total keccak EVAL_PREFIX input) as (h & Hh & _). exists h. split; [exact Hh|].
    unfold cmd_eval. rewrite check_index_ok by exact I. rewrite (load_ok _ _ _ _ _ _ S). rewrite (evaluate_sigma _ h _ _ Hh), lift_ok.
    apply placed_save; [apply pl_eval; apply range_i in I; lia|exact G].
  Qed.
  Lemma rand_verify_pipeline s i input h r : hash_to_curve_bn keccak EVAL_PREFIX input = Ok h -> In i (zseq n) -> eval_file J s i (sigma h (key_at i) r) -> vks_file J s (verify_keys gpp) ->
    cmd_rand_verify keccak J cfg i input s = ([], Ok tt).
  Proof.
    intros Hh I E V. unfold cmd_rand_verify. rewrite check_index_ok by exact I. rewrite (load_ok _ _ _ _ _ _ E), (load_ok _ _ _ _ _ _ V). rewrite (vk_get i I), lift_ok.
    unfold lift. rewrite (sigma_verifies _ _ _ _ Hh I). reflexivity.
  Qed.
End Pipeline.
