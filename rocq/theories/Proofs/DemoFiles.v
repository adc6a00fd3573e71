(** The files of the demo: which writes leave a prepared directory prepared; `dkg prove` and `dkg verify` with cached keys. *)
From Coq Require Import ZArith String List Bool Lia Arith.
From Verif.Base Require Import Fld Fp EC Primes Curves Group Fermat.
From Verif.Model Require Import Monad Evm Strings Points HashEvm Dkg Lib Serialise Files Cache Client Zkdvrf PairingSol Services Demo.
From Verif.Spec Require Import Dvrf Onchain Histories CacheSpec ClientSpec DemoSpec.
From Verif.Proofs Require Import HashProofs OnchainProofs DkgProofs DvrfProofs GppProofs SerialProofs CacheProofs ClientProofs InstanceProofs PipelineProofs ProveProofs ServiceHex ServiceProofs BytesProofs.
Import ListNotations.
Open Scope Z_scope.

(** ** telling paths apart *)
Definition cls (p : path) : list Z := map (fun k => nth k p 0) [2; 7; 8; 11; 12; 14; 18; 19]%nat.
Lemma cls_neq p q : cls p <> cls q -> p <> q. Proof. congruence. Qed.
Lemma cls_app (a b : path) : (20 <= length a)%nat -> cls (a ++ b) = cls a.
Proof. intros L. unfold cls. cbn [map]. rewrite !app_nth1 by lia. reflexivity. Qed.
Definition c_member : list Z := Eval vm_compute in cls (str "./data/members/member_").
Definition c_share : list Z := Eval vm_compute in cls (str "./data/dkg/shares/share_").
Definition c_proof : list Z := Eval vm_compute in cls (str "./data/dkg/proofs/proof_").
Definition c_instance : list Z := Eval vm_compute in cls (str "./data/dkg/proofs/instance_").
Lemma cls_member i : cls (member_path (member_i i)) = c_member.
Proof.
  replace (member_path (member_i i)) with (str "./data/members/member_" ++ to_dec i ++ str ".json"); [apply cls_app; vm_compute; lia|].
  unfold member_path, member_i, join. cbn [concat]. rewrite !app_nil_r, <- ?app_assoc. reflexivity.
Qed.
Lemma cls_share i : cls (share_path i) = c_share.
Proof.
  replace (share_path i) with (str "./data/dkg/shares/share_" ++ to_dec i ++ str ".json"); [apply cls_app; vm_compute; lia|].
  unfold share_path, join. cbn [concat]. rewrite !app_nil_r, <- ?app_assoc. reflexivity.
Qed.
Lemma cls_proof i : cls (proof_path i) = c_proof.
Proof.
  replace (proof_path i) with (str "./data/dkg/proofs/proof_" ++ to_dec i ++ str ".dat"); [apply cls_app; vm_compute; lia|].
  unfold proof_path, join. cbn [concat]. rewrite !app_nil_r, <- ?app_assoc. reflexivity.
Qed.
Lemma cls_instance i : cls (instance_path i) = c_instance.
Proof.
  replace (instance_path i) with (str "./data/dkg/proofs/instance_" ++ to_dec i ++ str ".json"); [apply cls_app; vm_compute; lia|].
  unfold instance_path, join. cbn [concat]. rewrite !app_nil_r, <- ?app_assoc. reflexivity.
Qed.
Lemma eval_18 i : map (fun k => nth k (eval_path i) 0) [2; 7; 14; 18]%nat = [100; 114; 101; 95].
Proof.
  replace (eval_path i) with (str "./data/random/eval_" ++ to_dec i ++ str ".json"); [|unfold eval_path, join; cbn [concat]; rewrite !app_nil_r, <- ?app_assoc; reflexivity].
  cbn [map]. rewrite !app_nth1 by (vm_compute; lia). reflexivity.
Qed.
(** one of these: not where the eval files are *)
Lemma eval_neq i q : nth 7 q 0 <> 114 -> q <> eval_path i.
Proof. intros H E. apply H. rewrite E. pose proof (eval_18 i) as X. cbn [map] in X. congruence. Qed.
Ltac apart := first [apply cls_neq; rewrite ?cls_member, ?cls_share, ?cls_proof, ?cls_instance; vm_compute; discriminate | apply eval_neq; vm_compute; discriminate].
Lemma share_7 i : nth 7 (share_path i) 0 = 100.
Proof. pose proof (cls_share i) as X. unfold cls, c_share in X. cbn [map] in X. congruence. Qed.

(** ** writes of data files *)
Definition safe (p : path) : Prop := nth 2 p 0 = 100 /\ (last p 0 = 110 \/ last p 0 = 116).
Lemma safe_app (a b : path) : (2 < length a)%nat -> nth 2 a 0 = 100 -> safe (a ++ b ++ str ".json").
Proof.
  intros L N. split; [rewrite app_nth1 by exact L; exact N|left]. rewrite app_assoc. change (str ".json") with ([46; 106; 115; 111] ++ [110]). rewrite app_assoc. apply last_app.
Qed.
Lemma safe_jp d n : (2 < length d)%nat -> nth 2 d 0 = 100 -> safe (jp d n).
Proof. intros L N. unfold jp. rewrite app_assoc. apply (safe_app d ([47] ++ n)) in N; [|exact L]. rewrite <- app_assoc in N. rewrite <- app_assoc. exact N. Qed.
Lemma safe_proof i : safe (proof_path i).
Proof.
  split; [pose proof (cls_proof i) as X; unfold cls, c_proof in X; cbn [map] in X; congruence|right].
  unfold proof_path, join. cbn [concat]. change (str ".dat") with ([46; 100; 97] ++ [116]). rewrite app_nil_r, !app_assoc. apply last_app.
Qed.
Lemma safe_instance i : safe (instance_path i).
Proof.
  replace (instance_path i) with (str "./data/dkg/proofs/instance_" ++ to_dec i ++ str ".json"); [apply safe_app; [vm_compute; lia|reflexivity]|].
  unfold instance_path, join. cbn [concat]. rewrite !app_nil_r, <- ?app_assoc. reflexivity.
Qed.
Lemma safe_placed p : placed p -> safe p.
Proof. intros (d & n & -> & I & _). apply safe_jp; cbn [dirs In] in I; repeat destruct I as [<-|I]; try contradiction; (vm_compute; lia) || reflexivity. Qed.

Section Prepared.
  Variables vkey pkey : Type.
  Variable vk_read : bytes -> res vkey.
  Variable pk_read : bytes -> res pkey.
  Variable cfg : config.
  Variable d : Z.
  Variable P : kzg.
  Variable vk : vkey.
  Variable pk : pkey.
  Notation ready := (prepared vk_read pk_read cfg d P vk pk).
  Lemma ready_set s p b : safe p -> ready s -> ready (set s p (File b)).
  Proof.
    intros [S2 Sl] [G Pd Pt Kz Pa (bv & V & Rv) (bp & K & Rp)].
    assert (D : forall q, In q (DKG_PROOFS_DIR :: dirs) -> q <> p).
    { intros q I E. subst q. cbn [dirs In] in I. repeat destruct I as [<-|I]; try contradiction; destruct Sl as [X|X]; vm_compute in X; discriminate X. }
    assert (KZ : forall name, KZG_PARAMS_DIR ++ [47] ++ name <> p).
    { intros name E. rewrite <- E in S2. cbn in S2. discriminate S2. }
    constructor.
    - constructor; [intros x I; rewrite set_other by (apply D; right; exact I); apply (g_dirs _ G); exact I|].
      intros x n. unfold set. destruct (path_eqb _ _); [discriminate|apply (g_json _ G)].
    - rewrite set_other by (apply D; left; reflexivity). exact Pd.
    - intros i. unfold set. destruct (path_eqb _ _); [discriminate|apply Pt].
    - rewrite set_other; [exact Kz|]. intros E. rewrite <- E in S2. vm_compute in S2. discriminate S2.
    - rewrite params_file_name, set_other by apply KZ. rewrite <- params_file_name. exact Pa.
    - exists bv. unfold vk_file. rewrite key_file_name, set_other by apply KZ. rewrite <- key_file_name. auto.
    - exists bp. unfold pk_file. rewrite key_file_name, set_other by apply KZ. rewrite <- key_file_name. auto.
  Qed.
  Lemma ready_effects w : Forall (fun x => safe (fst x)) w -> forall s, ready s -> ready (effects s w).
  Proof.
    induction 1 as [|[p b] w S F IH]; intros s R; [exact R|]. cbn [effects fold_left]. apply IH. apply ready_set; [exact S|exact R].
  Qed.

  (** ** `dkg prove` and `dkg verify` *)
  Variable poseidon : Fr -> Fr -> Fr.
  Variable J : json.
  Hypothesis HJ : json_ok J.
  Variable lag : list bytes -> Z -> list bytes.
  Variable vk_write : vkey -> bytes.
  Variable pk_write : pkey -> bytes.
  Variable keygen_vk : kzg -> config -> res vkey.
  Variable keygen_pk : kzg -> vkey -> config -> res pkey.
  Variable get_vk : pkey -> vkey.
  Variable create_proof : kzg -> pkey -> member_params -> list Fr -> Z -> res bytes.
  Variable verify_proof : kzg -> vkey -> bytes -> list Fr -> bool.
  Variable halo2 : bytes -> list Z -> res bool.
  Hypothesis HC : proofs_accepted poseidon get_vk create_proof verify_proof halo2 cfg P vk pk.
  Hypothesis Hd : 0 <= d <= 22.
  Hypothesis HP : kzg_of_degree d P.
  Hypothesis Hn : 1 <= number_of_members cfg.
  Notation verify_ := (cmd_verify J lag vkey vk_write vk_read keygen_vk verify_proof cfg d).
  Notation prove_ := (cmd_prove poseidon J lag vkey pkey vk_write vk_read pk_write pk_read keygen_vk keygen_pk get_vk create_proof verify_proof cfg d).

  Lemma params_len : zlen (write_custom P) = expected_len d.
  Proof.
    rewrite (expected_small d Hd). destruct HP as (K & G & L & FG & FL & A & B). unfold write_custom, zlen.
    assert (C : forall l : list bytes, Forall (fun x => length x = 64%nat) l -> length (concat l) = (64 * length l)%nat).
    { induction 1 as [|x l X F IH]; [reflexivity|]. cbn [concat length]. rewrite app_length, IH, X. lia. }
    rewrite !app_length, length_le, (C _ FG), (C _ FL), A, B. unfold zlen in G, L. lia.
  Qed.
  Lemma params_cached s : ready s -> load_or_create_params lag KZG_PARAMS_DIR d s = ([], Ok P).
  Proof.
    intros R. unfold load_or_create_params. apply (cb_run _ _ s [] (Some P) []); [|reflexivity].
    unfold try_ok. assert (X : load_params (params_file KZG_PARAMS_DIR d) d s = ([], Ok P)); [|rewrite X; reflexivity].
    unfold load_params. apply (cb_run _ _ s [] false []); [unfold is_dir; rewrite (pr_params _ _ _ _ _ _ _ _ R); reflexivity|].
    apply (cb_run _ _ s [] (write_custom P) []); [apply rd_run; exact (pr_params _ _ _ _ _ _ _ _ R)|].
    unfold lift. rewrite params_len, Z.eqb_refl. cbn [require bind]. rewrite (read_write d P); [reflexivity|lia|exact HP].
  Qed.
  Lemma dir_ok s : ready s -> is_dir KZG_PARAMS_DIR s = ([], Ok true).
  Proof. intros R. unfold is_dir. rewrite (pr_kzg _ _ _ _ _ _ _ _ R). reflexivity. Qed.
  Lemma vk_cached s : ready s -> load_or_create_vk vkey vk_write vk_read keygen_vk true cfg KZG_PARAMS_DIR P d s = ([], Ok vk).
  Proof.
    intros R. destruct (pr_vk _ _ _ _ _ _ _ _ R) as (b & F & Rd). unfold load_or_create_vk.
    apply (cb_run _ _ s [] true []); [exact (dir_ok s R)|]. apply (cb_run _ _ s [] tt []); [reflexivity|]. apply (cb_run _ _ s [] (Some vk) []); [|reflexivity].
    assert (X : load_vk vkey vk_read true cfg KZG_PARAMS_DIR d s = ([], Ok vk)); [|unfold try_ok; cbn [effects fold_left]; rewrite X; reflexivity].
    unfold load_vk. apply (cb_run _ _ s [] true []); [exact (dir_ok s R)|]. apply (cb_run _ _ s [] b []); [apply rd_run; exact F|]. unfold lift. rewrite Rd. reflexivity.
  Qed.
  Lemma pk_cached s : ready s -> load_or_create_pk vkey pkey vk_write vk_read pk_write pk_read keygen_vk keygen_pk true cfg KZG_PARAMS_DIR P d s = ([], Ok pk).
  Proof.
    intros R. destruct (pr_pk _ _ _ _ _ _ _ _ R) as (b & F & Rd). unfold load_or_create_pk.
    apply (cb_run _ _ s [] true []); [exact (dir_ok s R)|]. apply (cb_run _ _ s [] tt []); [reflexivity|]. apply (cb_run _ _ s [] (Some pk) []); [|reflexivity].
    assert (X : load_pk pkey pk_read true cfg KZG_PARAMS_DIR d s = ([], Ok pk)); [|unfold try_ok; cbn [effects fold_left]; rewrite X; reflexivity].
    unfold load_pk. apply (cb_run _ _ s [] true []); [exact (dir_ok s R)|]. apply (cb_run _ _ s [] b []); [apply rd_run; exact F|]. unfold lift. rewrite Rd. reflexivity.
  Qed.
  Lemma index_checked i s : 1 <= i <= number_of_members cfg -> check_index cfg i s = ([], Ok tt).
  Proof.
    intros Hi. unfold check_index, lift. destruct ((i <? 1) || (number_of_members cfg <? i)) eqn:B; [|reflexivity]. apply orb_prop in B as [B|B]; apply Z.ltb_lt in B; lia.
  Qed.
  Lemma proof_parent i : 0 <= i -> parent (proof_path i) = DKG_PROOFS_DIR.
  Proof.
    intros Hi. replace (proof_path i) with (DKG_PROOFS_DIR ++ [47] ++ (str "proof_" ++ to_dec i) ++ str ".dat"); [|unfold proof_path, join; cbn [concat]; rewrite !app_nil_r, <- ?app_assoc; reflexivity].
    apply parent_of. apply in_app47; [apply not47; [no47|exact Hi]|no47].
  Qed.
  Lemma instance_jp i : instance_path i = jp DKG_PROOFS_DIR (str "instance_" ++ to_dec i).
  Proof. unfold instance_path, jp, join at 1. cbn [concat]. rewrite app_nil_r, <- ?app_assoc. reflexivity. Qed.
  Lemma instance_parent i : 0 <= i -> parent (instance_path i) = DKG_PROOFS_DIR.
  Proof. intros Hi. rewrite instance_jp. unfold jp. apply parent_of. apply in_app47; [apply not47; [no47|exact Hi]|no47]. Qed.
  Definition proof_writes i proof inst : list (path * bytes) := [(proof_path i, proof); (instance_path i, Client.enc (j_strings J) (map write_fr inst))].
  Lemma prove_run i coeffs r seed s mpks mp inst : ready s -> mpks_file J s mpks -> 1 <= i <= number_of_members cfg ->
    zlen mpks = number_of_members cfg -> zlen coeffs = Dkg.threshold cfg ->
    member_params_new poseidon cfg mpks coeffs r = Ok mp -> instance_of (mp_public_params mp) mpks = Ok inst ->
    exists proof, prove_ i coeffs r seed s = (proof_writes i proof inst, Ok tt) /\ verify_proof P vk proof inst = true /\
      forallb is_byte proof = true /\ halo2 proof (map val_r inst) = Ok true.
  Proof.
    intros R (t5 & mb & H5 & H5' & H6) Hi Lk Lc Mp In.
    destruct (HC mpks coeffs r mp inst seed Lk Lc Mp In) as (proof & Cr & V1 & V2 & Bp & H2). exists proof. split; [|auto].
    assert (Ek : mp_public_keys mp = mpks).
    { unfold member_params_new in Mp. apply bind_ok in Mp as (u & _ & H). apply bind_ok in H as (a0 & _ & H). apply bind_ok in H as (sh & _ & H). apply bind_ok in H as (rs & _ & H). apply bind_ok in H as (cs & _ & H).
      apply (f_equal (fun x => match x with Ok m => mp_public_keys m | _ => [] end)) in H. symmetry. exact H. }
    unfold cmd_prove.
    apply (cb_run _ _ s [] tt (proof_writes i proof inst)); [exact (index_checked i s Hi)|].
    apply (cb_run _ _ s [] mb (proof_writes i proof inst)); [apply (lj_run _ _ _ t5); assumption|].
    apply (cb_run _ _ s [] mpks (proof_writes i proof inst)); [unfold lift; rewrite H6; reflexivity|].
    apply (cb_run _ _ s [] mp (proof_writes i proof inst)); [unfold lift; rewrite Mp; reflexivity|].
    apply (cb_run _ _ s [] inst (proof_writes i proof inst)); [unfold lift; rewrite Ek, In; reflexivity|].
    apply (cb_run _ _ s [] P (proof_writes i proof inst)); [exact (params_cached s R)|].
    apply (cb_run _ _ s [] pk (proof_writes i proof inst)); [exact (pk_cached s R)|].
    apply (cb_run _ _ s [] proof (proof_writes i proof inst)).
    { unfold lift, create_proof_checked, verify_single. rewrite Cr. cbn [bind]. rewrite V1. reflexivity. }
    unfold save_proof. apply (cb_run _ _ s [(proof_path i, proof)] tt [(instance_path i, Client.enc (j_strings J) (map write_fr inst))]).
    - cbn [effects fold_left]. unfold write_file. rewrite proof_parent by lia. rewrite (pr_proofs _ _ _ _ _ _ _ _ R). pose proof (pr_dat _ _ _ _ _ _ _ _ R i) as X. destruct (s (proof_path i)) as [[|]|]; [reflexivity|congruence|reflexivity].
    - assert (R' : ready (effects s [(proof_path i, proof)])) by (apply ready_set; [apply safe_proof|exact R]).
      apply save_ok; [rewrite instance_parent by lia; exact (pr_proofs _ _ _ _ _ _ _ _ R')|rewrite instance_jp; apply (g_json _ (pr_fs _ _ _ _ _ _ _ _ R'))].
  Qed.
  Lemma verified_run i s mpks inst proof : ready s -> 1 <= i <= number_of_members cfg -> s (proof_path i) = Some (File proof) -> instance_file J s i inst -> mpks_file J s mpks ->
    public_keys cfg inst = Ok mpks -> verify_proof P vk proof inst = true -> verify_ i s = ([], Ok tt).
  Proof.
    intros R Hi H2 (t3 & ib & H3 & H3' & H4) (t5 & mb & H5 & H5' & H6) H7 Hp. unfold cmd_verify.
    apply (cb_run _ _ s [] tt []); [exact (index_checked i s Hi)|].
    apply (cb_run _ _ s [] proof []); [apply rd_run; exact H2|].
    apply (cb_run _ _ s [] ib []); [apply (lj_run _ _ _ t3); assumption|].
    apply (cb_run _ _ s [] inst []); [unfold lift; rewrite H4; reflexivity|].
    apply (cb_run _ _ s [] mb []); [apply (lj_run _ _ _ t5); assumption|].
    apply (cb_run _ _ s [] mpks []); [unfold lift; rewrite H6; reflexivity|].
    apply (cb_run _ _ s [] mpks []); [unfold lift; rewrite H7; reflexivity|].
    apply (cb_run _ _ s [] tt []); [unfold lift; rewrite (proj2 (gk_list_eqb_iff mpks mpks) eq_refl); reflexivity|].
    apply (cb_run _ _ s [] P []); [exact (params_cached s R)|].
    apply (cb_run _ _ s [] vk []); [exact (vk_cached s R)|]. unfold lift, verify_single. rewrite Hp. reflexivity.
  Qed.
  (** proving, verifying, reading the two files back: the transaction that submits them *)
  Lemma hex_insts inst : mapM hex_num (map write_fr inst) = Ok (map val_r inst).
  Proof. induction inst as [|x l IH]; [reflexivity|]. cbn [map mapM]. rewrite hex_fr. cbn [bind]. rewrite IH. reflexivity. Qed.
  Lemma submission_run i coeffs r seed s mpks mp inst : ready s -> mpks_file J s mpks -> 1 <= i <= number_of_members cfg ->
    zlen mpks = number_of_members cfg -> zlen coeffs = Dkg.threshold cfg ->
    member_params_new poseidon cfg mpks coeffs r = Ok mp -> instance_of (mp_public_params mp) mpks = Ok inst ->
    exists proof, forallb is_byte proof = true /\ halo2 proof (map val_r inst) = Ok true /\
      cbind (prove_ i coeffs r seed) (fun _ => cbind (verify_ i) (fun _ => cbind (read_file (proof_path i)) (fun zk =>
        cbind (load_json (j_strings J) (instance_path i)) (fun l => lift (let* pp := mapM hex_num l in Ok (SubmitPublicParams pp zk)))))) s =
      (proof_writes i proof inst, Ok (SubmitPublicParams (map val_r inst) proof)) /\
      ready (effects s (proof_writes i proof inst)).
  Proof.
    intros R M Hi Lk Lc Mp In. destruct (prove_run i coeffs r seed s mpks mp inst R M Hi Lk Lc Mp In) as (proof & E1 & V & B & H).
    set (w := proof_writes i proof inst) in *. set (s1 := effects s w).
    assert (R1 : ready s1) by (apply ready_effects; [constructor; [apply safe_proof|constructor; [apply safe_instance|constructor]]|exact R]).
    assert (F1 : s1 (proof_path i) = Some (File proof)).
    { unfold s1, w, proof_writes. cbn [effects fold_left]. rewrite set_other by apart. apply set_same. }
    assert (F2 : s1 (instance_path i) = Some (File (Client.enc (j_strings J) (map write_fr inst)))) by (unfold s1, w, proof_writes; cbn [effects fold_left]; apply set_same).
    assert (I1 : instance_file J s1 i inst).
    { eexists _, (map write_fr inst). split; [exact F2|]. split; [apply (ok_strings J HJ)|]. apply (map_round write_fr read_fr). exact fr_round. }
    assert (M1 : mpks_file J s1 mpks).
    { revert M. apply holds_ext. unfold s1, w, proof_writes. cbn [effects fold_left]. rewrite !set_other by apart. reflexivity. }
    destruct (instance_names poseidon cfg mpks coeffs r mp inst Hn Mp) as (_ & _ & Nk).
    { assert (Ek : mp_public_keys mp = mpks).
      { unfold member_params_new in Mp. apply bind_ok in Mp as (u & _ & H'). apply bind_ok in H' as (a0 & _ & H'). apply bind_ok in H' as (sh & _ & H'). apply bind_ok in H' as (rs & _ & H'). apply bind_ok in H' as (cs & _ & H').
        apply (f_equal (fun x => match x with Ok m => mp_public_keys m | _ => [] end)) in H'. symmetry. exact H'. }
      rewrite Ek. exact In. }
    apply (public_keys_iff cfg inst mpks ltac:(lia)) in Nk.
    exists proof. split; [exact B|]. split; [exact H|]. split; [|exact R1].
    change (proof_writes i proof inst) with (w ++ []).
    apply (cb_run _ _ s w tt []); [exact E1|]. fold s1. apply (cb_run _ _ s1 [] tt []); [exact (verified_run i s1 mpks inst proof R1 Hi F1 I1 M1 Nk V)|].
    apply (cb_run _ _ s1 [] proof []); [apply rd_run; exact F1|].
    apply (cb_run _ _ s1 [] (map write_fr inst) []); [apply (lj_run _ _ _ _ _ F2); apply (ok_strings J HJ)|].
    unfold lift. rewrite hex_insts. reflexivity.
  Qed.
End Prepared.
