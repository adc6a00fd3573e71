From Coq Require Import ZArith String List Bool Lia Arith.
From Verif.Base Require Import Fld Fp EC Primes Curves Group Fermat.
From Verif.Model Require Import Monad Evm Strings Points HashEvm Dkg Lib Serialise Files Cache Client.
From Verif.Spec Require Import Dvrf CacheSpec ClientSpec.
From Verif.Proofs Require Import HashProofs DkgProofs DvrfProofs SerialProofs CacheProofs.
Import ListNotations.
Open Scope Z_scope.

(** ** programs *)
(** nothing was written, and no success *)
Definition idle {A} (w : list (path * bytes)) (r : res A) : Prop := w = [] /\ forall u, r <> Ok u.
Lemma lift_bind {A B} (x : res A) (k : A -> cmd B) s w r : cbind (lift x) k s = (w, r) ->
  (exists a, x = Ok a /\ k a s = (w, r)) \/ idle w r.
Proof.
  unfold cbind, lift. destruct x as [a| |]; cbn [effects fold_left app].
  - destruct (k a s) as [w' r'] eqn:K. intros E. left. exists a. split; [reflexivity|]. rewrite K. exact E.
  - intros E. right. split; [congruence|]. intros u Eu. congruence.
  - intros E. right. split; [congruence|]. intros u Eu. congruence.
Qed.
Lemma lift_ok {A B} (a : A) (k : A -> cmd B) s : cbind (lift (Ok a)) k s = k a s.
Proof. unfold cbind, lift. cbn [effects fold_left app]. destruct (k a s). reflexivity. Qed.
Lemma load_bind {A B C} (c : codec A) (f : A -> res B) p (k : B -> cmd C) s w r :
  cbind (load_json c p) (fun a => cbind (lift (f a)) k) s = (w, r) ->
  (exists b, holds s p c f b /\ k b s = (w, r)) \/ idle w r.
Proof.
  unfold load_json, cbind, lift, read_file. destruct (s p) as [[t|]|] eqn:E; cbn [effects fold_left app].
  - destruct (dec c t) as [a| |] eqn:D; cbn [effects fold_left app]; [|intros X; right; split; [congruence|intros u Eu; congruence]..].
    destruct (f a) as [b| |] eqn:F; cbn [effects fold_left app]; [|intros X; right; split; [congruence|intros u Eu; congruence]..].
    destruct (k b s) as [w' r'] eqn:K. intros X. left. exists b. split; [exists t, a; auto|]. rewrite K. exact X.
  - intros X; right; split; [congruence|intros u Eu; congruence].
  - intros X; right; split; [congruence|intros u Eu; congruence].
Qed.
Lemma load_ok {A B C} (c : codec A) (f : A -> res B) p (k : B -> cmd C) s b : holds s p c f b ->
  cbind (load_json c p) (fun a => cbind (lift (f a)) k) s = k b s.
Proof.
  intros (t & a & E & D & F). unfold load_json, cbind, lift, read_file. rewrite E. cbn [effects fold_left app]. rewrite D. cbn [effects fold_left app]. rewrite F.
  cbn [effects fold_left app]. destruct (k b s). reflexivity.
Qed.
(** the same when the reading is the last thing done by a bind argument *)
Lemma assoc_load {A B C} (c : codec A) (f : A -> res B) p (k : B -> cmd C) s :
  cbind (cbind (load_json c p) (fun a => lift (f a))) k s = cbind (load_json c p) (fun a => cbind (lift (f a)) k) s.
Proof.
  unfold load_json, cbind, lift, read_file. destruct (s p) as [[t|]|]; cbn [effects fold_left app]; try reflexivity.
  destruct (dec c t) as [a| |]; cbn [effects fold_left app]; try reflexivity. destruct (f a) as [b| |]; cbn [effects fold_left app]; try reflexivity. destruct (k b s). reflexivity.
Qed.
Lemma cbind_assoc {A B C} (m : cmd A) (f : A -> cmd B) (g : B -> cmd C) s : cbind (cbind m f) g s = cbind m (fun a => cbind (f a) g) s.
Proof.
  unfold cbind. destruct (m s) as [w [a| |]]; try reflexivity. destruct (f a (effects s w)) as [w' [b| |]]; try reflexivity.
  rewrite effects_app. destruct (g b _) as [w2 r2]. rewrite app_assoc. reflexivity.
Qed.
Lemma assoc3 {A B C D} (c : codec A) (f : A -> res B) p (g : B -> cmd C) (k : C -> cmd D) s :
  cbind (cbind (load_json c p) (fun a => cbind (lift (f a)) g)) k s = cbind (load_json c p) (fun a => cbind (lift (f a)) (fun b => cbind (g b) k)) s.
Proof.
  rewrite cbind_assoc. unfold load_json, cbind, lift, read_file. destruct (s p) as [[t|]|]; cbn [effects fold_left app]; try reflexivity.
  destruct (dec c t) as [a| |]; cbn [effects fold_left app]; try reflexivity. destruct (f a) as [b| |]; cbn [effects fold_left app]; try reflexivity.
  destruct (g b s) as [w [x| |]]; try reflexivity. destruct (k x (effects s w)); reflexivity.
Qed.
Lemma holds_fun {A B} s p (c : codec A) (f : A -> res B) b b' : holds s p c f b -> holds s p c f b' -> b = b'.
Proof. intros (t & a & E & D & F) (t' & a' & E' & D' & F'). congruence. Qed.
Lemma save_cases {A} (c : codec A) p a s w r : save_json c p a s = (w, r) ->
  (w = [(p, enc c a)] /\ r = Ok tt /\ s (parent p) = Some Dir /\ s p <> Some Dir) \/ idle w r.
Proof.
  unfold save_json, write_file. destruct (s p) as [[t|]|] eqn:E; destruct (s (parent p)) as [[t'|]|] eqn:E'; intros X;
    try (right; split; [congruence|intros u Eu; congruence]); left; assert (w = [(p, enc c a)]) by congruence; assert (r = Ok tt) by congruence; subst; repeat split; auto; congruence.
Qed.
Lemma save_ok {A} (c : codec A) p a s : s (parent p) = Some Dir -> s p <> Some Dir -> save_json c p a s = ([(p, enc c a)], Ok tt).
Proof. intros D N. unfold save_json, write_file. rewrite D. destruct (s p) as [[t|]|]; [reflexivity|congruence|reflexivity]. Qed.
Lemma holds_saved {A B} s p (c : codec A) (f : A -> res B) a b : codec_ok c -> f a = Ok b -> holds (set s p (File (enc c a))) p c f b.
Proof. intros [C _] F. exists (enc c a), a. rewrite set_same. auto. Qed.
Lemma holds_other {A B} s p q n (c : codec A) (f : A -> res B) b : p <> q -> holds s p c f b -> holds (set s q n) p c f b.
Proof. intros N (t & a & E & D & F). exists t, a. rewrite set_other by exact N. auto. Qed.
Lemma holds_ext {A B} s s' p (c : codec A) (f : A -> res B) b : s' p = s p -> holds s p c f b -> holds s' p c f b.
Proof. intros X (t & a & E & D & F). exists t, a. rewrite X. auto. Qed.

(** ** paths: distinguished by the character at some position *)
Ltac path_neq n := let E := fresh in intros E; apply (f_equal (fun l => nth n l 0)) in E; vm_compute in E; discriminate.
Lemma nth_app_l {A} n (a b : list A) d : (n < length a)%nat -> nth n (a ++ b) d = nth n a d. Proof. apply app_nth1. Qed.
Lemma neq_at (n : nat) (a b : path) : nth n a 0 <> nth n b 0 -> a <> b. Proof. congruence. Qed.
Definition share_prefix := str "./data/dkg/shares/share_".
Definition eval_prefix := str "./data/random/eval_".
Lemma share_path_eq i : share_path i = share_prefix ++ to_dec i ++ str ".json".
Proof. unfold share_path, join. cbn [concat]. rewrite app_nil_r. reflexivity. Qed.
Lemma eval_path_eq i : eval_path i = eval_prefix ++ to_dec i ++ str ".json".
Proof. unfold eval_path, join. cbn [concat]. rewrite app_nil_r. reflexivity. Qed.

(** ** verification never panics *)
Lemma pe_verify_no_panic keccak e cfg input v m : pe_verify keccak e cfg input v <> Panic m.
Proof.
  unfold pe_verify. destruct (_ || _); [congruence|]. destruct (hash_to_curve_ok keccak EVAL_PREFIX input) as [h E]. unfold hash_to_curve_bn. rewrite E. cbn [bind].
  destruct (feqb _ _); congruence.
Qed.
Lemma pe_verify_range keccak e cfg input v : pe_verify keccak e cfg input v = Ok tt -> in_members cfg e.
Proof.
  unfold pe_verify, in_members. destruct (Z.ltb_spec (number_of_members cfg) (pe_index e)); cbn [orb]; [congruence|]. destruct (Z.ltb_spec (pe_index e) 1); [congruence|]. intros _. lia.
Qed.

(** ** the loop of rand combine *)
Definition in_membersb (cfg : config) (e : partial_eval) : bool := negb ((pe_index e <? 1) || (number_of_members cfg <? pe_index e)).
Lemma in_membersb_iff cfg e : in_membersb cfg e = true <-> in_members cfg e.
Proof. unfold in_membersb, in_members. destruct (Z.ltb_spec (pe_index e) 1), (Z.ltb_spec (number_of_members cfg) (pe_index e)); cbn; split; intros; try lia; try discriminate; reflexivity. Qed.
Lemma is_ok_unit (r : res unit) : is_ok r = true <-> r = Ok tt.
Proof. destruct r as [[]| |]; cbn; split; congruence. Qed.
Lemma collect_ok keccak cfg input vks evals : forall l, collect keccak cfg input vks evals = Ok l ->
  Forall (in_members cfg) evals /\ l = filter (valid keccak cfg input vks) evals /\
  Forall (fun e => exists v, nth_error vks (Z.to_nat (pe_index e - 1)) = Some v) evals.
Proof.
  induction evals as [|e tl IH]; intros l; cbn [collect filter]; [intros E; assert (l = []) by congruence; subst; auto|].
  pose proof (in_membersb_iff cfg e) as IM. unfold in_membersb in IM. destruct ((pe_index e <? 1) || (number_of_members cfg <? pe_index e)); cbn [negb bind] in *; [discriminate|].
  pose proof (proj1 IM eq_refl) as In_e. destruct (get vks (pe_index e - 1)) as [v| |] eqn:G; cbn [bind]; try discriminate.
  apply get_inv in G as [_ G]. unfold valid at 1. rewrite G.
  destruct (pe_verify keccak e cfg input v) as [u|m|m] eqn:V; cbn [is_ok].
  - destruct (collect keccak cfg input vks tl) as [r| |] eqn:C; cbn [bind]; try discriminate. intros E. destruct (IH r eq_refl) as (A & B & D).
    assert (l = e :: r) by congruence. subst. split; [constructor; auto|]. split; [reflexivity|constructor; eauto].
  - intros E. destruct (IH l E) as (A & B & D). split; [constructor; auto|]. split; [exact B|constructor; eauto].
  - discriminate.
Qed.
Lemma collect_complete keccak cfg input vks evals : Forall (in_members cfg) evals -> zlen vks >= number_of_members cfg ->
  collect keccak cfg input vks evals = Ok (filter (valid keccak cfg input vks) evals).
Proof.
  intros F L. induction F as [|e tl I F IH]; cbn [collect filter]; [reflexivity|].
  apply in_membersb_iff in I as Ib. unfold in_membersb in Ib. destruct ((pe_index e <? 1) || (number_of_members cfg <? pe_index e)); [discriminate|]. cbn [bind].
  unfold in_members in I. destruct (nth_error vks (Z.to_nat (pe_index e - 1))) as [v|] eqn:G; [|apply nth_error_None in G; unfold zlen in L; lia].
  rewrite (get_ok _ _ v) by (lia || exact G). cbn [bind]. unfold valid at 1. rewrite G. pose proof (pe_verify_no_panic keccak e cfg input v) as NP.
  destruct (pe_verify keccak e cfg input v) as [u|m|m]; cbn [is_ok]; [rewrite IH; reflexivity|exact IH|destruct (NP m eq_refl)].
Qed.
Lemma collect_out keccak cfg input vks evals : Exists (fun e => ~ in_members cfg e) evals -> forall l, collect keccak cfg input vks evals <> Ok l.
Proof. intros X l E. apply collect_ok in E as (F & _). rewrite Forall_forall in F. apply Exists_exists in X as (e & I & N). auto. Qed.

Section Client.
  Variable keccak : bytes -> Z.
  Variable pairing : list (G1 * G2c) -> bool.
  Variable poseidon : Fr -> Fr -> Fr.
  Variable J : json.
  Hypothesis HJ : json_ok J.

  (** which evaluations rand combine uses *)
  Definition chosen (cfg : config) (input : bytes) (skip : bool) (s : fs) (evals used : list partial_eval) : Prop :=
    if skip then used = evals
    else exists vks, vks_file J s vks /\ Forall (in_members cfg) evals /\ used = filter (valid keccak cfg input vks) evals.

  Lemma combine_cases cfg input skip s w r : cmd_combine keccak pairing J cfg input skip s = (w, r) ->
    idle w r \/
    exists evals gpk used pr, evals_file J s evals /\ gpk_file J s gpk /\ chosen cfg input skip s evals used /\
      threshold cfg <= zlen used /\
      combine_partial_evaluations keccak cfg (firstn (Z.to_nat (threshold cfg)) used) = Ok pr /\
      pr_verify keccak pairing pr input gpk = Ok tt /\ w = [(pseudo_path, enc (j_random J) (of_random pr))] /\ r = Ok tt.
  Proof.
    unfold cmd_combine. intros E. apply load_bind in E as [(evals & He & E)|E]; [|left; exact E].
    apply load_bind in E as [(gpk & Hg & E)|E]; [|left; exact E].
    assert (X : idle w r \/ exists used, chosen cfg input skip s evals used /\
              (do _ := lift (if zlen used <? threshold cfg then Err "Not enough valid partial evaluations" else Ok tt) in
               do pseudo := lift (combine_partial_evaluations keccak cfg (firstn (Z.to_nat (threshold cfg)) used)) in
               do _ := lift (pr_verify keccak pairing pseudo input gpk) in
               save_json (j_random J) pseudo_path (of_random pseudo)) s = (w, r)).
    { unfold chosen. destruct skip.
      - right. exists evals. split; [reflexivity|]. change (cret evals) with (lift (Ok evals)) in E. rewrite lift_ok in E. exact E.
      - rewrite assoc3 in E. apply load_bind in E as [(vks & Hv & E)|E]; [|left; exact E]. apply lift_bind in E as [(used & C & E)|E]; [|left; exact E].
        right. exists used. split; [|exact E]. apply collect_ok in C as (F & -> & _). exists vks. auto. }
    destruct X as [X|(used & C & E1)]; [left; exact X|]. clear E.
    apply lift_bind in E1 as [([] & T & E)|E]; [|left; exact E]. destruct (Z.ltb_spec (zlen used) (threshold cfg)) as [|T']; [discriminate|]. clear T.
    apply lift_bind in E as [(pr & P & E)|E]; [|left; exact E]. apply lift_bind in E as [([] & V & E)|E]; [|left; exact E].
    apply save_cases in E as [(Ew & Er & _)|E]; [|left; exact E]. right. exists evals, gpk, used, pr. auto 10.
  Qed.
  Lemma combine_runs cfg input (skip : bool) s evals gpk used pr : evals_file J s evals -> gpk_file J s gpk ->
    (if skip then used = evals else exists vks, vks_file J s vks /\ zlen vks >= number_of_members cfg /\ Forall (in_members cfg) evals /\ used = filter (valid keccak cfg input vks) evals) ->
    threshold cfg <= zlen used ->
    combine_partial_evaluations keccak cfg (firstn (Z.to_nat (threshold cfg)) used) = Ok pr ->
    pr_verify keccak pairing pr input gpk = Ok tt -> s RANDOM_DIR = Some Dir -> s pseudo_path <> Some Dir ->
    cmd_combine keccak pairing J cfg input skip s = ([(pseudo_path, enc (j_random J) (of_random pr))], Ok tt).
  Proof.
    intros He Hg C T P V D N. unfold cmd_combine. rewrite (load_ok _ _ _ _ _ _ He), (load_ok _ _ _ _ _ _ Hg).
    assert (K : forall (w : list (path * bytes)) (r : res unit), (do _ := lift (if zlen used <? threshold cfg then Err "Not enough valid partial evaluations" else Ok tt) in
               do pseudo := lift (combine_partial_evaluations keccak cfg (firstn (Z.to_nat (threshold cfg)) used)) in
               do _ := lift (pr_verify keccak pairing pseudo input gpk) in
               save_json (j_random J) pseudo_path (of_random pseudo)) s = (w, r) -> (w, r) = ([(pseudo_path, enc (j_random J) (of_random pr))], Ok tt)).
    { intros w r E. rewrite (proj2 (Z.ltb_ge _ _)) in E by lia. rewrite lift_ok, P, lift_ok, V, lift_ok in E. rewrite save_ok in E by assumption. symmetry. exact E. }
    destruct skip.
    - subst used. change (cret evals) with (lift (Ok evals)). rewrite lift_ok. match goal with |- ?x = _ => destruct x as [w r] eqn:E end. exact (K w r eq_refl).
    - destruct C as (vks & Hv & L & F & ->). rewrite assoc3, (load_ok _ _ _ _ _ _ Hv). rewrite collect_complete by assumption. rewrite lift_ok.
      match goal with |- ?x = _ => destruct x as [w r] eqn:E end. exact (K w r eq_refl).
  Qed.

  Lemma verify_final_iff input s : cmd_verify_final keccak pairing J input s = ([], Ok tt) <->
    exists pr gpk, pseudo_file J s pr /\ gpk_file J s gpk /\ pr_verify keccak pairing pr input gpk = Ok tt.
  Proof.
    unfold cmd_verify_final. split.
    - intros E. apply load_bind in E as [(pr & Hp & E)|[_ E]]; [|destruct (E tt eq_refl)]. apply load_bind in E as [(gpk & Hg & E)|[_ E]]; [|destruct (E tt eq_refl)].
      unfold lift in E. exists pr, gpk. split; [exact Hp|]. split; [exact Hg|]. congruence.
    - intros (pr & gpk & Hp & Hg & V). rewrite (load_ok _ _ _ _ _ _ Hp), (load_ok _ _ _ _ _ _ Hg). unfold lift. rewrite V. reflexivity.
  Qed.
  Lemma verify_final_writes input s : fst (cmd_verify_final keccak pairing J input s) = [].
  Proof.
    destruct (cmd_verify_final keccak pairing J input s) as [w r] eqn:E. unfold cmd_verify_final in E. apply load_bind in E as [(pr & Hp & E)|[E _]]; [|exact E].
    apply load_bind in E as [(gpk & Hg & E)|[E _]]; [|exact E]. unfold lift in E. cbn [fst]. congruence.
  Qed.
  Lemma pseudo_neq_gpk : gpk_path <> pseudo_path. Proof. apply (neq_at 7). vm_compute. discriminate. Qed.
  Lemma pseudo_neq_evals : evals_path <> pseudo_path. Proof. apply (neq_at 14). vm_compute. discriminate. Qed.
  Lemma pseudo_neq_vks : vks_path <> pseudo_path. Proof. apply (neq_at 7). vm_compute. discriminate. Qed.
  Lemma pseudo_parent : parent pseudo_path = RANDOM_DIR. Proof. vm_compute. reflexivity. Qed.

  Lemma save_bind {A B} (c : codec A) p a (k : unit -> cmd B) s w r : cbind (save_json c p a) k s = (w, r) ->
    (exists w', w = (p, enc c a) :: w' /\ k tt (set s p (File (enc c a))) = (w', r)) \/ idle w r.
  Proof.
    unfold cbind. destruct (save_json c p a s) as [w0 r0] eqn:E. apply save_cases in E as [(-> & -> & _)|[-> N]].
    - change (effects s [(p, enc c a)]) with (set s p (File (enc c a))). destruct (k tt (set s p (File (enc c a)))) as [w' r'] eqn:K. intros X. left. exists w'. split; [cbn [app] in X; congruence|]. congruence.
    - destruct r0 as [[]| |]; [destruct (N tt eq_refl)|..]; intros X; right; (split; [congruence|intros u Eu; congruence]).
  Qed.
  Lemma save_bind_ok {A B} (c : codec A) p a (k : unit -> cmd B) s : s (parent p) = Some Dir -> s p <> Some Dir ->
    cbind (save_json c p a) k s = let '(w, r) := k tt (set s p (File (enc c a))) in ((p, enc c a) :: w, r).
  Proof. intros D N. unfold cbind. rewrite save_ok by assumption. reflexivity. Qed.

  Definition gpk_write (g : global_pp) : path * bytes := (gpk_path, enc (j_point2 J) (of_g2 (g_g2a g))).
  Definition vks_write (g : global_pp) : path * bytes := (vks_path, enc (j_points J) (map of_g1 (verify_keys g))).
  Definition share_write (k : share_key) : path * bytes := (share_path (index k), enc (j_share J) (of_share k)).

  Lemma member_neq f q : nth 7 q 0 <> 109 -> member_path f <> q.
  Proof.
    intros H E. apply H. rewrite <- E. unfold member_path, join, MEMBERS_DIR, DATA_DIR, join. cbn [concat]. rewrite <- !app_assoc. reflexivity.
  Qed.
  Lemma derive_cases cfg idx file s w r : cmd_derive poseidon J cfg idx file s = (w, r) ->
    idle w r \/
    exists insts pps gpp, instances_file J s insts /\ mapM (fun i => let* (pp, _) := from_instance cfg i in Ok pp) insts = Ok pps /\
      dkg_global_public_params pps = Ok gpp /\
      ((w = [gpk_write gpp] /\ (forall u, r <> Ok u)) \/
       (w = [gpk_write gpp; vks_write gpp] /\ (r = Ok tt <-> idx = None)) \/
       (exists i f m k, idx = Some i /\ file = Some f /\ 1 <= i <= number_of_members cfg /\ member_file J s f m /\
          dkg_share_key poseidon m cfg i pps = Ok k /\ share_key_verify k cfg (verify_keys gpp) = Ok tt /\
          w = [gpk_write gpp; vks_write gpp; share_write k] /\ r = Ok tt)).
  Proof.
    unfold cmd_derive. intros E. apply load_bind in E as [(insts & Hi & E)|E]; [|left; exact E].
    apply lift_bind in E as [(pps & Hp & E)|E]; [|left; exact E]. apply lift_bind in E as [(gpp & Hg & E)|E]; [|left; exact E].
    unfold save_gpp in E. rewrite cbind_assoc in E. apply save_bind in E as [(w1 & -> & E)|E]; [|left; exact E].
    change (gpk_path, enc (j_point2 J) (sg_g2a (of_gpp gpp))) with (gpk_write gpp).
    right. exists insts, pps, gpp. split; [exact Hi|]. split; [exact Hp|]. split; [exact Hg|].
    apply save_bind in E as [(w2 & -> & E)|[-> E]]; [|left; auto].
    change (vks_path, enc (j_points J) (sg_vks (of_gpp gpp))) with (vks_write gpp). right.
    destruct idx as [i|].
    2:{ left. unfold cret in E. assert (w2 = []) by congruence. assert (r = Ok tt) by congruence. subst. split; [reflexivity|]. split; reflexivity. }
    assert (Stop : idle w2 r -> (gpk_write gpp :: vks_write gpp :: w2 = [gpk_write gpp; vks_write gpp] /\ (r = Ok tt <-> Some i = None))).
    { intros [-> N]. split; [reflexivity|]. split; [intros X; destruct (N tt X)|discriminate]. }
    unfold check_index in E. apply lift_bind in E as [([] & C & E)|E]; [|left; auto].
    destruct (Z.ltb_spec i 1); cbn [orb] in C; [discriminate|]. destruct (Z.ltb_spec (number_of_members cfg) i); [discriminate|]. clear C.
    unfold file_path in E. apply lift_bind in E as [(p & F & E)|E]; [|left; auto]. destruct file as [f|]; [|discriminate]. assert (p = member_path f) by congruence. subst p.
    apply load_bind in E as [(m & Hm & E)|E]; [|left; auto]. apply lift_bind in E as [(k & Hk & E)|E]; [|left; auto]. apply lift_bind in E as [([] & Hv & E)|E]; [|left; auto].
    unfold save_share in E. apply save_cases in E as [(-> & -> & _)|E]; [|left; auto]. right. exists i, f, m, k.
    split; [reflexivity|]. split; [reflexivity|]. split; [lia|]. split; [|auto].
    revert Hm. apply holds_ext. rewrite !set_other; [reflexivity|apply member_neq; vm_compute; discriminate|apply member_neq; vm_compute; discriminate].
  Qed.
  Lemma derive_runs cfg i f s insts pps gpp m k : instances_file J s insts -> mapM (fun i => let* (pp, _) := from_instance cfg i in Ok pp) insts = Ok pps ->
    dkg_global_public_params pps = Ok gpp -> 1 <= i <= number_of_members cfg -> member_file J s f m ->
    dkg_share_key poseidon m cfg i pps = Ok k -> share_key_verify k cfg (verify_keys gpp) = Ok tt ->
    s DKG_DIR = Some Dir -> s DKG_SHARES_DIR = Some Dir -> s gpk_path <> Some Dir -> s vks_path <> Some Dir -> s (share_path (index k)) <> Some Dir ->
    parent (share_path (index k)) = DKG_SHARES_DIR ->
    cmd_derive poseidon J cfg (Some i) (Some f) s = ([gpk_write gpp; vks_write gpp; share_write k], Ok tt).
  Proof.
    intros Hi Hp Hg R Hm Hk Hv D1 D2 N1 N2 N3 Pa. unfold cmd_derive. rewrite (load_ok _ _ _ _ _ _ Hi), Hp, lift_ok, Hg, lift_ok.
    unfold save_gpp. rewrite cbind_assoc, save_bind_ok; [|exact D1|exact N1]. rewrite save_bind_ok.
    2:{ rewrite set_other; [exact D1|]. apply (neq_at 10). vm_compute. discriminate. }
    2:{ rewrite set_other; [exact N2|]. apply (neq_at 11). vm_compute. discriminate. }
    unfold check_index. rewrite (proj2 (Z.ltb_ge i 1)), (proj2 (Z.ltb_ge (number_of_members cfg) i)) by lia. cbn [orb]. rewrite lift_ok. unfold file_path. rewrite lift_ok.
    match goal with |- context [cbind (load_json (j_member J) (member_path f)) _ ?st] => assert (Hm' : member_file J st f m) end.
    { revert Hm. apply holds_ext. rewrite !set_other; [reflexivity|apply member_neq; vm_compute; discriminate|apply member_neq; vm_compute; discriminate]. }
    rewrite (load_ok _ _ _ _ _ _ Hm'), Hk, lift_ok, Hv, lift_ok. unfold save_share.
    assert (S11 : nth 11 (share_path (index k)) 0 = 115) by (rewrite share_path_eq; reflexivity).
    rewrite save_ok; [reflexivity| |].
    - rewrite Pa. rewrite !set_other; [exact D2| |]; apply (neq_at 11); vm_compute; discriminate.
    - rewrite !set_other; [exact N3| |]; apply (neq_at 11); rewrite S11; vm_compute; discriminate.
  Qed.
End Client.

(** ** numbers in the environment *)
Lemma fold_dec_mono ds : forall acc, 0 <= acc -> Forall (fun d => 0 <= d <= 9) ds -> acc <= fold_left (fun a d => a * 10 + d) ds acc.
Proof.
  induction ds as [|d ds IH]; intros acc A F; [cbn; lia|]. inversion F as [|? ? D F']. subst. cbn [fold_left]. pose proof (IH (acc * 10 + d) ltac:(lia) F'). lia.
Qed.
Lemma parse_digits_iff s : forall acc v, 0 <= acc < 2 ^ 32 ->
  (parse_digits acc s = Some v <-> exists ds, Forall (fun d => 0 <= d <= 9) ds /\ s = map (fun d => 48 + d) ds /\ v = fold_left (fun a d => a * 10 + d) ds acc /\ v < 2 ^ 32).
Proof.
  induction s as [|c s IH]; intros acc v A; cbn [parse_digits].
  - split.
    + intros E. assert (v = acc) by congruence. subst. exists []. repeat split; auto; lia.
    + intros (ds & F & E & V & _). destruct ds; [|discriminate]. cbn in V. congruence.
  - split.
    + intros E. destruct ((48 <=? c) && (c <=? 57)) eqn:R; [|discriminate]. apply andb_prop in R as [R1 R2]. apply Z.leb_le in R1, R2.
      destruct (Z.ltb_spec (acc * 10 + (c - 48)) (2 ^ 32)) as [L|]; [|discriminate].
      apply IH in E as (ds & F & E' & V & B); [|lia]. exists ((c - 48) :: ds). split; [constructor; [lia|exact F]|]. split; [cbn [map]; f_equal; [lia|exact E']|auto].
    + intros (ds & F & E & V & B). destruct ds as [|d ds]; [discriminate|]. cbn [map] in E. assert (c = 48 + d) by congruence. assert (s = map (fun d => 48 + d) ds) by congruence. subst c s. clear E.
      inversion F as [|? ? D F']. subst. cbn [fold_left] in B. rewrite (proj2 (Z.leb_le 48 (48 + d))), (proj2 (Z.leb_le (48 + d) 57)) by lia. cbn [andb].
      pose proof (fold_dec_mono ds (acc * 10 + d) ltac:(lia) F'). replace (48 + d - 48) with d by lia. rewrite (proj2 (Z.ltb_lt (acc * 10 + d) (2 ^ 32))) by lia.
      apply IH; [lia|]. exists ds. auto.
Qed.
Lemma match43 {A} (a : Z) (x y : A) : a <> 43 -> match a with 43 => x | _ => y end = y.
Proof. intros H. destruct a as [|p|p]; try reflexivity. repeat (destruct p as [p|p|]; try reflexivity). congruence. Qed.
Lemma parse_u32_iff s v : parse_u32 s = Some v <-> denotes_u32 s v.
Proof.
  assert (A : 0 <= 0 < 2 ^ 32) by lia. unfold denotes_u32. destruct s as [|c s].
  - split; [discriminate|]. intros (ds & N & F & [E|E] & _); [destruct ds; [congruence|discriminate]|discriminate].
  - destruct (Z.eq_dec c 43) as [->|N].
    + unfold parse_u32. destruct s as [|c' s].
      * split; [discriminate|]. intros (ds & N & F & [E|E] & _); [|destruct ds; [congruence|discriminate]]. destruct ds as [|d ds]; [congruence|]. cbn [map] in E. inversion F. subst. assert (43 = 48 + d) by congruence. lia.
      * rewrite parse_digits_iff by exact A. split.
        -- intros (ds & F & E & V & B). exists ds. split; [intros ->; discriminate|]. split; [exact F|]. split; [right; congruence|auto].
        -- intros (ds & Nd & F & [E|E] & V & B); [|exists ds; split; [exact F|]; split; [congruence|auto]].
           destruct ds as [|d ds]; [congruence|]. cbn [map] in E. inversion F. subst. assert (43 = 48 + d) by congruence. lia.
    + assert (P : parse_u32 (c :: s) = parse_digits 0 (c :: s)).
      { unfold parse_u32. destruct s; apply match43; exact N. }
      rewrite P, parse_digits_iff by exact A. split.
      * intros (ds & F & E & V & B). exists ds. split; [intros ->; discriminate|]. auto.
      * intros (ds & Nd & F & [E|E] & V & B); [exists ds; auto|congruence].
Qed.
