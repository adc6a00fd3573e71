From Coq Require Import ZArith String List Bool Lia Arith.
From Verif.Base Require Import Fld Fp EC Primes Curves Group Fermat Poly.
From Verif.Model Require Import Monad Evm Strings Points HashEvm Dkg Lib Serialise Files Cache Client.
From Verif.Spec Require Import Dvrf CacheSpec ClientSpec.
From Verif.Proofs Require Import HashProofs DkgProofs DvrfProofs SerialProofs CacheProofs ClientProofs InstanceProofs.
Import ListNotations.
Open Scope Z_scope.

(** ** paths of json files *)
Lemma share_path_jp i : share_path i = jp DKG_SHARES_DIR (str "share_" ++ to_dec i).
Proof. rewrite share_path_eq. unfold jp. rewrite <- !app_assoc. reflexivity. Qed.
Lemma eval_path_jp i : eval_path i = jp RANDOM_DIR (str "eval_" ++ to_dec i).
Proof. rewrite eval_path_eq. unfold jp. rewrite <- !app_assoc. reflexivity. Qed.
Lemma secret_path_jp i : secret_path i = jp DKG_SECRETS_DIR (str "secret_" ++ to_dec i).
Proof. unfold secret_path, jp, join at 1. cbn [concat]. rewrite app_nil_r, <- !app_assoc. reflexivity. Qed.
Lemma mock_member_path_jp i : mock_member_path i = jp MEMBERS_DIR (str "member_" ++ to_dec i).
Proof. unfold mock_member_path, jp, join at 1. cbn [concat]. rewrite app_nil_r, <- !app_assoc. reflexivity. Qed.
Lemma mock_member_path_member i : mock_member_path i = member_path (str "member_" ++ to_dec i).
Proof. rewrite mock_member_path_jp. unfold jp, member_path, join at 1. cbn [concat]. rewrite !app_nil_r, <- !app_assoc. reflexivity. Qed.
Lemma mpks_jp : MEM_PUBLIC_KEYS_PATH = jp DATA_DIR (str "mpks"). Proof. reflexivity. Qed.
Lemma gpk_jp : gpk_path = jp DKG_DIR (str "gpk"). Proof. reflexivity. Qed.
Lemma vks_jp : vks_path = jp DKG_DIR (str "vks"). Proof. reflexivity. Qed.
Lemma gpp_jp : gpp_path = jp DKG_DIR (str "gpp"). Proof. reflexivity. Qed.
Lemma pub_jp : dkgs_public_path = jp DKG_DIR (str "dkgs_public"). Proof. reflexivity. Qed.
Lemma inst_jp : all_instances_path = jp DKG_DIR (str "all_instances"). Proof. reflexivity. Qed.
Lemma evals_jp : evals_path = jp RANDOM_DIR (str "evals"). Proof. reflexivity. Qed.
Lemma pseudo_jp : pseudo_path = jp RANDOM_DIR (str "pseudo"). Proof. reflexivity. Qed.

Lemma last_app {A} (l : list A) x d : last (l ++ [x]) d = x.
Proof. induction l as [|a l IH]; [reflexivity|]. cbn [app last]. destruct (l ++ [x]) eqn:E; [destruct l; discriminate|exact IH]. Qed.
Lemma jp_last d n : last (jp d n) 0 = 110.
Proof.
  unfold jp. change (str ".json") with ([46; 106; 115; 111] ++ [110]). rewrite !app_assoc. apply last_app.
Qed.
Lemma dir_not_jp d d' n : In d dirs -> d <> jp d' n.
Proof. intros I E. apply (f_equal (fun l => last l 0)) in E. rewrite jp_last in E. cbn [dirs In] in I. repeat destruct I as [I|I]; try contradiction; subst d; vm_compute in E; discriminate. Qed.
Lemma good_set s d n b : good_fs s -> good_fs (set s (jp d n) (File b)).
Proof.
  intros [A B]. constructor.
  - intros x I. rewrite set_other by (apply dir_not_jp; exact I). auto.
  - intros d' n'. unfold set. destruct (path_eqb _ _); [discriminate|auto].
Qed.
Definition placed (p : path) : Prop := exists d n, p = jp d n /\ In d dirs /\ ~ In 47 n.
Lemma placed_save {A} (c : codec A) p a s : placed p -> good_fs s -> save_json c p a s = ([(p, enc c a)], Ok tt) /\ good_fs (set s p (File (enc c a))).
Proof.
  intros (d & n & -> & I & N) G. split; [|apply good_set; exact G]. apply save_ok.
  - unfold jp. rewrite parent_of; [apply (g_dirs s G); exact I|]. apply in_app47; [exact N|cbn; intuition lia].
  - apply (g_json s G).
Qed.
Lemma good_effects w : Forall (fun x => placed (fst x)) w -> forall s, good_fs s -> good_fs (effects s w).
Proof.
  induction 1 as [|[p b] w (d & n & E & _) F IH]; intros s G; [exact G|]. cbn [fst] in E. subst p. cbn [effects fold_left]. apply IH. apply good_set. exact G.
Qed.
Lemma not47 (a : bytes) i : ~ In 47 a -> 0 <= i -> ~ In 47 (a ++ to_dec i).
Proof. intros A H. apply in_app47; [exact A|apply chars_no; lia]. Qed.
Ltac no47 := (cbn; intuition lia).
Lemma in_dirs_nth k : (k < 6)%nat -> In (nth k dirs []) dirs. Proof. intros H. apply nth_In. exact H. Qed.
Lemma pl_share i : 0 <= i -> placed (share_path i). Proof. intros H. rewrite share_path_jp. do 2 eexists. split; [reflexivity|]. split; [apply (in_dirs_nth 4); lia|apply not47; [no47|exact H]]. Qed.
Lemma pl_eval i : 0 <= i -> placed (eval_path i). Proof. intros H. rewrite eval_path_jp. do 2 eexists. split; [reflexivity|]. split; [apply (in_dirs_nth 5); lia|apply not47; [no47|exact H]]. Qed.
Lemma pl_secret i : 0 <= i -> placed (secret_path i). Proof. intros H. rewrite secret_path_jp. do 2 eexists. split; [reflexivity|]. split; [apply (in_dirs_nth 3); lia|apply not47; [no47|exact H]]. Qed.
Lemma pl_member i : 0 <= i -> placed (mock_member_path i). Proof. intros H. rewrite mock_member_path_jp. do 2 eexists. split; [reflexivity|]. split; [apply (in_dirs_nth 1); lia|apply not47; [no47|exact H]]. Qed.
Lemma pl_mpks : placed MEM_PUBLIC_KEYS_PATH. Proof. rewrite mpks_jp. do 2 eexists. split; [reflexivity|]. split; [apply (in_dirs_nth 0); lia|no47]. Qed.
Lemma pl_gpk : placed gpk_path. Proof. rewrite gpk_jp. do 2 eexists. split; [reflexivity|]. split; [apply (in_dirs_nth 2); lia|no47]. Qed.
Lemma pl_vks : placed vks_path. Proof. rewrite vks_jp. do 2 eexists. split; [reflexivity|]. split; [apply (in_dirs_nth 2); lia|no47]. Qed.
Lemma pl_gpp : placed gpp_path. Proof. rewrite gpp_jp. do 2 eexists. split; [reflexivity|]. split; [apply (in_dirs_nth 2); lia|no47]. Qed.
Lemma pl_pub : placed dkgs_public_path. Proof. rewrite pub_jp. do 2 eexists. split; [reflexivity|]. split; [apply (in_dirs_nth 2); lia|no47]. Qed.
Lemma pl_inst : placed all_instances_path. Proof. rewrite inst_jp. do 2 eexists. split; [reflexivity|]. split; [apply (in_dirs_nth 2); lia|no47]. Qed.
Lemma pl_evals : placed evals_path. Proof. rewrite evals_jp. do 2 eexists. split; [reflexivity|]. split; [apply (in_dirs_nth 5); lia|no47]. Qed.
Lemma pl_pseudo : placed pseudo_path. Proof. rewrite pseudo_jp. do 2 eexists. split; [reflexivity|]. split; [apply (in_dirs_nth 5); lia|no47]. Qed.

(** ** looking files up after a list of writes *)
Lemma effects_notin w : forall s p, ~ In p (map fst w) -> effects s w p = s p.
Proof.
  induction w as [|[q b] w IH]; intros s p N; [reflexivity|]. cbn [effects fold_left]. cbn [map fst In] in N.
  change (effects (set s q (File b)) w p = s p). rewrite IH by tauto. apply set_other. intros E. apply N. left. congruence.
Qed.
Lemma effects_in w : forall s p b, NoDup (map fst w) -> In (p, b) w -> effects s w p = Some (File b).
Proof.
  induction w as [|[q c] w IH]; intros s p b N I; [destruct I|]. cbn [map fst] in N. inversion N as [|? ? N1 N2]. subst.
  change (effects (set s q (File c)) w p = Some (File b)). destruct I as [E|I].
  - assert (q = p) by congruence. assert (c = b) by congruence. subst. rewrite effects_notin by exact N1. apply set_same.
  - apply IH; auto.
Qed.

(** ** loops *)
Lemma for_each_saves {X A} (f : X -> cmd unit) (c : codec A) (pth : X -> path) (val : X -> A) l :
  (forall x, In x l -> f x = save_json c (pth x) (val x)) -> (forall x, In x l -> placed (pth x)) ->
  forall s, good_fs s -> for_each f l s = (map (fun x => (pth x, enc c (val x))) l, Ok tt).
Proof.
  induction l as [|x l IH]; intros Hf Hp s G; [reflexivity|]. cbn [for_each map]. rewrite (Hf x) by (left; reflexivity). unfold cbind.
  destruct (placed_save c (pth x) (val x) s) as [E G']; [apply Hp; left; reflexivity|exact G|]. rewrite E. cbn [effects fold_left].
  rewrite IH; [reflexivity| | |exact G']; intros y I; [apply Hf|apply Hp]; right; exact I.
Qed.
Lemma mapC_loads {X A B} (c : codec A) (g : A -> res B) (pth : X -> path) l bs s :
  Forall2 (fun x b => holds s (pth x) c g b) l bs ->
  mapC (fun x => do a := load_json c (pth x) in lift (g a)) l s = ([], Ok bs).
Proof.
  induction 1 as [|x b l bs H F IH]; [reflexivity|]. cbn [mapC]. rewrite assoc_load, (load_ok _ _ _ _ _ _ H). unfold cbind at 1. rewrite IH. reflexivity.
Qed.
Lemma mapM_Forall2 {A B} (f : A -> res B) l l' : Forall2 (fun a b => f a = Ok b) l l' -> mapM f l = Ok l'.
Proof. induction 1 as [|a b l l' H F IH]; [reflexivity|]. cbn [mapM]. rewrite H. cbn [bind]. rewrite IH. reflexivity. Qed.

(** ** names are different *)
Lemma dec_inj_paths (pre : bytes) i j : 0 <= i < 2 ^ 64 -> 0 <= j < 2 ^ 64 -> pre ++ to_dec i ++ str ".json" = pre ++ to_dec j ++ str ".json" -> i = j.
Proof.
  intros Hi Hj E. apply app_inv_head, app_inv_tail in E. assert (B : 2 ^ 64 < M256) by reflexivity. apply DecimalProofs.to_dec_inj in E; lia.
Qed.
Lemma share_inj i j : 0 <= i < 2 ^ 64 -> 0 <= j < 2 ^ 64 -> share_path i = share_path j -> i = j.
Proof. rewrite !share_path_eq. apply dec_inj_paths. Qed.
Lemma member_inj i j : 0 <= i < 2 ^ 64 -> 0 <= j < 2 ^ 64 -> mock_member_path i = mock_member_path j -> i = j.
Proof.
  intros Hi Hj E. rewrite !mock_member_path_jp in E. unfold jp in E. apply (dec_inj_paths (MEMBERS_DIR ++ [47] ++ str "member_")); auto.
Qed.
Lemma secret_inj i j : 0 <= i < 2 ^ 64 -> 0 <= j < 2 ^ 64 -> secret_path i = secret_path j -> i = j.
Proof.
  intros Hi Hj E. rewrite !secret_path_jp in E. unfold jp in E. apply (dec_inj_paths (DKG_SECRETS_DIR ++ [47] ++ str "secret_")); auto.
Qed.
Lemma NoDup_map_on {A B} (f : A -> B) l : (forall x y, In x l -> In y l -> f x = f y -> x = y) -> NoDup l -> NoDup (map f l).
Proof.
  induction 2 as [|x l N D IH]; [constructor|]. cbn [map]. constructor.
  - intros I. apply in_map_iff in I as (y & E & I). apply N. rewrite (H x y); auto; [left; auto|right; auto].
  - apply IH. intros a b Ia Ib. apply H; right; auto.
Qed.
Lemma zseq_range n i : In i (zseq n) -> 1 <= i <= Z.of_nat n. Proof. apply in_zseq. Qed.
Lemma numbered_fst {A} (l : list A) : map fst (numbered l) = zseq (length l).
Proof.
  unfold numbered, zseq. set (k := 1%nat). clearbody k. revert k. induction l as [|a l IH]; intros k; [reflexivity|]. cbn [length seq map combine fst]. f_equal. apply IH.
Qed.
Lemma numbered_nth {A} (l : list A) i a : In (i, a) (numbered l) <-> 1 <= i /\ nth_error l (Z.to_nat (i - 1)) = Some a.
Proof.
  unfold numbered. assert (X : forall k, In (i, a) (combine (map Z.of_nat (seq k (length l))) l) <-> Z.of_nat k <= i /\ nth_error l (Z.to_nat (i - Z.of_nat k)) = Some a); [|apply (X 1%nat)].
  induction l as [|b l IH]; intros k; cbn [length seq map combine In].
  - split; [tauto|]. intros [_ E]. destruct (Z.to_nat _); discriminate.
  - rewrite IH. split.
    + intros [E|[H E]].
      * assert (i = Z.of_nat k) by congruence. assert (b = a) by congruence. subst. rewrite Z.sub_diag. split; [lia|reflexivity].
      * split; [lia|]. replace (Z.to_nat (i - Z.of_nat k)) with (S (Z.to_nat (i - Z.of_nat (S k)))) by lia. exact E.
    + intros [H E]. destruct (Z.eq_dec i (Z.of_nat k)) as [->|N].
      * rewrite Z.sub_diag in E. cbn in E. left. congruence.
      * right. split; [lia|]. replace (Z.to_nat (i - Z.of_nat k)) with (S (Z.to_nat (i - Z.of_nat (S k)))) in E by lia. exact E.
Qed.
Lemma Forall2_numbered {A} (P : Z -> A -> Prop) (l : list A) : (forall i a, In (i, a) (numbered l) -> P i a) -> Forall2 P (zseq (length l)) l.
Proof.
  unfold numbered, zseq. generalize 1%nat. induction l as [|a l IH]; intros k H; [constructor|]. cbn [length seq map]. constructor.
  - apply H. left. reflexivity.
  - apply IH. intros i b I. apply H. right. exact I.
Qed.
Lemma one_to_zseq {A} (l : list A) n : zlen l = n -> one_to n = zseq (length l).
Proof. intros <-. unfold one_to, zlen, zseq. rewrite Nat2Z.id. reflexivity. Qed.
