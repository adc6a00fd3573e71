(** The demo, script by script: the keys, then the rounds. *)
From Coq Require Import ZArith String List Bool Lia.
From Verif.Base Require Import Fld Fp EC Primes Curves Group Fermat.
From Verif.Model Require Import Monad Evm Strings Points HashEvm Dkg Lib Serialise Files Cache Client Zkdvrf PairingSol HashSol PseudoRandSol GppSol RealEnv Services Demo.
From Verif.Spec Require Import Dvrf Onchain Histories Serial CacheSpec ClientSpec ServiceSpec DemoSpec.
From Verif.Proofs Require Import ZkdvrfStep ZkdvrfInv1 ZkdvrfInv2 ZkdvrfInv3 BytesProofs SerialProofs DecimalProofs HashProofs HashSolProofs OnchainProofs VerifyProofs InstanceProofs DkgProofs DvrfProofs Forward CacheProofs ClientProofs PipelineProofs PipelineRuns ServiceHex ServiceProofs DemoFiles DemoScripts.
From Verif.Props Require Import P_Dvrf P_Onchain P_Contract P_EndToEnd P_Live P_Client P_Services.
Import ListNotations.
Open Scope Z_scope.

(** ** numbering *)
Lemma numbered_length {A} (l : list A) : length (numbered l) = length l.
Proof. unfold numbered. rewrite combine_length, map_length, seq_length. lia. Qed.
Lemma numbered_split {A} (l : list A) pre i x post : numbered l = pre ++ (i, x) :: post -> i = Z.of_nat (length pre) + 1 /\ nth_error l (length pre) = Some x.
Proof.
  unfold numbered. intros H. assert (X : nth_error (combine (map Z.of_nat (seq 1 (length l))) l) (length pre) = Some (i, x)) by (rewrite H, nth_error_app2, Nat.sub_diag by lia; reflexivity).
  assert (G : forall (a : list Z) (b : list A) k p, nth_error (combine a b) k = Some p -> nth_error a k = Some (fst p) /\ nth_error b k = Some (snd p)).
  { clear. induction a as [|y a IH]; intros [|z b] [|k] p E; cbn in *; try discriminate; [inversion E; subst; auto|apply IH; exact E]. }
  apply G in X as [X1 X2]. cbn [fst snd] in *. split; [|exact X2]. rewrite nth_error_map in X1. assert (L : (length pre < length l)%nat) by (apply nth_error_Some; congruence).
  rewrite (nth_error_nth' _ 0%nat) in X1 by (rewrite seq_length; exact L). cbn [option_map] in X1. rewrite seq_nth in X1 by exact L. assert (i = Z.of_nat (1 + length pre)) by congruence. lia.
Qed.
Lemma numbered_snd {A} (l : list A) : map snd (numbered l) = l.
Proof.
  unfold numbered. assert (G : forall (a : list Z) (b : list A), length a = length b -> map snd (combine a b) = b).
  { induction a as [|y a IH]; intros [|z b] E; cbn in *; try lia; auto. f_equal. apply IH. lia. }
  apply G. rewrite map_length, seq_length. reflexivity.
Qed.
Lemma numbered_in {A} (l : list A) i x : In (i, x) (numbered l) <-> 1 <= i /\ nth_error l (Z.to_nat (i - 1)) = Some x.
Proof.
  split.
  - intros I. apply in_split in I as (pre & post & E). apply numbered_split in E as [-> E]. split; [lia|]. replace (Z.to_nat _) with (length pre) by lia. exact E.
  - intros [Hi E]. assert (L : (Z.to_nat (i - 1) < length l)%nat) by (apply nth_error_Some; congruence).
    assert (X : nth_error (numbered l) (Z.to_nat (i - 1)) <> None) by (apply nth_error_Some; rewrite numbered_length; exact L).
    destruct (nth_error (numbered l) (Z.to_nat (i - 1))) as [[j y]|] eqn:Y; [|congruence]. pose proof (nth_error_In _ _ Y) as I.
    apply nth_error_split in Y as (pre & post & Y & Lp). destruct (numbered_split _ _ _ _ _ Y) as [J1 J2]. rewrite Lp in J1, J2. assert (y = x) by congruence. subst y. replace i with j by lia. exact I.
Qed.
Lemma combine_fst {A B} : forall (a : list A) (b : list B), length a = length b -> map fst (combine a b) = a.
Proof. induction a as [|y a IH]; intros [|z b] E; cbn in *; try lia; auto. f_equal. apply IH. lia. Qed.
Lemma combine_snd {A B} : forall (a : list A) (b : list B), length a = length b -> map snd (combine a b) = b.
Proof. induction a as [|y a IH]; intros [|z b] E; cbn in *; try lia; auto. f_equal. apply IH. lia. Qed.
Lemma NoDup_mid {A} (l : list A) pre x post : NoDup l -> l = pre ++ x :: post -> ~ In x pre.
Proof. intros N -> I. apply NoDup_remove_2 in N. apply N, in_or_app. auto. Qed.

Lemma list_eq_nth {A} : forall a b : list A, (forall k, nth_error a k = nth_error b k) -> a = b.
Proof.
  induction a as [|x a IH]; intros [|y b] H; [reflexivity|discriminate (H 0%nat)|discriminate (H 0%nat)|]. assert (x = y) by (specialize (H 0%nat); cbn in H; congruence). subst y.
  f_equal. apply IH. intros k. exact (H (S k)).
Qed.
Section Setup.
  Variable keccak : bytes -> Z.
  Variable in_g2 : G2c -> bool.
  Variable pairing : list (G1 * G2c) -> bool.
  Variable halo2 : Z -> bytes -> list Z -> res bool.
  Hypothesis K : keccak_ok keccak.
  Hypothesis HG : in_g2_ok in_g2.
  Hypothesis HP : pairing_ok pairing.
  Variable c : Zkdvrf.cfg.
  Notation E := (real_env keccak in_g2 pairing halo2).
  Notation hist := (Histories.hist Pre E c).
  Variable poseidon : Fr -> Fr -> Fr.
  Variable J : json.
  Hypothesis HJ : json_ok J.
  Variable lag : list bytes -> Z -> list bytes.
  Variables vkey pkey : Type.
  Variable vk_write : vkey -> bytes.
  Variable vk_read : bytes -> res vkey.
  Variable pk_write : pkey -> bytes.
  Variable pk_read : bytes -> res pkey.
  Variable keygen_vk : kzg -> config -> res vkey.
  Variable keygen_pk : kzg -> vkey -> config -> res pkey.
  Variable get_vk : pkey -> vkey.
  Variable create_proof : kzg -> pkey -> member_params -> list Fr -> Z -> res bytes.
  Variable verify_proof : kzg -> vkey -> bytes -> list Fr -> bool.
  Variable d : Z.
  Variable P : kzg.
  Variable vk : vkey.
  Variable pk : pkey.
  Notation t := (c_threshold c).
  Notation n := (c_number c).
  Notation admin := (c_owner c).
  Notation cfg := (mkConfig (c_threshold c) (c_number c)).
  Notation cl := (Demo.client_ keccak pairing poseidon J lag vkey pkey vk_write vk_read pk_write pk_read keygen_vk keygen_pk get_vk create_proof verify_proof t n d admin).
  Notation register_one_ := (register_one keccak pairing poseidon J lag vkey pkey vk_write vk_read pk_write pk_read keygen_vk keygen_pk get_vk create_proof verify_proof E t n d admin).
  Notation nidkg_one_ := (nidkg_one keccak pairing poseidon J lag vkey pkey vk_write vk_read pk_write pk_read keygen_vk keygen_pk get_vk create_proof verify_proof E t n d admin).
  Notation nidkg_done_ := (nidkg_done keccak pairing poseidon J lag vkey pkey vk_write vk_read pk_write pk_read keygen_vk keygen_pk get_vk create_proof verify_proof t n d admin).
  Notation admin_nidkg_ := (admin_nidkg keccak pairing poseidon J lag vkey pkey vk_write vk_read pk_write pk_read keygen_vk keygen_pk get_vk create_proof verify_proof E t n d admin).
  Notation ready := (prepared vk_read pk_read cfg d P vk pk).

  Variable wallets : list Z.
  Variable secrets : list Fq.
  Variable draws : list (list Fr * Fr * Z).
  Notation members := (map member_random secrets).
  Notation dealers := (map fst draws).
  Notation keys := (map mk_pk members).
  Hypothesis HH : honest cfg members dealers.
  Hypothesis Hn : n < 2 ^ 32.
  Hypothesis Hd : 0 <= d <= 22.
  Hypothesis HK : kzg_of_degree d P.
  Hypothesis HC : proofs_accepted poseidon get_vk create_proof verify_proof (halo2 (c_vk c)) cfg P vk pk.
  Hypothesis Dep : c_minDeposit c = 0.
  Hypothesis CO : cfg_ok c = true.
  Hypothesis PO : 0 < admin.
  Hypothesis LW : length wallets = length secrets.
  Hypothesis LD : length draws = length secrets.
  Hypothesis NW : NoDup wallets.
  Hypothesis FW : Forall (fun a => 0 < a < M160) wallets.
  Hypothesis FK : Forall (fun x => mk_pk (member_random x) <> g0) secrets.

  Lemma sizes : 1 <= t <= n /\ Z.of_nat (length secrets) = n.
  Proof.
    destruct (cfg_facts _ _ _ HH) as (A & B & C). cbn [Dkg.threshold number_of_members] in *. pose proof (h_members _ _ _ HH) as L. unfold zlen in L. rewrite map_length in L. cbn [number_of_members] in L. clear -A B C L. lia.
  Qed.
  Lemma own : 0 < admin < M160.
  Proof.
    split; [exact PO|]. revert CO. unfold cfg_ok. intros H. repeat (apply andb_prop in H; destruct H as [H ?]). unfold is_addr in *.
    match goal with X : (_ <=? c_owner c) && _ = true |- _ => apply andb_prop in X as [_ X]; apply Z.ltb_lt in X; exact X end.
  Qed.
  Lemma opts a : 0 < a < M160 -> options_ok c (Opts t n d a).
  Proof.
    intros A. destruct sizes as [B L]. constructor; cbn [o_threshold o_members o_degree o_me]; [clear -B; lia|exact Hn|clear -Hd; assert (22 < 2 ^ 32) by reflexivity; lia|reflexivity|reflexivity|exact A].
  Qed.

  (** the contract's history, all of whose events are in the log; nobody has started a round *)
  Record alive (tr : list step) (W : world) : Prop := {
    al_hist : hist tr (chain W); al_log : elog W = log tr; al_own : owner (chain W) = admin }.
  Lemma send_ok tr W a x s' ev : alive tr W -> apply Pre E (chain W) (mkTx a 0 x) = Ok (s', ev) -> owner s' = owner (chain W) ->
    send E a x W = (World (files W) s' (elog W ++ ev), Ok tt) /\ alive (tr ++ [mkStep (chain W) (mkTx a 0 x) (Ok (s', ev))]) (World (files W) s' (elog W ++ ev)).
  Proof.
    intros [H L O] A O'. split; [unfold send; rewrite A; reflexivity|]. constructor; cbn [chain elog].
    - apply hist_ok; [exact H|exact A].
    - rewrite log_app, log_one, L. reflexivity.
    - congruence.
  Qed.
  Lemma alive_files tr W fs : alive tr W -> alive tr (World fs (chain W) (elog W)).
  Proof. intros [A B C]. constructor; assumption. Qed.

  (** ** admin.ts: the permissioned nodes *)
  Lemma add_ok W s0 : construct c = Ok s0 -> W = World (files W) s0 [] -> exists tr W', admin_add E admin wallets W = (W', Ok tt) /\ files W' = files W /\
    alive tr W' /\ contractPhase (chain W') = Unregistered /\ added tr = wallets /\ registrations tr = [] /\ submissions tr = [] /\ initiations tr = [].
  Proof.
    intros C0 EW. destruct sizes as [Bt Ln]. unfold admin_add.
    destruct (each_inv (fun a => send E admin (AddPermissionedNodes a)) (fun pre W' => files W' = files W /\ exists tr,
        alive tr W' /\ contractPhase (chain W') = Unregistered /\ added tr = pre /\ registrations tr = [] /\ submissions tr = [] /\ initiations tr = []) wallets) with (W := W) as (W' & X & Y & tr & Z).
    - intros pre a post W1 Ew (F1 & tr & Al & Ph & Ad & Rg & Sb & In).
      assert (Aa : 0 < a < M160). { rewrite Forall_forall in FW. apply FW. rewrite Ew. apply in_or_app. right. left. reflexivity. }
      destruct (F_add Pre E c tr (chain W1) a (al_hist _ _ Al)) as (s1 & A & O1 & P1).
      { rewrite (al_own _ _ Al). exact own. } { exact Aa. }
      { rewrite Ad, <- Ln, <- LW, Ew, app_length. cbn [length]. clear. lia. }
      { rewrite Ad. exact (NoDup_mid _ _ _ _ NW Ew). }
      rewrite (al_own _ _ Al) in A. destruct (send_ok tr W1 admin _ s1 [] Al A O1) as [Sd Al1]. eexists. split; [exact Sd|]. split; [exact F1|].
      eexists. split; [exact Al1|]. cbn [chain]. split; [congruence|]. rewrite added_app, added_one, registrations_app, registrations_one, submissions_app, submissions_one, initiations_app, initiations_one, Ad, Rg, Sb, In. repeat split.
    - split; [reflexivity|]. exists []. rewrite EW. pose proof (construct_ok c s0 C0) as (_ & _ & E0). repeat split; try (rewrite E0; reflexivity).
      cbn [chain]. constructor; [exact CO|exact C0].
    - exists tr, W'. split; [exact X|]. split; [exact Y|exact Z].
  Qed.

  (** ** register.ts *)
  Definition reg_of (x : Z * (Z * Fq)) : Z * pt * Z := (fst (snd x), enck (mk_pk (member_random (snd (snd x)))), 0).
  Lemma member_path_i i : member_path (member_i i) = str "./data/members/member_" ++ to_dec i ++ str ".json".
  Proof. unfold member_path, member_i, join. cbn [concat]. rewrite !app_nil_r, <- ?app_assoc. reflexivity. Qed.
  Lemma member_i_inj i j : 0 <= i < 2 ^ 64 -> 0 <= j < 2 ^ 64 -> member_path (member_i i) = member_path (member_i j) -> i = j.
  Proof. rewrite !member_path_i. apply dec_inj_paths. Qed.
  Lemma member_placed i : 0 <= i -> placed (member_path (member_i i)).
  Proof.
    intros Hi. exists MEMBERS_DIR, (str "member_" ++ to_dec i). split; [|split; [apply (in_dirs_nth 1); lia|apply not47; [no47|exact Hi]]].
    unfold member_path, member_i, jp, join. cbn [concat]. rewrite !app_nil_r. reflexivity.
  Qed.
  Lemma wallet_at k : forall a x, nth_error (combine wallets secrets) k = Some (a, x) -> nth_error wallets k = Some a /\ nth_error secrets k = Some x.
  Proof.
    clear -LW. revert secrets LW k. induction wallets as [|b l IH]; intros [|y sl] L [|k] a x H; cbn in *; try discriminate.
    - inversion H; subst. auto.
    - apply (IH sl); [lia|exact H].
  Qed.
  Lemma reg_event tr s a z p s' ev : hist tr s -> apply Pre E s (mkTx a z (RegisterNode p)) = Ok (s', ev) -> Z.of_nat (length (registrations tr)) + 1 = n -> ev = [RegistrationCompleted n].
  Proof.
    intros H A L. destruct (apply_ok _ _ _ _ _ _ A) as [_ R]. inversion R; try discriminate. subst. rewrite (j_rc _ _ _ _ (inv1 _ _ _ _ _ H)), (i_n _ _ (inv0 _ _ _ _ _ H)), L, Z.eqb_refl. reflexivity.
  Qed.
  Lemma map_reg (l : list (Z * (Z * Fq))) : map who (map reg_of l) = map fst (map snd l) /\ map key (map reg_of l) = map enck (map mk_pk (map member_random (map snd (map snd l)))).
  Proof. rewrite !map_map. split; reflexivity. Qed.
  Lemma ws : map snd (numbered (combine wallets secrets)) = combine wallets secrets. Proof. apply numbered_snd. Qed.
  Lemma wl : length (numbered (combine wallets secrets)) = length secrets.
  Proof. rewrite numbered_length, combine_length, LW. apply Nat.min_id. Qed.
  Lemma register_ok tr0 W : ready (files W) -> alive tr0 W -> contractPhase (chain W) = Unregistered -> added tr0 = wallets -> registrations tr0 = [] -> submissions tr0 = [] -> initiations tr0 = [] ->
    exists tr W', each register_one_ (numbered (combine wallets secrets)) W = (W', Ok tt) /\ ready (files W') /\ alive tr W' /\ contractPhase (chain W') = Registered /\
      added tr = wallets /\ map who (registrations tr) = wallets /\ map key (registrations tr) = map enck keys /\ submissions tr = [] /\ initiations tr = [] /\
      heard registration_completed (elog W') <> None /\
      (forall i x, nth_error secrets (Z.to_nat (i - 1)) = Some x -> 1 <= i -> member_file J (files W') (member_i i) (member_random x)).
  Proof.
    intros R0 A0 P0 D0 G0 S0 I0. destruct sizes as [Bt Ln].
    destruct (each_inv register_one_ (fun pre W' => ready (files W') /\ exists tr, alive tr W' /\
        contractPhase (chain W') = (if Z.of_nat (length pre) =? n then Registered else Unregistered) /\ added tr = wallets /\ registrations tr = map reg_of pre /\ submissions tr = [] /\ initiations tr = [] /\
        (Z.of_nat (length pre) = n -> heard registration_completed (elog W') <> None) /\
        forall i a x, In (i, (a, x)) pre -> member_file J (files W') (member_i i) (member_random x)) (numbered (combine wallets secrets))) with (W := W) as (W' & X & R & tr & Al & Ph & Ad & Rg & Sb & In' & Hd' & Mf).
    - intros pre [i [a x]] post W1 Ew (R1 & tr & Al & Ph & Ad & Rg & Sb & In1 & _ & Mf).
      destruct (numbered_split _ _ _ _ _ Ew) as [Ei Nx]. destruct (wallet_at _ _ _ Nx) as [Na Ns].
      assert (Lp : (length pre < length secrets)%nat) by (apply nth_error_Some; congruence).
      assert (Aa : 0 < a < M160) by (rewrite Forall_forall in FW; apply FW; eapply nth_error_In; eauto).
      assert (Ph' : contractPhase (chain W1) = Unregistered). { rewrite Ph. destruct (Z.eqb_spec (Z.of_nat (length pre)) n); [exfalso; clear -e Lp Ln; lia|reflexivity]. }
      assert (Ba : ~ In a (map who (registrations tr))).
      { rewrite Rg, (proj1 (map_reg _)). apply (NoDup_mid wallets _ _ (map fst (map snd post)) NW). rewrite <- (combine_fst wallets secrets LW), <- ws, Ew, !map_app. reflexivity. }
      assert (Bn : Z.of_nat (length pre) + 1 <= n) by (clear -Lp Ln; lia).
      destruct (registers Pre keccak in_g2 pairing halo2 c poseidon J HJ lag vkey pkey vk_write vk_read pk_write pk_read keygen_vk keygen_pk get_vk create_proof verify_proof (fun _ => to_dec i) (Opts t n d a) (opts a Aa)
        tr (chain W1) (files W1) x (al_hist _ _ Al) Ph' Dep) as (s' & ev & Q).
      { cbn [o_me]. rewrite Ad. eapply nth_error_In; eauto. } { exact Ba. } { exact (pr_fs _ _ _ _ _ _ _ _ R1). }
      { cbn [o_me]. apply (not47 [] i); [intros []|clear -Ei; lia]. } { rewrite Forall_forall in FK. apply FK. eapply nth_error_In; eauto. }
      cbv zeta in Q. destruct Q as (Q1 & Q2 & Q3 & Q4 & Q5). cbn [o_me] in *. change (member_name (fun _ => to_dec i) (Opts t n d a)) with (member_i i) in *.
      set (w := [(member_path (member_i i), Client.enc (j_member J) (of_member (member_random x)))]) in *.
      set (W2 := World (effects (files W1) w) (chain W1) (elog W1)). pose proof (alive_files _ _ (effects (files W1) w) Al) as Al2. fold W2 in Al2.
      destruct (send_ok tr W2 a _ s' ev Al2 Q2 Q3) as [Sd Al3].
      eexists. split; [rewrite register_eq, (sbind_ok _ _ _ _ _ (run_ok _ _ _ _ Q1)); exact Sd|]. cbn [files chain W2].
      split; [apply ready_effects; [constructor; [apply safe_placed, member_placed; clear -Ei; lia|constructor]|exact R1]|].
      eexists. split; [exact Al3|]. cbn [chain]. rewrite added_app, added_one, registrations_app, registrations_one, submissions_app, submissions_one, initiations_app, initiations_one. cbn [what]. rewrite !app_nil_r, map_app, Rg, app_length.
      split; [|split; [exact Ad|split; [reflexivity|split; [exact Sb|split; [exact In1|split]]]]].
      + rewrite Q4, Rg, map_length. cbn [is_pre andb length]. rewrite Nat2Z.inj_add. reflexivity.
      + cbn [length elog]. intros Le. rewrite heard_app. rewrite (reg_event tr (chain W1) a 0 _ s' ev (al_hist _ _ Al) Q2); [discriminate|]. rewrite Rg, map_length. clear -Le. lia.
      + intros j b y I. apply in_app_or in I as [I|[I|[]]].
        * specialize (Mf j b y I). revert Mf. apply holds_ext. unfold w. cbn [effects fold_left]. apply set_other.
          assert (Ij : In (j, (b, y)) (numbered (combine wallets secrets))) by (rewrite Ew; apply in_or_app; left; exact I).
          intros Eq. apply in_split in I as (p1 & p2 & Ep). rewrite Ep, <- app_assoc in Ew. cbn [app] in Ew. destruct (numbered_split _ _ _ _ _ Ew) as [Ej _].
          assert (B64 : 2 ^ 32 < 2 ^ 64) by reflexivity. rewrite Ep, app_length in Ei, Bn. cbn [length] in Ei, Bn. apply member_i_inj in Eq; [|clear -Ej Bn Hn B64; lia|clear -Ei Bn Hn B64; lia]. clear -Eq Ei Ej. lia.
        * inversion I; subst j b y. exact Q5.
    - split; [exact R0|]. exists tr0. cbn [length map]. split; [exact A0|]. split; [rewrite P0; destruct (Z.eqb_spec (Z.of_nat 0) n); [exfalso; clear -e Bt; lia|reflexivity]|].
      split; [exact D0|]. split; [exact G0|]. split; [exact S0|]. split; [exact I0|]. split; [intros Z0; exfalso; clear -Z0 Bt; lia|intros ? ? ? []].
    - rewrite wl in Ph, Hd'. exists tr, W'. split; [exact X|]. split; [exact R|]. split; [exact Al|]. split; [rewrite Ph, Ln, Z.eqb_refl; reflexivity|]. split; [exact Ad|].
      rewrite Rg. destruct (map_reg (numbered (combine wallets secrets))) as [M1 M2]. rewrite M1, M2, ws, (combine_fst _ _ LW), (combine_snd _ _ LW).
      split; [reflexivity|]. split; [reflexivity|]. split; [exact Sb|]. split; [exact In'|]. split; [apply Hd'; exact Ln|].
      intros i x Nx Hi. assert (Lx : (Z.to_nat (i - 1) < length wallets)%nat) by (rewrite LW; apply nth_error_Some; congruence).
      destruct (nth_error wallets (Z.to_nat (i - 1))) as [a|] eqn:Na; [|apply nth_error_None in Na; clear -Na Lx; lia].
      apply (Mf i a x). apply numbered_in. split; [exact Hi|]. clear -Na Nx. revert secrets Nx. revert Na. generalize (Z.to_nat (i - 1)) as k. induction wallets as [|b l IH]; intros [|k] Na [|y sl] Ns; cbn in *; try discriminate; [congruence|apply IH; assumption].
  Qed.

  (** ** from registration to the parameters *)
  Record enrolled (tr : list step) (W : world) : Prop := {
    en_ready : ready (files W); en_alive : alive tr W; en_added : added tr = wallets; en_who : map who (registrations tr) = wallets;
    en_key : map key (registrations tr) = map enck keys; en_init : initiations tr = [];
    en_members : forall i x, nth_error secrets (Z.to_nat (i - 1)) = Some x -> 1 <= i -> member_file J (files W) (member_i i) (member_random x) }.
  Lemma enrolled_set tr W p b : enrolled tr W -> safe p -> (forall i, member_path (member_i i) <> p) -> enrolled tr (World (set (files W) p (File b)) (chain W) (elog W)).
  Proof.
    intros [A B C D F G H] S N. constructor; cbn [files chain]; try assumption; [apply ready_set; assumption|apply alive_files; assumption|].
    intros i x Nx Hi. apply holds_other; [apply N|exact (H i x Nx Hi)].
  Qed.
  Lemma enrolled_effects w : Forall (fun x => safe (fst x) /\ forall i, member_path (member_i i) <> fst x) w ->
    forall tr W, enrolled tr W -> enrolled tr (World (effects (files W) w) (chain W) (elog W)).
  Proof.
    induction 1 as [|[p b] w [S N] F IH]; intros tr W En; [destruct W; exact En|]. cbn [effects fold_left]. exact (IH tr _ (enrolled_set tr W p b En S N)).
  Qed.
  Lemma enrolled_step tr W a x s' ev : enrolled tr W -> alive (tr ++ [mkStep (chain W) (mkTx a 0 x) (Ok (s', ev))]) (World (files W) s' (elog W ++ ev)) ->
    match x with AddPermissionedNodes _ | RegisterNode _ | InitiateRandom => False | _ => True end ->
    enrolled (tr ++ [mkStep (chain W) (mkTx a 0 x) (Ok (s', ev))]) (World (files W) s' (elog W ++ ev)).
  Proof.
    intros [A B C D F G H] Al N. constructor; [exact A|exact Al|..|exact H].
    - rewrite added_app, added_one. cbn [what]. destruct x; try contradiction; rewrite app_nil_r; exact C.
    - rewrite registrations_app, registrations_one. cbn [what]. destruct x; try contradiction; rewrite app_nil_r; exact D.
    - rewrite registrations_app, registrations_one. cbn [what]. destruct x; try contradiction; rewrite app_nil_r; exact F.
    - rewrite initiations_app, initiations_one. cbn [what]. destruct x; try contradiction; rewrite app_nil_r; exact G.
  Qed.
  Lemma reg_len tr W : enrolled tr W -> Z.of_nat (length (registrations tr)) = n.
  Proof. intros En. rewrite <- (map_length who), (en_who _ _ En), LW. exact (proj2 sizes). Qed.
  Lemma js_run {A} (cd : codec A) p a s : placed p -> good_fs s -> js_write cd p a s = ([(p, Client.enc cd a)], Ok tt).
  Proof. intros Pl G. pose proof (proj1 (placed_save cd p a s Pl G)) as X. unfold save_json in X. unfold js_write. rewrite X. reflexivity. Qed.
  Lemma gk_text (Q : Gk) : to_gk (point_text (enck Q)) = Ok Q.
  Proof.
    unfold to_gk, point_text, enck. cbn [fst snd s_x s_y].
    assert (X : forall x : Fr, read_fr (to_hex_string (val_r x)) = Ok x) by (intros x; unfold read_fr, val_r; rewrite (read_text r_mod _ r0 (fval_range r_mod x r0) r256), of_Z_fval; reflexivity).
    rewrite X. cbn [bind]. rewrite X. cbn [bind]. unfold gk_from_xy. rewrite (from_xy_xy Fr bk bk_neq0 Q). reflexivity.
  Qed.
  Lemma done_run tr W : enrolled tr W -> exists W', register_done J W = (W', Ok tt) /\ enrolled tr W' /\ chain W' = chain W /\ elog W' = elog W /\ mpks_file J (files W') keys.
  Proof.
    intros En. unfold register_done. rewrite (view_ok (fun s => Ok (getPkList s)) _ _ _ eq_refl).
    eexists. split; [apply run_ok; apply js_run; [exact pl_mpks|exact (pr_fs _ _ _ _ _ _ _ _ (en_ready _ _ En))]|].
    split; [apply enrolled_effects; [constructor; [split; [apply safe_placed; exact pl_mpks|intros i; cbn [fst]; apart]|constructor]|exact En]|].
    split; [reflexivity|]. split; [reflexivity|]. cbn [files effects fold_left]. apply holds_saved; [apply (ok_points J HJ)|].
    unfold getPkList. rewrite (j_pk _ _ _ _ (inv1 _ _ _ _ _ (al_hist _ _ (en_alive _ _ En)))), (en_key _ _ En), map_map.
    exact (map_round (fun Q => point_text (enck Q)) to_gk keys gk_text).
  Qed.
  Lemma start_run tr W : enrolled tr W -> contractPhase (chain W) = Registered -> exists tr' W', admin_registered E admin W = (W', Ok tt) /\ enrolled tr' W' /\
    contractPhase (chain W') = Nidkg /\ files W' = files W /\ submissions tr' = submissions tr /\ (forall z, heard registration_completed (elog W) = Some z -> heard registration_completed (elog W') = Some z).
  Proof.
    intros En Ph. pose proof (en_alive _ _ En) as Al. destruct (F_start Pre E c tr (chain W) (al_hist _ _ Al)) as (s' & ev & A & O & P1).
    { rewrite (al_own _ _ Al). exact own. } { exact Ph. } { exact (reg_len _ _ En). }
    rewrite (al_own _ _ Al) in A at 1. destruct (send_ok tr W admin StartNidkg s' ev Al A O) as [Sd Al1].
    eexists _, _. split; [exact Sd|]. split; [apply enrolled_step; [exact En|exact Al1|exact I]|]. split; [exact P1|]. split; [reflexivity|].
    split; [rewrite submissions_app, submissions_one; apply app_nil_r|]. cbn [elog]. intros z Hz. rewrite heard_app.
    destruct (apply_ok _ _ _ _ _ _ A) as [_ R]. inversion R; try discriminate. subst ev. exact Hz.
  Qed.
  Lemma started_ok b tr W : enrolled tr W -> contractPhase (chain W) = Registered -> submissions tr = [] -> heard registration_completed (elog W) <> None ->
    exists tr' W', (if b : bool then sbind (on registration_completed (fun _ => admin_registered E admin)) (fun _ => on registration_completed (fun _ => register_done J))
        else sbind (on registration_completed (fun _ => register_done J)) (fun _ => on registration_completed (fun _ => admin_registered E admin))) W = (W', Ok tt) /\
      enrolled tr' W' /\ contractPhase (chain W') = Nidkg /\ submissions tr' = [] /\ mpks_file J (files W') keys.
  Proof.
    intros En Ph Sb Hr. destruct (heard registration_completed (elog W)) as [z|] eqn:Hz; [clear Hr|congruence]. destruct b.
    - destruct (start_run tr W En Ph) as (tr1 & W1 & X1 & En1 & Ph1 & Fl1 & Sb1 & H1). destruct (done_run tr1 W1 En1) as (W2 & X2 & En2 & Ch2 & El2 & Mp).
      exists tr1, W2. split; [|split; [exact En2|split; [congruence|split; [congruence|exact Mp]]]].
      assert (Y : on registration_completed (fun _ => admin_registered E admin) W = (W1, Ok tt)) by (rewrite (on_ok _ _ _ z Hz); exact X1).
      rewrite (sbind_ok _ _ _ _ _ Y), (on_ok _ _ _ z (H1 z Hz)). exact X2.
    - destruct (done_run tr W En) as (W1 & X1 & En1 & Ch1 & El1 & Mp). destruct (start_run tr W1 En1 ltac:(congruence)) as (tr2 & W2 & X2 & En2 & Ph2 & Fl2 & Sb2 & _).
      exists tr2, W2. split; [|split; [exact En2|split; [exact Ph2|split; [congruence|rewrite Fl2; exact Mp]]]].
      assert (Y : on registration_completed (fun _ => register_done J) W = (W1, Ok tt)) by (rewrite (on_ok _ _ _ z Hz); exact X1).
      rewrite (sbind_ok _ _ _ _ _ Y), (on_ok _ _ _ z); [exact X2|congruence].
  Qed.

  (** ** nidkg.ts *)
  Notation idx := (map Z.of_nat (seq 1 (length secrets))).
  Lemma wallet_index tr s k a : hist tr s -> map who (registrations tr) = wallets -> nth_error wallets k = Some a -> getIndexPlus s a = Ok (Z.of_nat k + 1).
  Proof.
    intros H Wh Na. destruct sizes as [Bt Ln]. assert (L : (k < length secrets)%nat) by (rewrite <- LW; apply nth_error_Some; congruence).
    assert (Zw : znth (map who (registrations tr)) (Z.of_nat k) = Some a).
    { rewrite Wh. unfold znth. destruct (Z.ltb_spec (Z.of_nat k) 0) as [X|X]; [exfalso; clear -X; lia|]. rewrite Nat2Z.id. exact Na. }
    rewrite znth_map in Zw. destruct (znth (registrations tr) (Z.of_nat k)) as [x|] eqn:X; [|discriminate]. cbn [option_map] in Zw. assert (Y : who x = a) by congruence.
    destruct (C27_registered_members Pre E c tr s H) as (_ & _ & _ & _ & G & _). rewrite <- Y. apply (G (Z.of_nat k) x X). clear -L Ln. lia.
  Qed.
  Lemma indices_ok tr W : enrolled tr W -> nidkg_indices wallets W = (W, Ok idx).
  Proof.
    intros En. pose proof (al_hist _ _ (en_alive _ _ En)) as H. pose proof (en_who _ _ En) as Wh. unfold nidkg_indices.
    set (g := fun a => match getIndexPlus (chain W) a with Ok i => i | _ => 0 end).
    assert (X : map g wallets = idx).
    { apply list_eq_nth. intros k. rewrite !nth_error_map. destruct (nth_error wallets k) as [a|] eqn:Na.
      - unfold g. cbn [option_map]. rewrite (wallet_index tr _ k a H Wh Na). assert (L : (k < length secrets)%nat) by (rewrite <- LW; apply nth_error_Some; congruence).
        rewrite (nth_error_nth' _ 0%nat) by (rewrite seq_length; exact L). rewrite seq_nth by exact L. cbn [option_map]. f_equal. clear. lia.
      - apply nth_error_None in Na. rewrite (proj2 (nth_error_None _ _)); [reflexivity|]. rewrite seq_length, <- LW. exact Na. }
    rewrite <- X. apply collect_ok. intros a I. apply In_nth_error in I as [k Na]. unfold view, g. rewrite (wallet_index tr _ k a H Wh Na). reflexivity.
  Qed.
  Notation deals := (combine (combine wallets idx) draws).
  Lemma deals_split pre a i dr post : deals = pre ++ ((a, i), dr) :: post -> i = Z.of_nat (length pre) + 1 /\ nth_error wallets (length pre) = Some a /\ nth_error draws (length pre) = Some dr.
  Proof.
    intros H. assert (G : forall A B (l : list A) (m : list B) k p, nth_error (combine l m) k = Some p -> nth_error l k = Some (fst p) /\ nth_error m k = Some (snd p)).
    { clear. induction l as [|y l IH]; intros [|z b] [|k] p X; cbn in *; try discriminate; [inversion X; subst; auto|apply IH; exact X]. }
    assert (X : nth_error deals (length pre) = Some ((a, i), dr)) by (rewrite H, nth_error_app2, Nat.sub_diag by apply le_n; reflexivity).
    apply G in X as [X X3]. apply G in X as [X1 X2]. cbn [fst snd] in *. split; [|auto].
    rewrite nth_error_map in X2. assert (L : (length pre < length secrets)%nat) by (rewrite <- LW; apply nth_error_Some; congruence).
    rewrite (nth_error_nth' _ 0%nat) in X2 by (rewrite seq_length; exact L). cbn [option_map] in X2. rewrite seq_nth in X2 by exact L. assert (Y : i = Z.of_nat (1 + length pre)) by congruence. rewrite Y. clear. lia.
  Qed.
  Lemma deals_len : length deals = length secrets.
  Proof. rewrite !combine_length, map_length, seq_length, LW, LD, !Nat.min_id. reflexivity. Qed.
  Lemma cbind_ext {A B} (m m' : cmd A) (k k' : A -> cmd B) s : m s = m' s -> (forall a s', k a s' = k' a s') -> cbind m k s = cbind m' k' s.
  Proof. intros X Y. unfold cbind. rewrite X. destruct (m' s) as [w [a| |]]; [rewrite Y; reflexivity|reflexivity|reflexivity]. Qed.
  Lemma pp_event tr s a pp zk s' ev : hist tr s -> apply Pre E s (mkTx a 0 (SubmitPublicParams pp zk)) = Ok (s', ev) -> Z.of_nat (length (submissions tr)) + 1 = n -> ev = [NidkgCompleted n].
  Proof.
    intros H A L. destruct (apply_ok _ _ _ _ _ _ A) as [_ R]. inversion R; try discriminate. subst. rewrite (k_cnt _ _ _ _ _ (inv2 _ _ _ _ _ H)), (i_n _ _ (inv0 _ _ _ _ _ H)), L, Z.eqb_refl. reflexivity.
  Qed.
  Notation pps_of l := (map (pp_of poseidon members) l).
  Lemma keys_len : zlen keys = n /\ length keys = length secrets.
  Proof. unfold zlen. rewrite !map_length. split; [exact (proj2 sizes)|reflexivity]. Qed.
  Lemma dealt dr : In dr draws -> exists mp inst, member_params_new poseidon cfg keys (fst (fst dr)) (snd (fst dr)) = Ok mp /\ instance_of (mp_public_params mp) keys = Ok inst /\
    mp_public_params mp = pp_of poseidon members (fst dr) /\ zlen (fst (fst dr)) = t /\
    Z.of_nat (length inst) = 7 * n + 14 /\ skipn (Z.to_nat (5 * n + 14)) (map val_r inst) = flat (map enck keys).
  Proof.
    intros I. destruct sizes as [Bt Ln]. destruct keys_len as [Lk Lk']. destruct (cfg_facts _ _ _ HH) as (Ht & Htn & Hn').
    assert (Id : In (fst dr) dealers) by (apply in_map; exact I).
    destruct (deal_ok poseidon cfg members dealers Ht Htn (h_members _ _ _ HH) (h_coeffs _ _ _ HH) (fst dr) Id) as (mp & Mp & Pp).
    assert (S1 : length (public_shares (mp_public_params mp)) = length secrets). { rewrite Pp. unfold pp_of. cbn [public_shares]. rewrite map_length, length_zseq, map_length. reflexivity. }
    assert (S2 : length (ciphers (mp_public_params mp)) = length secrets). { rewrite Pp. unfold pp_of. cbn [ciphers]. rewrite map_length, combine_length, length_zseq, !map_length. apply Nat.min_id. }
    destruct (C12_encodes (mp_public_params mp) keys ltac:(congruence)) as [inst In']. exists mp, inst.
    split; [exact Mp|]. split; [exact In'|]. split; [exact Pp|]. split; [pose proof (h_coeffs _ _ _ HH) as F; rewrite Forall_forall in F; exact (F _ Id)|].
    split.
    - destruct (C11_instance_size cfg (mp_public_params mp) keys inst) as [X Y]; [exact Lk|congruence|exact In'|]. unfold zlen in X. rewrite X, Y. reflexivity.
    - rewrite skipn_map. replace (Z.to_nat (5 * n + 14)) with (5 * length secrets + 14)%nat by (clear -Ln; lia).
      rewrite (instance_tail (mp_public_params mp) keys inst (length secrets) In' S1 S2 Lk'). rewrite flat_enck. reflexivity.
  Qed.
  Lemma nidkg_program_run s i coeffs r seed : nidkg_program keccak pairing poseidon J lag vkey pkey vk_write vk_read pk_write pk_read keygen_vk keygen_pk get_vk create_proof verify_proof t n d admin i coeffs r seed s =
    cbind (cmd_prove poseidon J lag vkey pkey vk_write vk_read pk_write pk_read keygen_vk keygen_pk get_vk create_proof verify_proof cfg d i coeffs r seed)
      (fun _ => cbind (cmd_verify J lag vkey vk_write vk_read keygen_vk verify_proof cfg d i) (fun _ => cbind (read_file (proof_path i)) (fun zk =>
        cbind (load_json (j_strings J) (instance_path i)) (fun l => lift (let* pp := mapM hex_num l in Ok (SubmitPublicParams pp zk)))))) s.
  Proof.
    pose proof (client_run keccak pairing c poseidon J lag vkey pkey vk_write vk_read pk_write pk_read keygen_vk keygen_pk get_vk create_proof verify_proof (Opts t n d admin) (opts admin own)) as CR.
    unfold nidkg_program. apply cbind_ext; [exact (CR _ _)|]. intros _ s1.
    apply cbind_ext; [exact (CR _ _)|]. intros _ s2. reflexivity.
  Qed.

  Lemma nidkg_ok tr0 W : enrolled tr0 W -> contractPhase (chain W) = Nidkg -> submissions tr0 = [] -> mpks_file J (files W) keys ->
    exists tr W' insts, each nidkg_one_ deals W = (W', Ok tt) /\ enrolled tr W' /\ contractPhase (chain W') = NidkgComplete /\ getPpList (chain W') = map (map val_r) insts /\
      Forall2 (fun pp inst => instance_of pp keys = Ok inst) (pps_of dealers) insts /\ heard nidkg_completed (elog W') <> None.
  Proof.
    intros En0 P0 S0 M0. destruct sizes as [Bt Ln].
    destruct (each_inv nidkg_one_ (fun pre W' => mpks_file J (files W') keys /\ exists tr insts, enrolled tr W' /\
        contractPhase (chain W') = (if Z.of_nat (length pre) =? n then NidkgComplete else Nidkg) /\ length (submissions tr) = length pre /\ map psender (submissions tr) = map fst (map fst pre) /\
        map pvec (submissions tr) = map (map val_r) insts /\ Forall2 (fun pp inst => instance_of pp keys = Ok inst) (pps_of (map fst (map snd pre))) insts /\
        (Z.of_nat (length pre) = n -> heard nidkg_completed (elog W') <> None)) deals) with (W := W) as (W' & X & Mp & tr & insts & En & Ph & Ls & Ps & Pv & FI & Hd').
    - intros pre [[a i] [[coeffs r] seed]] post W1 Ew (M1 & tr & insts & En & Ph & Ls & Ps & Pv & FI & _). pose proof (en_alive _ _ En) as Al.
      destruct (deals_split _ _ _ _ _ Ew) as (Ei & Na & Nd).
      assert (Lp : (length pre < length secrets)%nat) by (rewrite <- LD; apply nth_error_Some; congruence).
      assert (Aa : 0 < a < M160) by (rewrite Forall_forall in FW; apply FW; eapply nth_error_In; eauto).
      assert (Ph' : contractPhase (chain W1) = Nidkg). { rewrite Ph. destruct (Z.eqb_spec (Z.of_nat (length pre)) n); [exfalso; clear -e Lp Ln; lia|reflexivity]. }
      destruct (dealt _ (nth_error_In _ _ Nd)) as (mp & inst & Hm & Hi & Hp & Hc & Hl & Ht). cbn [fst snd] in *.
      destruct (submission_run vkey pkey vk_read pk_read cfg d P vk pk poseidon J HJ lag vk_write pk_write keygen_vk keygen_pk get_vk create_proof verify_proof (halo2 (c_vk c)) HC Hd HK) with (i := i) (coeffs := coeffs) (r := r) (seed := seed) (s := files W1) (mpks := keys) (mp := mp) (inst := inst)
        as (proof & Bp & H2 & Run & R1).
      { cbn [number_of_members]. clear -Bt. lia. } { exact (en_ready _ _ En). } { exact M1. } { cbn [number_of_members]. clear -Ei Lp Ln. lia. } { exact (proj1 keys_len). } { exact Hc. } { exact Hm. } { exact Hi. }
      set (w := proof_writes J i proof inst) in *.
      assert (Ba : ~ In a (map psender (submissions tr))).
      { rewrite Ps. apply (NoDup_mid wallets _ _ (map fst (map fst post)) NW). rewrite <- (combine_fst wallets idx) at 1 by (rewrite map_length, seq_length; exact LW).
        rewrite <- (combine_fst (combine wallets idx) draws) by (rewrite combine_length, map_length, seq_length, LW, LD; apply Nat.min_id). rewrite Ew, !map_app. reflexivity. }
      destruct (F_submit Pre E c tr (chain W1) a (map val_r inst) proof (al_hist _ _ Al) Ph' Aa) as (s' & ev & A & O & P1).
      { rewrite (en_added _ _ En). eapply nth_error_In; eauto. } { exact Ba. } { apply all_u256. } { exact Bp. } { rewrite map_length. exact Hl. } { rewrite (en_key _ _ En). exact Ht. } { exact H2. }
      assert (En2 : enrolled tr (World (effects (files W1) w) (chain W1) (elog W1))).
      { apply enrolled_effects; [|exact En]. unfold w, proof_writes. constructor; [split; [apply safe_proof|intros j; cbn [fst]; apart]|]. constructor; [split; [apply safe_instance|intros j; cbn [fst]; apart]|constructor]. }
      set (W2 := World (effects (files W1) w) (chain W1) (elog W1)) in *.
      destruct (send_ok tr W2 a (SubmitPublicParams (map val_r inst) proof) s' ev (en_alive _ _ En2) A O) as [Sd Al3].
      eexists. split; [rewrite nidkg_eq, (sbind_ok _ _ _ _ _ (run_ok _ _ _ _ (eq_trans (nidkg_program_run _ _ _ _ _) Run))); exact Sd|].
      split. { cbn [files W2]. revert M1. apply holds_ext. unfold w, proof_writes. cbn [effects fold_left]. rewrite !set_other by apart. reflexivity. }
      exists (tr ++ [mkStep (chain W2) (mkTx a 0 (SubmitPublicParams (map val_r inst) proof)) (Ok (s', ev))]), (insts ++ [inst]).
      split; [apply enrolled_step; [exact En2|exact Al3|exact I]|]. cbn [chain elog W2].
      rewrite submissions_app, submissions_one. cbn [what sender]. rewrite !map_app, !app_length, Ps, Pv, Ls. cbn [map length fst snd psender pvec].
      split; [rewrite P1, Ls, Nat2Z.inj_add; reflexivity|]. split; [reflexivity|]. split; [reflexivity|]. split; [reflexivity|].
      split. { apply Forall2_app; [exact FI|]. constructor; [rewrite <- Hp; exact Hi|constructor]. }
      intros Le. rewrite heard_app, (pp_event tr (chain W1) a _ _ s' ev (al_hist _ _ Al) A); [discriminate|]. rewrite Ls. clear -Le. lia.
    - split; [exact M0|]. exists tr0, []. cbn [length map]. rewrite S0. split; [exact En0|]. split; [rewrite P0; destruct (Z.eqb_spec (Z.of_nat 0) n); [exfalso; clear -e Bt; lia|reflexivity]|].
      split; [reflexivity|]. split; [reflexivity|]. split; [reflexivity|]. split; [constructor|]. intros Z0; exfalso; clear -Z0 Bt; lia.
    - rewrite deals_len in Ph, Hd'. exists tr, W', insts. split; [exact X|]. split; [exact En|]. split; [rewrite Ph, Ln, Z.eqb_refl; reflexivity|].
      split; [unfold getPpList; rewrite (k_pp _ _ _ _ _ (inv2 _ _ _ _ _ (al_hist _ _ (en_alive _ _ En)))); exact Pv|].
      split; [|apply Hd'; exact Ln]. rewrite (combine_snd (combine wallets idx) draws) in FI by (rewrite combine_length, map_length, seq_length, LW, LD; apply Nat.min_id). exact FI.
  Qed.

  (** ** the keys *)
  Definition gpp_ : global_pp := mkGPP (g1mul g1 (group_secret dealers)) (g2mul g2 (group_secret dealers)) (map (fun i => g1mul g1 (total dealers (fr i))) (zseq (length members))).
  Definition key_ (i : Z) : share_key := mkShareKey i (total dealers (fr i)) (g1mul g1 (total dealers (fr i))).
  Lemma gpp_ok_ : dkg_global_public_params (pps_of dealers) = Ok gpp_.
  Proof. exact (global_honest poseidon cfg members dealers (h_dealers _ _ _ HH) (h_coeffs _ _ _ HH)). Qed.
  Lemma vks_len : zlen (verify_keys gpp_) = n.
  Proof. unfold zlen, gpp_. cbn [verify_keys]. rewrite map_length, length_zseq, map_length. exact (proj2 sizes). Qed.
  Lemma vk_at i : 1 <= i <= n -> get (verify_keys gpp_) (i - 1) = Ok (Dkg.vk (key_ i)).
  Proof.
    intros Hi. destruct sizes as [Bt Ln]. apply get_ok; [clear -Hi; lia|]. unfold gpp_. cbn [verify_keys]. rewrite nth_error_map. rewrite map_length.
    pose proof (get_zseq (length secrets) i ltac:(clear -Hi Ln; lia)) as G. apply get_inv in G as [_ G]. rewrite G. reflexivity.
  Qed.
  Lemma member_at i x : 1 <= i -> nth_error secrets (Z.to_nat (i - 1)) = Some x -> get members (i - 1) = Ok (member_random x).
  Proof. intros Hi H. apply get_ok; [clear -Hi; lia|]. rewrite nth_error_map, H. reflexivity. Qed.
  Lemma share_of i x : 1 <= i <= n -> nth_error secrets (Z.to_nat (i - 1)) = Some x ->
    dkg_share_key poseidon (member_random x) cfg i (pps_of dealers) = Ok (key_ i) /\ share_key_verify (key_ i) cfg (verify_keys gpp_) = Ok tt.
  Proof.
    intros Hi Nx. split; [apply (share_key_ok poseidon cfg members dealers (h_members _ _ _ HH) (h_keys _ _ _ HH)); apply member_at; [clear -Hi; lia|exact Nx]|].
    unfold share_key_verify. cbn [index key_]. cbn [number_of_members]. rewrite (proj2 (Z.ltb_ge i 1)), (proj2 (Z.ltb_ge n i)) by (clear -Hi; lia). cbn [orb]. rewrite (vk_at i Hi). cbn [bind]. rewrite (proj2 (geqb_eq _ _ _)) by reflexivity. reflexivity.
  Qed.
  Lemma widths : Forall (fun pp => length (public_shares pp) = length keys /\ length (ciphers pp) = length keys) (pps_of dealers).
  Proof.
    apply Forall_forall. intros pp I. apply in_map_iff in I as (x & <- & _). unfold pp_of. cbn [public_shares ciphers]. rewrite !map_length, ?combine_length, ?length_zseq, ?map_length, ?Nat.min_id. split; reflexivity.
  Qed.
  Lemma decode_all insts : Forall2 (fun pp inst => instance_of pp keys = Ok inst) (pps_of dealers) insts -> mapM (fun x => let* (pp, _) := from_instance cfg x in Ok pp) insts = Ok (pps_of dealers).
  Proof.
    pose proof widths as W. pose proof (proj1 keys_len) as L. revert W. generalize (pps_of dealers). intros l W F. induction F as [|pp inst l l' H F IH]; [reflexivity|]. inversion W as [|? ? [W1 W2] W']; subst. cbn [mapM].
    rewrite (C12_round_trip cfg pp keys inst L W1 W2 H). cbn [bind]. rewrite (IH W'). reflexivity.
  Qed.

  (** *** nidkg.ts: every member derives *)
  Definition shared (fs : fs) : Prop := forall i, 1 <= i <= n -> share_file J fs i (key_ i).
  Lemma numbered_idx i j : In (i, j) (numbered idx) -> j = i /\ 1 <= i <= n.
  Proof.
    intros I. apply numbered_in in I as [Hi E]. rewrite nth_error_map in E. destruct (nth_error (seq 1 (length secrets)) (Z.to_nat (i - 1))) as [k|] eqn:X; [|discriminate]. cbn [option_map] in E.
    assert (L : (Z.to_nat (i - 1) < length secrets)%nat) by (rewrite <- (seq_length (length secrets) 1); apply nth_error_Some; congruence).
    rewrite (nth_error_nth' _ 0%nat) in X by (rewrite seq_length; exact L). rewrite seq_nth in X by exact L. destruct sizes as [Bt Ln].
    assert (Y : j = Z.of_nat (1 + Z.to_nat (i - 1))) by congruence. clear -Y L Ln Hi. lia.
  Qed.
  Lemma derived_ok tr W insts : enrolled tr W -> getPpList (chain W) = map (map val_r) insts -> Forall2 (fun pp inst => instance_of pp keys = Ok inst) (pps_of dealers) insts ->
    exists W', nidkg_done_ idx W = (W', Ok tt) /\ enrolled tr W' /\ chain W' = chain W /\ elog W' = elog W /\ shared (files W') /\ gpk_file J (files W') (g_g2a gpp_) /\ vks_file J (files W') (verify_keys gpp_).
  Proof.
    intros En0 L FI. destruct sizes as [Bt Ln]. unfold nidkg_done. rewrite (view_ok (fun s => Ok (getPpList s)) _ _ _ eq_refl).
    pose proof (js_run (j_instances J) all_instances_path (map (map to_hex_string) (getPpList (chain W))) (files W) pl_inst (pr_fs _ _ _ _ _ _ _ _ (en_ready _ _ En0))) as Wr.
    rewrite (sbind_ok _ _ _ _ _ (run_ok _ _ _ _ Wr)). set (w0 := [(all_instances_path, _)]) in *. set (W1 := World (effects (files W) w0) (chain W) (elog W)).
    assert (En1 : enrolled tr W1). { apply enrolled_effects; [constructor; [split; [apply safe_placed, pl_inst|intros j; cbn [fst]; apart]|constructor]|exact En0]. }
    assert (I1 : instances_file J (files W1) insts). { cbn [files W1]. unfold w0. cbn [effects fold_left]. apply holds_saved; [apply (ok_instances J HJ)|]. rewrite L. apply read_insts. }
    destruct (each_inv (fun '(i, index) => run (cl (Derive (Some index) (Some (member_i i))))) (fun pre W' => enrolled tr W' /\ chain W' = chain W /\ elog W' = elog W /\ instances_file J (files W') insts /\
        (pre <> [] -> gpk_file J (files W') (g_g2a gpp_) /\ vks_file J (files W') (verify_keys gpp_)) /\ forall i j, In (i, j) pre -> share_file J (files W') i (key_ i)) (numbered idx)) with (W := W1) as (W' & X & En & Ch & El & _ & Gv & Sh).
    - intros pre [i j] post W2 Ew (En & Ch & El & If & _ & Sh).
      destruct (numbered_idx i j) as [-> Hi]; [rewrite Ew; apply in_or_app; right; left; reflexivity|].
      assert (exists x, nth_error secrets (Z.to_nat (i - 1)) = Some x) as [x Nx].
      { destruct (nth_error secrets (Z.to_nat (i - 1))) as [x|] eqn:Nx; [exists x; reflexivity|]. apply nth_error_None in Nx. exfalso. clear -Nx Hi Ln. lia. }
      destruct (share_of i x Hi Nx) as [Sk Sv]. pose proof (pr_fs _ _ _ _ _ _ _ _ (en_ready _ _ En)) as G0. pose proof (pl_share i ltac:(clear -Hi; lia)) as PS.
      assert (E1 : cl (Derive (Some i) (Some (member_i i))) (files W2) = ([gpk_write J gpp_; vks_write J gpp_; share_write J (key_ i)], Ok tt)).
      { etransitivity; [exact (client_run keccak pairing c poseidon J lag vkey pkey vk_write vk_read pk_write pk_read keygen_vk keygen_pk get_vk create_proof verify_proof (Opts t n d admin) (opts admin own) _ _)|].
        cbn [run_command o_threshold o_members o_degree]. apply (derive_runs poseidon J cfg i (member_i i) (files W2) insts (pps_of dealers) gpp_ (member_random x) (key_ i) If (decode_all _ FI) gpp_ok_ Hi); [apply (en_members _ _ En); [exact Nx|clear -Hi; lia]|exact Sk|exact Sv| | | | | |].
        - apply (g_dirs _ G0). apply (in_dirs_nth 2). lia.
        - apply (g_dirs _ G0). apply (in_dirs_nth 4). lia.
        - rewrite gpk_jp. apply (g_json _ G0).
        - rewrite vks_jp. apply (g_json _ G0).
        - cbn [index key_]. rewrite share_path_jp. apply (g_json _ G0).
        - cbn [index key_]. rewrite share_path_jp. unfold jp. apply parent_of. apply in_app47; [apply not47; [no47|clear -Hi; lia]|no47]. }
      eexists. split; [apply run_ok; exact E1|]. cbn [files chain elog].
      split; [apply enrolled_effects; [|exact En]; constructor; [split; [apply safe_placed, pl_gpk|intros k; apart]|]; constructor; [split; [apply safe_placed, pl_vks|intros k; apart]|]; constructor; [split; [apply safe_placed, PS|intros k; apart]|constructor]|].
      split; [exact Ch|]. split; [exact El|]. unfold gpk_write, vks_write, share_write. cbn [effects fold_left index key_].
      split; [revert If; apply holds_ext; rewrite !set_other by apart; reflexivity|]. split.
      + intros _. split.
        * unfold gpk_file. apply holds_other; [apart|]. apply holds_other; [apart|]. apply holds_saved; [apply (ok_point2 J HJ)|apply g2_round].
        * unfold vks_file. apply holds_other; [apart|]. apply holds_saved; [apply (ok_points J HJ)|exact (map_round of_g1 to_g1 _ g1_round)].
      + intros k l I. apply in_app_or in I as [I|[I|[]]].
        * destruct (Z.eq_dec k i) as [->|Nk].
          -- unfold share_file. apply holds_saved; [apply (ok_share J HJ)|apply share_round; reflexivity].
          -- unfold share_file. apply holds_other; [|apply holds_other; [apart|apply holds_other; [apart|exact (Sh k l I)]]].
             destruct (numbered_idx k l) as [_ Hk]; [rewrite Ew; apply in_or_app; left; exact I|]. intros Eq. assert (B64 : 2 ^ 32 < 2 ^ 64) by reflexivity. apply share_inj in Eq; [exact (Nk Eq)|clear -Hk Hn B64; lia|clear -Hi Hn B64; lia].
        * assert (i = k) by congruence. subst k. unfold share_file. apply holds_saved; [apply (ok_share J HJ)|apply share_round; reflexivity].
    - split; [exact En1|]. split; [reflexivity|]. split; [reflexivity|]. split; [exact I1|]. split; [congruence|intros ? ? []].
    - exists W'. split; [exact X|]. split; [exact En|]. split; [exact Ch|]. split; [exact El|].
      destruct Gv as [Gf Vf]. { intros Z0. apply (f_equal (@length _)) in Z0. rewrite numbered_length, map_length, seq_length in Z0. change (@length (Z * Z) []) with 0%nat in Z0. clear -Z0 Bt Ln. lia. }
      split; [|split; [exact Gf|exact Vf]]. intros i Hi. apply (Sh i i). apply numbered_in. split; [clear -Hi; lia|]. rewrite nth_error_map.
      assert (Li : (Z.to_nat (i - 1) < length secrets)%nat) by (clear -Hi Ln; lia). rewrite (nth_error_nth' _ 0%nat) by (rewrite seq_length; exact Li). rewrite seq_nth by exact Li. cbn [option_map]. f_equal. clear -Hi. lia.
  Qed.

  (** *** admin.ts: the contract computes the keys, and they agree with the local ones *)
  Definition after_keys (x : call) : script bool :=
    let k := match x with ComputeVk k => k | _ => g2zero end in
    sbind (send E admin (ComputeVk k)) (fun _ => sbind (view (fun s => Ok (getGpk s))) (fun k' => sbind (view (fun s => Ok (getVkList s))) (fun vl =>
      sbind (run (load_json (j_points J) vks_path)) (fun vks => sbind (run (lift (same_points vks vl))) (fun b =>
        ret ((gx0 k =? gx0 k') && (gx1 k =? gx1 k') && (gy0 k =? gy0 k') && (gy1 k =? gy1 k') && Nat.eqb (length vl) (length vks) && b)))))).
  Notation admin_create_gpp_ := (admin_create_gpp keccak pairing poseidon J lag vkey pkey vk_write vk_read pk_write pk_read keygen_vk keygen_pk get_vk create_proof verify_proof (Opts t n d admin)).
  Lemma admin_nidkg_eq W : admin_nidkg_ W = sbind (run (admin_create_gpp_ (fun _ => chain W))) after_keys W.
  Proof.
    unfold admin_nidkg, admin_create_gpp. rewrite (view_ok (fun s => Ok (getPpList s)) _ _ _ eq_refl).
    rewrite run_bind. apply sbind_ext. intros _ W1. rewrite run_bind. apply sbind_ext. intros _ W2. rewrite run_bind. apply sbind_ext. intros g W3.
    unfold sbind, run, lift. cbn [effects fold_left]. destruct (hex_num (s_x0 g)) as [x0| |]; [|reflexivity..]. cbn [bind]. destruct (hex_num (s_x1 g)) as [x1| |]; [|reflexivity..]. cbn [bind].
    destruct (hex_num (s_y0 g)) as [y0| |]; [|reflexivity..]. cbn [bind]. destruct (hex_num (s_y1 g)) as [y1| |]; [|reflexivity..]. cbn [bind]. reflexivity.
  Qed.
  Lemma same_points_ok (l : list G1) : same_points (map of_g1 l) (map PairingSol.enc l) = Ok true.
  Proof. induction l as [|Q l IH]; [reflexivity|]. cbn [map same_points]. rewrite point_arg_g1. cbn [bind]. rewrite IH. cbn [bind]. rewrite !Z.eqb_refl. reflexivity. Qed.
  Lemma keys_ok tr W insts : enrolled tr W -> contractPhase (chain W) = NidkgComplete -> getPpList (chain W) = map (map val_r) insts ->
    Forall2 (fun pp inst => instance_of pp keys = Ok inst) (pps_of dealers) insts ->
    exists tr' W', admin_nidkg_ W = (W', Ok true) /\ enrolled tr' W' /\ contractPhase (chain W') = Ready /\ getPpList (chain W') = getPpList (chain W) /\
      getVkList (chain W') = map PairingSol.enc (verify_keys gpp_) /\ getGpk (chain W') = enc2 (g_g2a gpp_) /\ gpk_file J (files W') (g_g2a gpp_) /\ vks_file J (files W') (verify_keys gpp_) /\
      (shared (files W) -> shared (files W')) /\ (forall z, heard nidkg_completed (elog W) = Some z -> heard nidkg_completed (elog W') = Some z) /\ heard gpp_created (elog W') = Some tt.
  Proof.
    intros En Ph L FI. destruct sizes as [Bt Ln]. pose proof (en_alive _ _ En) as Al.
    destruct (keys_completed Pre keccak in_g2 pairing halo2 HG HP c poseidon J HJ lag vkey pkey vk_write vk_read pk_write pk_read keygen_vk keygen_pk get_vk create_proof verify_proof (Opts t n d admin) (opts admin own)
      tr (chain W) (files W) (pps_of dealers) (map (fun _ => keys) (pps_of dealers)) insts gpp_ (al_hist _ _ Al) Ph L (pr_fs _ _ _ _ _ _ _ _ (en_ready _ _ En))) as (s' & ev & Q).
    { pose proof widths as Wd. pose proof (proj1 keys_len) as Lk. revert Wd. generalize (pps_of dealers). clear -Lk. induction 1 as [|pp l [A B] F IH]; cbn [map]; constructor; [split; [exact Lk|split; [exact A|exact B]]|exact IH]. }
    { revert FI. generalize (pps_of dealers). clear. induction 1 as [|pp inst l l' A F IH]; cbn [map combine]; constructor; [exact A|exact IH]. }
    { exact gpp_ok_. } { exists (group_secret dealers). split; reflexivity. }
    cbv zeta in Q. destruct Q as (Q1 & Q2 & Q3 & Q4 & Q5 & Q6 & Q7 & Q8 & Q9). cbn [o_me] in Q2.
    set (w := [(all_instances_path, Client.enc (j_instances J) (map (map to_hex_string) (getPpList (chain W)))); gpk_write J gpp_; vks_write J gpp_]) in *.
    assert (En1 : enrolled tr (World (effects (files W) w) (chain W) (elog W))).
    { apply enrolled_effects; [|exact En]. constructor; [split; [apply safe_placed, pl_inst|intros k; apart]|]. constructor; [split; [apply safe_placed, pl_gpk|intros k; apart]|]. constructor; [split; [apply safe_placed, pl_vks|intros k; apart]|constructor]. }
    set (W1 := World (effects (files W) w) (chain W) (elog W)) in *.
    destruct (send_ok tr W1 admin (ComputeVk (enc2 (g_g2a gpp_))) s' ev (en_alive _ _ En1) Q2 Q9) as [Sd Al2].
    set (W2 := World (files W1) s' (elog W1 ++ ev)) in *.
    eexists _, W2. split.
    { rewrite admin_nidkg_eq, (sbind_ok _ _ _ _ _ (run_ok _ _ _ _ Q1)). fold W1. unfold after_keys. rewrite (sbind_ok _ _ _ _ _ Sd).
      rewrite (view_ok (fun s => Ok (getGpk s)) _ _ _ eq_refl), (view_ok (fun s => Ok (getVkList s)) _ _ _ eq_refl). change (chain W2) with s'. rewrite Q4, Q5.
      assert (Lv : load_json (j_points J) vks_path (files W2) = ([], Ok (map of_g1 (verify_keys gpp_)))).
      { apply (ProveProofs.lj_run _ _ _ (Client.enc (j_points J) (map of_g1 (verify_keys gpp_)))); [|apply (ok_points J HJ)]. cbn [files W2 W1]. unfold w, gpk_write, vks_write. cbn [effects fold_left]. apply set_same. }
      rewrite (sbind_ok _ _ _ _ _ (run_ok _ _ _ _ Lv)). cbn [effects fold_left]. rewrite same_points_ok.
      rewrite run_ret. rewrite !Z.eqb_refl, !map_length, Nat.eqb_refl. reflexivity. }
    split; [apply (enrolled_step tr W1 admin (ComputeVk (enc2 (g_g2a gpp_))) s' ev En1 Al2 I)|]. split; [exact Q3|].
    destruct (apply_ok _ _ _ _ _ _ Q2) as [_ R]. inversion R; try discriminate.
    split; [cbn [chain W2]; unfold getPpList; match goal with H : s' = _ |- _ => rewrite H end; reflexivity|].
    split; [exact Q4|]. split; [exact Q5|]. split; [exact Q7|]. split; [exact Q8|]. split.
    - intros S i Hi. specialize (S i Hi). revert S. apply holds_ext. cbn [files W2 W1]. unfold w, gpk_write, vks_write. cbn [effects fold_left]. rewrite !set_other by apart. reflexivity.
    - cbn [elog W2 W1]. match goal with H : ev = _ |- _ => rewrite H end. split; [intros z Hz; rewrite heard_app; exact Hz|rewrite heard_app; reflexivity].
  Qed.

  (** *** the demo is set up *)
  Record keyed (tr : list step) (W : world) : Prop := {
    ky_en : enrolled tr W; ky_ready : contractPhase (chain W) = Ready; ky_vk : getVkList (chain W) = map PairingSol.enc (verify_keys gpp_); ky_gpk : getGpk (chain W) = enc2 (g_g2a gpp_);
    ky_gf : gpk_file J (files W) (g_g2a gpp_); ky_vf : vks_file J (files W) (verify_keys gpp_); ky_sh : shared (files W); ky_ev : heard gpp_created (elog W) = Some tt }.
  Notation demo_setup_ := (demo_setup keccak pairing poseidon J lag vkey pkey vk_write vk_read pk_write pk_read keygen_vk keygen_pk get_vk create_proof verify_proof E t n d admin).
  Theorem setup_ok start_first keys_first W s0 : construct c = Ok s0 -> W = World (files W) s0 [] -> ready (files W) ->
    exists tr W', demo_setup_ start_first keys_first wallets secrets draws W = (W', Ok true) /\ keyed tr W'.
  Proof.
    intros C0 EW R0. unfold demo_setup.
    destruct (add_ok W s0 C0 EW) as (tr1 & W1 & X1 & F1 & A1 & P1 & D1 & G1' & S1 & I1). rewrite (sbind_ok _ _ _ _ _ X1).
    rewrite <- F1 in R0. destruct (register_ok tr1 W1 R0 A1 P1 D1 G1' S1 I1) as (tr2 & W2 & X2 & R2 & A2 & P2 & D2 & Wh2 & Ky2 & S2 & I2 & H2 & M2). rewrite (sbind_ok _ _ _ _ _ X2).
    assert (En2 : enrolled tr2 W2) by (constructor; assumption).
    destruct (started_ok start_first tr2 W2 En2 P2 S2 H2) as (tr3 & W3 & X3 & En3 & P3 & S3 & M3). rewrite (sbind_ok _ _ _ _ _ X3).
    rewrite (sbind_ok _ _ _ _ _ (indices_ok tr3 W3 En3)).
    destruct (nidkg_ok tr3 W3 En3 P3 S3 M3) as (tr4 & W4 & insts & X4 & En4 & P4 & L4 & FI & H4). rewrite (sbind_ok _ _ _ _ _ X4).
    destruct (heard nidkg_completed (elog W4)) as [z|] eqn:Hz; [clear H4|congruence]. destruct keys_first.
    - destruct (keys_ok tr4 W4 insts En4 P4 L4 FI) as (tr5 & W5 & X5 & En5 & P5 & L5 & V5 & K5 & _ & _ & _ & H5 & Ev5).
      destruct (derived_ok tr5 W5 insts En5 ltac:(congruence) FI) as (W6 & X6 & En6 & Ch6 & El6 & Sh6 & Gf6 & Vf6).
      exists tr5, W6. assert (Y : on nidkg_completed (fun _ => admin_nidkg_) W4 = (W5, Ok true)) by (rewrite (on_ok _ _ _ z Hz); exact X5).
      assert (Y' : on nidkg_completed (fun _ => nidkg_done_ idx) W5 = (W6, Ok tt)) by (rewrite (on_ok _ _ _ z (H5 z Hz)); exact X6).
      split; [rewrite (sbind_ok _ _ _ _ _ Y), (sbind_ok _ _ _ _ _ Y'); reflexivity|]. constructor; rewrite ?Ch6, ?El6; assumption.
    - destruct (derived_ok tr4 W4 insts En4 L4 FI) as (W5 & X5 & En5 & Ch5 & El5 & Sh5 & _ & _).
      destruct (keys_ok tr4 W5 insts En5 ltac:(congruence) ltac:(congruence) FI) as (tr6 & W6 & X6 & En6 & P6 & L6 & V6 & K6 & Gf6 & Vf6 & Sh6 & H6 & Ev6).
      exists tr6, W6. assert (Y : on nidkg_completed (fun _ => nidkg_done_ idx) W4 = (W5, Ok tt)) by (rewrite (on_ok _ _ _ z Hz); exact X5).
      split; [rewrite (sbind_ok _ _ _ _ _ Y), (on_ok _ _ _ z); [exact X6|congruence]|]. constructor; auto.
  Qed.

  (** ** the rounds *)
  Notation random_one_ := (random_one keccak pairing poseidon J lag vkey pkey vk_write vk_read pk_write pk_read keygen_vk keygen_pk get_vk create_proof verify_proof E t n d admin).
  Notation admin_random_ := (admin_random keccak pairing poseidon J lag vkey pkey vk_write vk_read pk_write pk_read keygen_vk keygen_pk get_vk create_proof verify_proof E t n d admin).
  Notation demo_round_ := (demo_round keccak pairing poseidon J lag vkey pkey vk_write vk_read pk_write pk_read keygen_vk keygen_pk get_vk create_proof verify_proof E t n d admin).
  Notation demo_rounds_ := (demo_rounds keccak pairing poseidon J lag vkey pkey vk_write vk_read pk_write pk_read keygen_vk keygen_pk get_vk create_proof verify_proof E t n d admin).
  Record up (tr : list step) (W : world) : Prop := {
    up_ready : ready (files W); up_alive : alive tr W; up_who : map who (registrations tr) = wallets; up_phase : contractPhase (chain W) = Ready;
    up_vk : getVkList (chain W) = map PairingSol.enc (verify_keys gpp_); up_gpk : getGpk (chain W) = enc2 (g_g2a gpp_);
    up_gf : gpk_file J (files W) (g_g2a gpp_); up_vf : vks_file J (files W) (verify_keys gpp_); up_sh : shared (files W); up_ev : heard gpp_created (elog W) = Some tt }.
  Lemma up_set tr W p b : up tr W -> safe p -> gpk_path <> p -> vks_path <> p -> (forall i, share_path i <> p) -> up tr (World (set (files W) p (File b)) (chain W) (elog W)).
  Proof.
    intros [A1 A2 A3 A4 A5 A6 A7 A8 A9 A10] S N1 N2 N3. constructor; cbn [files chain elog]; try assumption; [apply ready_set; assumption|apply alive_files; assumption|apply holds_other; assumption..|].
    intros i Hi. apply holds_other; [apply N3|exact (A9 i Hi)].
  Qed.
  Lemma heard_more {A} (f : event -> option A) x a b : heard f b = None -> heard f a = Some x -> heard f (a ++ b) = Some x.
  Proof. intros B H. rewrite heard_app, B. exact H. Qed.
  Lemma up_step tr W a x s' ev : up tr W -> apply Pre E (chain W) (mkTx a 0 x) = Ok (s', ev) -> same_setup (chain W) s' ->
    match x with InitiateRandom | SubmitPartialEval _ | SubmitRandom _ => True | _ => False end ->
    send E a x W = (World (files W) s' (elog W ++ ev), Ok tt) /\ up (tr ++ [mkStep (chain W) (mkTx a 0 x) (Ok (s', ev))]) (World (files W) s' (elog W ++ ev)).
  Proof.
    intros [A1 A2 A3 A4 A5 A6 A7 A8 A9 A10] A (S1 & S2 & S3 & S4 & _) N. destruct (send_ok tr W a x s' ev A2 A S1) as [Sd Al]. split; [exact Sd|].
    constructor; cbn [files chain elog]; try assumption; try congruence.
    - rewrite registrations_app, registrations_one. cbn [what]. destruct x; try contradiction; rewrite app_nil_r; exact A3.
    - apply heard_more; [|exact A10]. destruct (apply_ok _ _ _ _ _ _ A) as [_ R].
      inversion R; cbn [what] in *; match goal with H : ev = _ |- _ => rewrite H end; try reflexivity; try (subst x; contradiction);
        match goal with H : _ = (if ?b then _ else _) |- _ => rewrite H; destruct b; reflexivity end.
  Qed.
  (** *** the next round opens *)
  Lemma open_ok tr W k : up tr W -> currentRoundNum (chain W) = k -> 0 <= k -> k + 1 < 2 ^ 256 -> (k = 0 \/ ~ no_random (chain W) k) ->
    exists tr' W', admin_initiate E admin W = (W', Ok tt) /\ up tr' W' /\ currentRoundNum (chain W') = k + 1 /\ no_random (chain W') (k + 1) /\ evals tr' (k + 1) = [] /\
      roundToRandom (chain W') = roundToRandom (chain W) /\ exists e, elog W' = elog W ++ [e] /\ threshold_reached e = None /\ random_ready e = None.
  Proof.
    intros U R K0 K1 D. pose proof (up_alive _ _ U) as Al. pose proof (al_hist _ _ Al) as Hh. pose proof (inv3 _ _ _ _ _ Hh) as J3.
    destruct (C53_round_opens Pre keccak in_g2 pairing halo2 K c tr (chain W) Hh (up_phase _ _ U)) as (s1 & ev & A & C1 & SS & Rr).
    { rewrite (al_own _ _ Al). exact own. } { rewrite R. exact K1. } { rewrite R. exact D. }
    rewrite (al_own _ _ Al) in A. destruct (up_step tr W admin _ s1 ev U A SS I) as [Sd U1]. rewrite R in C1.
    eexists _, _. split; [exact Sd|]. split; [exact U1|]. cbn [chain elog]. split; [exact C1|].
    split; [|split; [|split; [exact Rr|]]].
    - apply no_random_iff. rewrite Rr, (r_last _ _ _ _ _ J3 (k + 1)). destruct (randoms tr (k + 1)) as [|p l] eqn:X; [reflexivity|].
      pose proof (r_range _ _ _ _ _ J3 (k + 1)) as Y. rewrite X in Y. specialize (Y ltac:(discriminate)). exfalso. clear -Y R. lia.
    - rewrite evals_app, evals_one. cbn [what]. assert (E0 : evals tr (k + 1) = []).
      { destruct (evals tr (k + 1)) as [|[a e] l] eqn:X; [reflexivity|]. pose proof (m_range _ _ _ _ _ J3 (k + 1) a) as Y. rewrite X in Y. specialize (Y (or_introl eq_refl)). pose proof (m_last _ _ _ _ _ J3 a) as Z0. exfalso. clear -Y Z0 R. lia. }
      rewrite E0. destruct (currentRoundNum (chain W) =? k + 1); reflexivity.
    - destruct (apply_ok _ _ _ _ _ _ A) as [_ R']. inversion R'; cbn [what] in *; try discriminate. eexists. split; [match goal with H : ev = _ |- _ => rewrite H end; reflexivity|split; reflexivity].
  Qed.

  (** *** random.ts *)
  Lemma wallet_share i a : znth wallets i = Some a -> 0 <= i < n.
  Proof.
    unfold znth. destruct (Z.ltb_spec i 0) as [|Hi]; [discriminate|]. intros X. assert (L : (Z.to_nat i < length wallets)%nat) by (apply nth_error_Some; congruence).
    rewrite LW in L. destruct sizes as [_ Ln]. clear -L Hi Ln. lia.
  Qed.
  Lemma vks_at i : 0 <= i < n -> znth (verify_keys gpp_) i = Some (Dkg.vk (key_ (i + 1))).
  Proof.
    intros Hi. pose proof (vk_at (i + 1) ltac:(clear -Hi; lia)) as G. replace (i + 1 - 1) with i in G by (clear; lia). apply get_inv in G as [_ G]. unfold znth. rewrite (proj2 (Z.ltb_ge i 0)) by (clear -Hi; lia). exact G.
  Qed.
  Lemma up_eval tr W i b : 0 <= i -> up tr W -> up tr (World (effects (files W) [(eval_path (i + 1), b)]) (chain W) (elog W)).
  Proof.
    intros Hi U. cbn [effects fold_left]. apply up_set; [exact U|apply safe_placed, pl_eval; clear -Hi; lia|apply eval_neq; vm_compute; discriminate|apply eval_neq; vm_compute; discriminate|intros j; apply eval_neq; rewrite share_7; discriminate].
  Qed.
  Lemma round_in tr W : up tr W -> 1 <= currentRoundNum (chain W) -> roundInput (chain W) (currentRoundNum (chain W)) = round_input (currentRoundNum (chain W)).
  Proof. intros U Hk. destruct (C31_rounds Pre E c tr (chain W) (al_hist _ _ (up_alive _ _ U))) as (_ & _ & _ & _ & H & _). apply H. clear -Hk. lia. Qed.
  Definition right_eval (h : G1) (e : peval) : Prop := 0 <= proof_z e < r_mod /\ evalue e = PairingSol.enc (g1mul h (total dealers (fr (indexPlus e)))).
  Lemma eval_value i k r e h : hash_to_curve_bn keccak EVAL_PREFIX (round_input k) = Ok h -> evaluate keccak (key_ i) (round_input k) r = Ok e ->
    right_eval h (mkPeval (pe_index e) (PairingSol.enc (pe_value e)) (val_r (pe_z e)) (val_r (pe_c e))).
  Proof.
    intros Hh Ev. destruct (evaluate_ok keccak (key_ i) (round_input k) r) as (h' & Hh' & Ev'). rewrite Ev in Ev'.
    assert (h' = h) by congruence. subst h'. split.
    - cbn [proof_z]. exact (fval_range r_mod (pe_z e) eq_refl).
    - assert (X : pe_index e = i /\ pe_value e = g1mul h (total dealers (fr i))) by (inversion Ev'; split; reflexivity). destruct X as [X1 X2]. cbn [evalue indexPlus]. rewrite X1, X2. reflexivity.
  Qed.
  Lemma eval_ok_ tr W k i a r h : up tr W -> currentRoundNum (chain W) = k -> 1 <= k -> no_random (chain W) k -> znth wallets i = Some a -> ~ In a (map fst (evals tr k)) ->
    hash_to_curve_bn keccak EVAL_PREFIX (round_input k) = Ok h ->
    exists tr' W' e, random_one_ (round_input k) (a, r) W = (W', Ok tt) /\ up tr' W' /\ currentRoundNum (chain W') = k /\ no_random (chain W') k /\
      evals tr' k = evals tr k ++ [(a, e)] /\ right_eval h e /\ roundToRandom (chain W') = roundToRandom (chain W) /\
      elog W' = elog W ++ (if Z.of_nat (length (evals tr k)) + 1 =? t then [RandomThresholdReached k (round_input k)] else []).
  Proof.
    intros U R Hk NR Za NI Hh. pose proof (wallet_share i a Za) as Hi. pose proof (al_hist _ _ (up_alive _ _ U)) as Hs.
    assert (Aa : 0 < a < M160). { rewrite Forall_forall in FW. apply FW. unfold znth in Za. destruct (i <? 0); [discriminate|]. eapply nth_error_In; exact Za. }
    destruct (evaluation_accepted Pre keccak in_g2 pairing halo2 K c poseidon J HJ lag vkey pkey vk_write vk_read pk_write pk_read keygen_vk keygen_pk get_vk create_proof verify_proof (Opts t n d a) (opts a Aa)
      tr (chain W) i (files W) r (key_ (i + 1)) (verify_keys gpp_) Hs) as (e & s' & ev & X); cbn [o_me]; rewrite ?R; try assumption.
    { rewrite (up_who _ _ U). exact Za. } { exact (pr_fs _ _ _ _ _ _ _ _ (up_ready _ _ U)). } { apply (up_sh _ _ U). clear -Hi. lia. } { exact (up_vf _ _ U). } { exact (up_vk _ _ U). } { reflexivity. } { reflexivity. } { exact (vks_at i Hi). }
    cbv zeta in X. cbn [o_me] in X. rewrite R in X. destruct X as (Ev & Q1 & Q2 & Q3 & SS & Rn & Rr).
    set (w := [(eval_path (i + 1), Client.enc (j_eval J) (of_eval e))]) in *. set (W1 := World (effects (files W) w) (chain W) (elog W)).
    pose proof (up_eval tr W i (Client.enc (j_eval J) (of_eval e)) (proj1 Hi) U) as U1. fold w in U1. fold W1 in U1.
    destruct (up_step tr W1 a _ s' ev U1 Q2 SS I) as [Sd U2].
    pose proof (round_in tr W U ltac:(rewrite R; exact Hk)) as Ri. rewrite R in Ri.
    eexists _, _, _. split; [rewrite random_eq by (rewrite R; exact Ri); rewrite (sbind_ok _ _ _ _ _ (run_ok _ _ _ _ Q1)); exact Sd|]. split; [exact U2|]. cbn [chain elog W1].
    split; [congruence|]. split; [apply no_random_iff; rewrite Rr; apply no_random_iff; exact NR|].
    split; [rewrite evals_app, evals_one; cbn [what sender]; rewrite R, Z.eqb_refl; reflexivity|]. split; [exact (eval_value (i + 1) k r e h Hh Ev)|]. split; [exact Rr|]. f_equal.
    destruct (apply_ok _ _ _ _ _ _ Q2) as [_ St]. inversion St; cbn [what] in *; try discriminate. match goal with H : ev = _ |- _ => rewrite H end.
    match goal with H : _ = (if _ then _ else _) |- _ => rewrite H end. rewrite R, Ri, (i_t _ _ (inv0 _ _ _ _ _ Hs)).
    rewrite (proj1 (C32_submissions Pre E c tr (chain W) k Hs)). reflexivity.
  Qed.
  Lemma late_ok tr W k i a r : up tr W -> currentRoundNum (chain W) = k -> 1 <= k -> ~ no_random (chain W) k -> znth wallets i = Some a ->
    exists W' m, random_one_ (round_input k) (a, r) W = (W', Err m) /\ up tr W' /\ chain W' = chain W /\ elog W' = elog W.
  Proof.
    intros U R Hk NR Za. pose proof (wallet_share i a Za) as Hi. pose proof (al_hist _ _ (up_alive _ _ U)) as Hs.
    assert (Aa : 0 < a < M160). { rewrite Forall_forall in FW. apply FW. unfold znth in Za. destruct (i <? 0); [discriminate|]. eapply nth_error_In; exact Za. }
    destruct (evaluation_made Pre keccak in_g2 pairing halo2 c poseidon J HJ lag vkey pkey vk_write vk_read pk_write pk_read keygen_vk keygen_pk get_vk create_proof verify_proof (Opts t n d a) (opts a Aa)
      tr (chain W) i (files W) r (key_ (i + 1)) (verify_keys gpp_) Hs) as (e & X); cbn [o_me]; rewrite ?R; try assumption.
    { rewrite (up_who _ _ U). exact Za. } { exact (pr_fs _ _ _ _ _ _ _ _ (up_ready _ _ U)). } { apply (up_sh _ _ U). clear -Hi. lia. } { exact (up_vf _ _ U). } { reflexivity. } { reflexivity. } { exact (vks_at i Hi). }
    cbv zeta in X. destruct X as (_ & _ & _ & Q1).
    pose proof (up_eval tr W i (Client.enc (j_eval J) (of_eval e)) (proj1 Hi) U) as U1.
    pose proof (round_in tr W U ltac:(rewrite R; exact Hk)) as Ri. rewrite R in Ri.
    set (x := SubmitPartialEval _) in Q1. set (W1 := World _ (chain W) (elog W)) in U1.
    assert (Sd : exists m, send E a x W1 = (W1, Err m)).
    { unfold send. change (chain W1) with (chain W). destruct (apply Pre E (chain W) (mkTx a 0 x)) as [[s' ev]|m|m] eqn:A; [|exists m; reflexivity|exists m; reflexivity]. exfalso.
      destruct (apply_ok _ _ _ _ _ _ A) as [_ St]. apply NR, no_random_iff. rewrite <- R. inversion St; cbn [what] in *; try discriminate. assumption. }
    destruct Sd as [m Sd]. exists W1, m. split; [|split; [exact U1|split; reflexivity]].
    rewrite random_eq by (rewrite R; exact Ri). rewrite (sbind_ok _ _ _ _ _ (run_ok _ _ _ _ Q1)). exact Sd.
  Qed.

  Lemma combine_znth {A} : forall (l : list Z) (m : list A) pre a x post, combine l m = pre ++ (a, x) :: post -> znth l (Z.of_nat (length pre)) = Some a.
  Proof.
    intros l m pre a x post H. unfold znth. rewrite (proj2 (Z.ltb_ge _ 0)) by (clear; lia). rewrite Nat2Z.id. revert m pre H.
    induction l as [|b l IH]; intros [|y m] pre H; [destruct pre; discriminate..|]. destruct pre as [|p pre]; cbn [combine app length nth_error] in *; [congruence|]. apply (IH m pre). congruence.
  Qed.
  Lemma combine_pre {A} (l : list Z) (m : list A) pre post : combine l m = pre ++ post -> exists r, l = map fst pre ++ r.
  Proof.
    revert m pre. induction l as [|b l IH]; intros m pre H; [destruct pre; [exists []; reflexivity|discriminate]|].
    destruct pre as [|p pre]; [eexists; reflexivity|]. destruct m as [|y m]; [discriminate|]. cbn [combine app map] in *. assert (X : p = (b, y) /\ combine l m = pre ++ post) by (split; congruence). destruct X as [-> X].
    destruct (IH _ _ X) as [r ->]. exists r. reflexivity.
  Qed.
  Lemma combine_here {A} (l : list Z) (m : list A) pre a x post : NoDup l -> combine l m = pre ++ (a, x) :: post -> ~ In a (map fst pre).
  Proof.
    intros N H. destruct (combine_pre l m (pre ++ [(a, x)]) post) as [r Er]; [rewrite <- app_assoc; exact H|]. rewrite map_app, <- app_assoc in Er. cbn [map app fst] in Er. exact (NoDup_mid _ _ _ _ N Er).
  Qed.
  (** the members that submit before the admin looks *)
  Lemma evals_ok tr0 W k h nonces m : up tr0 W -> currentRoundNum (chain W) = k -> 1 <= k -> no_random (chain W) k -> evals tr0 k = [] ->
    hash_to_curve_bn keccak EVAL_PREFIX (round_input k) = Ok h ->
    let l := firstn m (combine wallets nonces) in
    exists tr W', each (random_one_ (round_input k)) l W = (W', Ok tt) /\ up tr W' /\ currentRoundNum (chain W') = k /\ no_random (chain W') k /\
      length (evals tr k) = length l /\ (forall a e, In (a, e) (evals tr k) -> right_eval h e) /\ roundToRandom (chain W') = roundToRandom (chain W) /\
      elog W' = elog W ++ (if t <=? Z.of_nat (length l) then [RandomThresholdReached k (round_input k)] else []).
  Proof.
    intros U0 R0 Hk N0 E0 Hh l. destruct sizes as [Bt Ln].
    destruct (each_inv (random_one_ (round_input k)) (fun pre W' => exists tr, up tr W' /\ currentRoundNum (chain W') = k /\ no_random (chain W') k /\
        map fst (evals tr k) = map fst pre /\ (forall a e, In (a, e) (evals tr k) -> right_eval h e) /\ roundToRandom (chain W') = roundToRandom (chain W) /\
        elog W' = elog W ++ (if t <=? Z.of_nat (length pre) then [RandomThresholdReached k (round_input k)] else [])) l) with (W := W) as (W' & X & tr & U & R & NR & Ev & Rt & Rr & El).
    - intros pre [a r] post W1 Ew (tr & U & R & NR & Ev & Rt & Rr & El).
      assert (Ec : combine wallets nonces = pre ++ (a, r) :: post ++ skipn m (combine wallets nonces)) by (rewrite <- (firstn_skipn m (combine wallets nonces)) at 1; change (firstn m (combine wallets nonces)) with l; rewrite Ew, <- app_assoc; reflexivity).
      destruct (eval_ok_ tr W1 k (Z.of_nat (length pre)) a r h U R Hk NR (combine_znth _ _ _ _ _ _ Ec)) as (tr' & W' & e & X & U' & R' & NR' & Ev' & Re & Rr' & El').
      { rewrite Ev. exact (combine_here _ _ _ _ _ _ NW Ec). } { exact Hh. }
      exists W'. split; [exact X|]. exists tr'. split; [exact U'|]. split; [exact R'|]. split; [exact NR'|]. rewrite Ev', !map_app, Ev. split; [reflexivity|].
      split; [|split; [congruence|]].
      + intros b y I. apply in_app_or in I as [I|[I|[]]]; [exact (Rt b y I)|]. inversion I; subst. exact Re.
      + rewrite El', El, app_length. cbn [length]. assert (Le : length (evals tr k) = length pre) by (rewrite <- (map_length fst), Ev, map_length; reflexivity). rewrite Le, <- app_assoc. f_equal.
        rewrite Nat2Z.inj_add. change (Z.of_nat 1) with 1. generalize (Z.of_nat (length pre)). intros z. clear. destruct (Z.leb_spec t z), (Z.eqb_spec (z + 1) t), (Z.leb_spec t (z + 1)); try lia; reflexivity.
    - exists tr0. split; [exact U0|]. split; [exact R0|]. split; [exact N0|]. rewrite E0. split; [reflexivity|]. split; [intros ? ? []|]. split; [reflexivity|].
      cbn [length]. rewrite (proj2 (Z.leb_gt t (Z.of_nat 0))) by (clear -Bt; lia). rewrite app_nil_r. reflexivity.
    - exists tr, W'. split; [exact X|]. split; [exact U|]. split; [exact R|]. split; [exact NR|]. split; [rewrite <- (map_length fst), Ev, map_length; reflexivity|]. split; [exact Rt|]. split; [exact Rr|exact El].
  Qed.

  (** *** admin.ts: the random of the round *)
  Definition nonzero (k : Z) : Prop := forall h, hash_to_curve_bn keccak EVAL_PREFIX (round_input k) = Ok h -> prf_value keccak (g1mul h (group_secret dealers)) <> be_bytes 32 0.
  Lemma random_ok_ tr W k h : nonzero k -> up tr W -> currentRoundNum (chain W) = k -> 1 <= k -> no_random (chain W) k -> t <= Z.of_nat (length (evals tr k)) ->
    (forall a e, In (a, e) (evals tr k) -> right_eval h e) -> hash_to_curve_bn keccak EVAL_PREFIX (round_input k) = Ok h ->
    exists tr' W' p, admin_random_ (Z.of_nat (length wallets)) (k, round_input k) W = (W', Ok p) /\ up tr' W' /\ currentRoundNum (chain W') = k /\ ~ no_random (chain W') k /\
      getRandomAtRound (chain W') k = Ok p /\ random_of keccak (group_secret dealers) k p /\ (forall j, j <> k -> getRandomAtRound (chain W') j = getRandomAtRound (chain W) j) /\
      heard random_ready (elog W') = Some (k, round_input k).
  Proof.
    intros NZ U R Hk NR T Acc Hh. destruct sizes as [Bt Ln]. pose proof (al_hist _ _ (up_alive _ _ U)) as Hs.
    pose proof (round_in tr W U ltac:(rewrite R; exact Hk)) as Ri. rewrite R in Ri.
    destruct (random_stored Pre keccak in_g2 pairing halo2 K HG HP c poseidon J HJ lag vkey pkey vk_write vk_read pk_write pk_read keygen_vk keygen_pk get_vk create_proof verify_proof (Opts t n d admin) (opts admin own)
      (fun _ => tr) (fun _ => chain W) (2 + Z.to_nat n)%nat k (files W) members dealers (verify_keys gpp_) h) as (b0 & b1 & s' & ev & p & Q1 & Q2 & Q3 & Q4 & Q5 & SS & Q6); cbn [o_me]; try assumption.
    { intros i. split; [exact Hs|exists []; symmetry; apply app_nil_r]. } { apply le_n. } { rewrite R. apply Z.le_ge, Z.le_refl. } { exact (al_own _ _ (up_alive _ _ U)). }
    { exact (up_gpk _ _ U). } { exact (up_vk _ _ U). } { exact vks_len. } { exact (pr_fs _ _ _ _ _ _ _ _ (up_ready _ _ U)). } { exact (up_gf _ _ U). } { exact (up_vf _ _ U). } { exact (NZ h Hh). }
    cbn [o_me] in Q2.
    set (W1 := World (effects (files W) [(evals_path, b0); (pseudo_path, b1)]) (chain W) (elog W)).
    assert (U1 : up tr W1).
    { unfold W1. cbn [effects fold_left].
      pose proof (up_set tr W evals_path b0 U (safe_placed _ pl_evals) ltac:(apart) ltac:(apart) ltac:(intros i; apart)) as U'.
      exact (up_set tr _ pseudo_path b1 U' (safe_placed _ pl_pseudo) ltac:(apart) ltac:(apart) ltac:(intros i; apart)). }
    destruct (up_step tr W1 admin _ s' ev U1 Q2 SS I) as [Sd U2].
    assert (Mc : memberCount (chain W) = Z.of_nat (length wallets)) by (rewrite (i_n _ _ (inv0 _ _ _ _ _ Hs)), LW; exact (eq_sym Ln)).
    assert (Rn : currentRoundNum s' = k) by congruence.
    assert (NZ' : (rvalue (roundToRandom s' k) =? 0) = false /\ roundToRandom s' k = p).
    { unfold getRandomAtRound in Q3. destruct (rvalue (roundToRandom s' k) =? 0); [discriminate|]. split; [reflexivity|]. cbn [negb] in Q3. congruence. }
    eexists _, _, p. split.
    { rewrite (admin_random_eq _ _ _ _ _ _ _ _ _ _ _ _ _ _ _ _ _ _ _ _ _ _ _ _ _ Ri Mc), (sbind_ok _ _ _ _ _ (run_ok _ _ _ _ Q1)). fold W1. rewrite (sbind_ok _ _ _ _ _ Sd).
      unfold view. cbn [chain]. unfold getLatestRandom. rewrite Rn, (proj1 NZ'), (proj2 NZ'). reflexivity. }
    split; [exact U2|]. cbn [chain elog W1]. split; [exact Rn|]. split.
    { rewrite no_random_iff. intros X. rewrite X, Z.eqb_refl in NZ'. destruct NZ' as [Y _]. discriminate Y. }
    split; [exact Q3|]. split; [exists h; split; [exact Hh|split; [exact Q4|exact Q5]]|].
    destruct (apply_ok _ _ _ _ _ _ Q2) as [_ St]. inversion St; cbn [what] in *; try discriminate.
    split.
    - intros j Nj. unfold getRandomAtRound. match goal with H : s' = _ |- _ => rewrite H end. cbn [roundToRandom set_roundToRandom]. rewrite R. unfold upd. destruct (Z.eqb_spec j k) as [->|]; [congruence|]. reflexivity.
    - rewrite heard_app. match goal with H : ev = _ |- _ => rewrite H end. rewrite R, Ri. reflexivity.
  Qed.

  (** *** a round, and all of them *)
  Record idle (tr : list step) (W : world) (k : Z) : Prop := {
    id_up : up tr W; id_round : currentRoundNum (chain W) = k; id_done : k = 0 \/ ~ no_random (chain W) k; id_ev : 0 < k -> heard random_ready (elog W) <> None }.
  Lemma rest_ok tr W k nonces m : up tr W -> currentRoundNum (chain W) = k -> 1 <= k -> ~ no_random (chain W) k ->
    exists W', attempt (each (random_one_ (round_input k)) (skipn m (combine wallets nonces))) W = (W', Ok tt) /\ up tr W' /\ chain W' = chain W /\ elog W' = elog W.
  Proof.
    intros U R Hk NR. destruct (skipn m (combine wallets nonces)) as [|[a r] l] eqn:S; [exists W; split; [reflexivity|split; [exact U|split; reflexivity]]|].
    assert (Ec : combine wallets nonces = firstn m (combine wallets nonces) ++ (a, r) :: l) by (rewrite <- S; symmetry; apply firstn_skipn).
    destruct (late_ok tr W k _ a r U R Hk NR (combine_znth _ _ _ _ _ _ Ec)) as (W' & e & X & U' & C' & L').
    exists W'. split; [unfold attempt; cbn [each]; rewrite (sbind_err _ _ _ _ _ X); reflexivity|]. split; [exact U'|split; [exact C'|exact L']].
  Qed.
  Lemma round_ok tr W k (first : bool) m nonces : nonzero (k + 1) -> idle tr W k -> (first = false -> 0 < k) -> 0 <= k -> k + 1 < 2 ^ 256 -> (Z.to_nat t <= m)%nat -> length nonces = length wallets ->
    exists tr' W' p, demo_round_ wallets (first, m, nonces) W = (W', Ok p) /\ idle tr' W' (k + 1) /\ getRandomAtRound (chain W') (k + 1) = Ok p /\ random_of keccak (group_secret dealers) (k + 1) p /\
      forall j, j <> k + 1 -> getRandomAtRound (chain W') j = getRandomAtRound (chain W) j.
  Proof.
    intros NZ [U R D Ev] Fi K0 K1 Hm Ln. destruct sizes as [Bt Lns]. assert (K2 : 1 <= k + 1) by (clear -K0; lia). unfold demo_round.
    destruct (open_ok tr W k U R K0 K1 D) as (tr1 & W1 & X1 & U1 & R1 & N1 & E1 & Rr1 & e1 & El1 & T1 & _).
    rewrite (sbind_ok _ _ _ _ _ (eq_refl : now W = (W, Ok (length (elog W))))).
    assert (Xi : (if first then on gpp_created (fun _ => admin_initiate E admin) else on random_ready (fun _ => admin_initiate E admin)) W = (W1, Ok tt)).
    { destruct first; [rewrite (on_ok _ _ _ _ (up_ev _ _ U)); exact X1|]. destruct (heard random_ready (elog W)) as [z|] eqn:Z0; [|destruct (Ev (Fi eq_refl) eq_refl)]. rewrite (on_ok _ _ _ _ Z0). exact X1. }
    rewrite (sbind_ok _ _ _ _ _ Xi). rewrite (view_ok (fun s => Ok (currentRoundNum s)) _ _ _ eq_refl). rewrite (view_ok (fun s => Ok (roundInput s (currentRoundNum (chain W1)))) _ _ _ eq_refl).
    rewrite (round_in tr1 W1 U1) by (rewrite R1; exact K2). rewrite R1.
    destruct (C18_hash_total keccak EVAL_PREFIX (round_input (k + 1))) as (h & Hh & _).
    destruct (evals_ok tr1 W1 (k + 1) h nonces m U1 R1 K2 N1 E1 Hh) as (tr2 & W2 & X2 & U2 & R2 & N2 & L2 & A2 & Rr2 & El2).
    rewrite (sbind_ok _ _ _ _ _ X2).
    assert (Le : t <= Z.of_nat (length (firstn m (combine wallets nonces)))).
    { rewrite firstn_length, combine_length, Ln, LW, Nat.min_id. clear -Hm Bt Lns. lia. }
    destruct (random_ok_ tr2 W2 (k + 1) h NZ U2 R2 K2 N2) as (tr3 & W3 & p & X3 & U3 & R3 & N3 & G3 & V3 & O3 & H3); [rewrite L2; exact Le|exact A2|exact Hh|].
    assert (Y : on_after (length (elog W)) threshold_reached (admin_random_ (Z.of_nat (length wallets))) W2 = (W3, Ok p)).
    { unfold on_after. rewrite El2, El1, <- app_assoc, skipn_app, skipn_all, Nat.sub_diag. cbn [app skipn]. rewrite (proj2 (Z.leb_le _ _) Le).
      unfold heard. cbn [fold_left threshold_reached]. exact X3. }
    rewrite (sbind_ok _ _ _ _ _ Y). destruct (rest_ok tr3 W3 (k + 1) nonces m U3 R3 K2 N3) as (W4 & X4 & U4 & C4 & L4). rewrite (sbind_ok _ _ _ _ _ X4).
    exists tr3, W4, p. split; [reflexivity|]. rewrite C4. split; [|split; [exact G3|split; [exact V3|]]].
    - constructor; rewrite ?C4, ?L4; [exact U4|exact R3|right; exact N3|intros _; rewrite H3; discriminate].
    - intros j Nj. rewrite (O3 j Nj). unfold getRandomAtRound. rewrite Rr2, Rr1. reflexivity.
  Qed.
  Lemma rounds_ok : forall l tr W k (first : bool), (forall j, k < j <= k + Z.of_nat (length l) -> nonzero j) -> idle tr W k -> (first = false -> 0 < k) -> 0 <= k -> k + Z.of_nat (length l) < 2 ^ 256 ->
    Forall (fun x => (Z.to_nat t <= fst x)%nat /\ length (snd x) = length wallets) l ->
    exists tr' W' ps, demo_rounds_ wallets first l W = (W', Ok ps) /\ idle tr' W' (k + Z.of_nat (length l)) /\ length ps = length l /\
      (forall i p, nth_error ps i = Some p -> getRandomAtRound (chain W') (k + 1 + Z.of_nat i) = Ok p /\ random_of keccak (group_secret dealers) (k + 1 + Z.of_nat i) p) /\
      forall j, j <= k -> getRandomAtRound (chain W') j = getRandomAtRound (chain W) j.
  Proof.
    induction l as [|[m nonces] l IH]; intros tr W k first NZ Id Fi K0 K1 F.
    - exists tr, W, []. cbn [length]. rewrite Z.add_0_r. split; [reflexivity|]. split; [exact Id|]. split; [reflexivity|]. split; [intros [|i] p X; discriminate|reflexivity].
    - apply Forall_cons_iff in F as [[F1 F2] F]. cbn [fst snd length] in *. rewrite Nat2Z.inj_succ in K1, NZ.
      destruct (round_ok tr W k first m nonces (NZ (k + 1) ltac:(clear; lia)) Id Fi K0 ltac:(clear -K1; lia) F1 F2) as (tr1 & W1 & p & X1 & Id1 & G1' & V1 & O1).
      destruct (IH tr1 W1 (k + 1) false (fun j Hj => NZ j ltac:(clear -Hj; lia)) Id1 ltac:(clear -K0; lia) ltac:(clear -K0; lia) ltac:(clear -K1; lia) F) as (tr2 & W2 & ps & X2 & Id2 & L2 & P2 & O2).
      exists tr2, W2, (p :: ps). cbn [demo_rounds]. rewrite (sbind_ok _ _ _ _ _ X1), (sbind_ok _ _ _ _ _ X2). split; [reflexivity|].
      split; [replace (k + Z.of_nat (S (length l))) with (k + 1 + Z.of_nat (length l)) by (clear; lia); exact Id2|]. split; [cbn [length]; rewrite L2; reflexivity|]. split.
      + intros [|i] q X; cbn [nth_error] in X.
        * assert (p = q) by congruence. subst q. change (Z.of_nat 0) with 0. rewrite Z.add_0_r. split; [|exact V1]. rewrite (O2 (k + 1)) by (clear; lia). exact G1'.
        * replace (k + 1 + Z.of_nat (S i)) with (k + 1 + 1 + Z.of_nat i) by (clear; lia). exact (P2 i q X).
      + intros j Hj. rewrite (O2 j) by (clear -Hj; lia). apply O1. clear -Hj. lia.
  Qed.
  (** fewer submissions than the threshold: the admin waits *)
  Lemma short_ok tr W k (first : bool) m nonces : idle tr W k -> (first = false -> 0 < k) -> 0 <= k -> k + 1 < 2 ^ 256 -> (m < Z.to_nat t)%nat ->
    exists tr' W', demo_round_ wallets (first, m, nonces) W = (W', Err "still waiting for the event") /\ up tr' W' /\ currentRoundNum (chain W') = k + 1 /\ no_random (chain W') (k + 1).
  Proof.
    intros [U R D Ev] Fi K0 K1 Hm. destruct sizes as [Bt Lns]. assert (K2 : 1 <= k + 1) by (clear -K0; lia). unfold demo_round.
    destruct (open_ok tr W k U R K0 K1 D) as (tr1 & W1 & X1 & U1 & R1 & N1 & E1 & Rr1 & e1 & El1 & T1 & _).
    rewrite (sbind_ok _ _ _ _ _ (eq_refl : now W = (W, Ok (length (elog W))))).
    assert (Xi : (if first then on gpp_created (fun _ => admin_initiate E admin) else on random_ready (fun _ => admin_initiate E admin)) W = (W1, Ok tt)).
    { destruct first; [rewrite (on_ok _ _ _ _ (up_ev _ _ U)); exact X1|]. destruct (heard random_ready (elog W)) as [z|] eqn:Z0; [|destruct (Ev (Fi eq_refl) eq_refl)]. rewrite (on_ok _ _ _ _ Z0). exact X1. }
    rewrite (sbind_ok _ _ _ _ _ Xi). rewrite (view_ok (fun s => Ok (currentRoundNum s)) _ _ _ eq_refl). rewrite (view_ok (fun s => Ok (roundInput s (currentRoundNum (chain W1)))) _ _ _ eq_refl).
    rewrite (round_in tr1 W1 U1) by (rewrite R1; exact K2). rewrite R1.
    destruct (C18_hash_total keccak EVAL_PREFIX (round_input (k + 1))) as (h & Hh & _).
    destruct (evals_ok tr1 W1 (k + 1) h nonces m U1 R1 K2 N1 E1 Hh) as (tr2 & W2 & X2 & U2 & R2 & N2 & L2 & A2 & Rr2 & El2).
    rewrite (sbind_ok _ _ _ _ _ X2).
    assert (Le : Z.of_nat (length (firstn m (combine wallets nonces))) < t).
    { pose proof (firstn_le_length m (combine wallets nonces)) as F. clear -Hm Bt F. lia. }
    assert (Y : on_after (length (elog W)) threshold_reached (admin_random_ (Z.of_nat (length wallets))) W2 = (W2, Err "still waiting for the event")).
    { unfold on_after. rewrite El2, El1, <- app_assoc, skipn_app, skipn_all, Nat.sub_diag. cbn [app skipn]. rewrite (proj2 (Z.leb_gt _ _) Le).
      unfold heard. cbn [fold_left]. rewrite T1. reflexivity. }
    rewrite (sbind_err _ _ _ _ _ Y). exists tr2, W2. split; [reflexivity|]. split; [exact U2|split; [exact R2|exact N2]].
  Qed.
  Lemma keyed_idle tr W : keyed tr W -> idle tr W 0.
  Proof.
    intros [A B C D F G H I]. constructor; [|..|left; reflexivity|intros X; exfalso; clear -X; lia].
    - constructor; try assumption; [exact (en_ready _ _ A)|exact (en_alive _ _ A)|exact (en_who _ _ A)].
    - destruct (C31_rounds Pre E c tr (chain W) (al_hist _ _ (en_alive _ _ A))) as (X & _). rewrite X, (en_init _ _ A). reflexivity.
  Qed.
End Setup.
