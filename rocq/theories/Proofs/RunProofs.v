(** The life of a node service: the key of its member file over every schedule. *)
From Coq Require Import ZArith String List Bool Lia.
From Verif.Base Require Import Fld Fp EC Primes Curves Group.
From Verif.Model Require Import Monad Evm Strings Points HashEvm Dkg Lib Serialise Files Cache Client Zkdvrf Services RealEnv ServiceRun.
From Verif.Spec Require Import Dvrf Onchain Histories Serial CacheSpec ClientSpec ServiceSpec.
From Verif.Proofs Require Import ZkdvrfStep ZkdvrfInv1 ZkdvrfInv2 ZkdvrfInv3 Forward SerialProofs CacheProofs ClientProofs ServiceHex ServiceProofs RunFrame.
From Verif.Props Require Import P_Live P_Services.
Import ListNotations.
Open Scope Z_scope.

Lemma prefix_refl {A} (a : list A) : prefix a a. Proof. exists []. rewrite app_nil_r. reflexivity. Qed.
Lemma prefix_app {A} (a b t : list A) : prefix a b -> prefix a (b ++ t). Proof. intros [u ->]. exists (u ++ t). rewrite app_assoc. reflexivity. Qed.
Lemma regs_in a b x : In x (registrations (a ++ b)) <-> In x (registrations a) \/ In x (registrations b).
Proof. rewrite registrations_app. apply in_app_iff. Qed.
Lemma regs_step s t r x : In x (registrations [mkStep s t r]) <-> (exists y, r = Ok y) /\ exists p, what t = RegisterNode p /\ x = (sender t, p, tvalue t).
Proof.
  unfold registrations, accepted. cbn [flat_map outcome txn]. rewrite app_nil_r. destruct r as [y|m|m]; cbn [is_ok].
  - destruct (what t); cbn [In]; try (split; [intros []|intros (_ & ? & X & _); discriminate X]).
    split; [intros [<-|[]]; split; eauto|]. intros (_ & p0 & X & ->). injection X as ->. left. reflexivity.
  - split; [intros []|]. intros [[y X] _]. discriminate X.
  - split; [intros []|]. intros [[y X] _]. discriminate X.
Qed.
Lemma prefix_regs a b x : prefix a b -> In x (map who (registrations a)) -> In x (map who (registrations b)).
Proof. intros [t ->] H. rewrite registrations_app, map_app. apply in_or_app. left. exact H. Qed.
Lemma prefix_added a b x : prefix a b -> In x (added a) -> In x (added b).
Proof. intros [t ->] H. rewrite added_app. apply in_or_app. left. exact H. Qed.

Lemma write_cases p b s : write_file p b s = ([(p, b)], Ok tt) \/ exists e, write_file p b s = ([], Err e).
Proof. unfold write_file. destruct (s p) as [[]|], (s (parent p)) as [[]|]; eauto. Qed.

Lemma mode_awaited m : m = Awaited \/ m <> Awaited. Proof. destruct m; [left; reflexivity|right; discriminate|right; discriminate]. Qed.

Section Run.
  Variable v : variant.
  Variable E : env.
  Variable keccak : bytes -> Z.
  Variable pairing : list (G1 * G2c) -> bool.
  Variable c : Zkdvrf.cfg.
  Notation hist := (Histories.hist v E c).
  Variable poseidon : Fr -> Fr -> Fr.
  Variable J : json.
  Hypothesis HJ : json_ok J.
  Variable lag : list bytes -> Z -> list bytes.
  Variables vkey pkey : Type.
  Variable vk_write : vkey -> bytes.
  Variable vk_read : bytes -> res vkey.
  Variable pk_write : pkey -> bytes.
  Variable pk_read : bytes -> res pkey.
  Variable keygen_vk : kzg -> config -> res vkey.
  Variable keygen_pk : kzg -> vkey -> config -> res pkey.
  Variable get_vk : pkey -> vkey.
  Variable create_proof : kzg -> pkey -> member_params -> list Fr -> Z -> res bytes.
  Variable verify_proof : kzg -> vkey -> bytes -> list Fr -> bool.
  Variable addr_text : Z -> bytes.
  Variable o : options.
  Hypothesis HO : options_ok c o.
  Notation client_ := (client keccak pairing poseidon J lag vkey pkey vk_write vk_read pk_write pk_read keygen_vk keygen_pk get_vk create_proof verify_proof o).
  Notation node_register_ := (node_register keccak pairing poseidon J lag vkey pkey vk_write vk_read pk_write pk_read keygen_vk keygen_pk get_vk create_proof verify_proof addr_text o).
  Notation iterate_ := (iterate keccak pairing poseidon J lag vkey pkey vk_write vk_read pk_write pk_read keygen_vk keygen_pk get_vk create_proof verify_proof addr_text o).
  Notation move_ := (move v E c keccak pairing poseidon J lag vkey pkey vk_write vk_read pk_write pk_read keygen_vk keygen_pk get_vk create_proof verify_proof addr_text o).
  Notation calm_runs_ := (calm_runs v E c keccak pairing poseidon J lag vkey pkey vk_write vk_read pk_write pk_read keygen_vk keygen_pk get_vk create_proof verify_proof addr_text o).
  Notation me := (o_me o).
  Notation myfile := (member_name addr_text o).

  (** the registration program, in any file system: what it sends is the key it leaves in the member file *)
  Lemma register_result secret s w r : node_register_ secret s = (w, r) ->
    match r with Ok a => a = RegisterNode (enck (mk_pk (member_random secret))) /\ member_file J (effects s w) myfile (member_random secret) | _ => True end.
  Proof.
    unfold node_register. rewrite (client_bind keccak pairing c poseidon J lag vkey pkey vk_write vk_read pk_write pk_read keygen_vk keygen_pk get_vk create_proof verify_proof o HO).
    cbn [run_command]. unfold cmd_keygen, file_path. rewrite cbind_assoc, lift_ok. set (m := member_random secret). unfold save_json.
    destruct (write_cases (member_path myfile) (Client.enc (j_member J) (of_member m)) s) as [W|[e W]].
    - rewrite (cbind_ok _ _ _ _ _ W). set (s1 := effects s _). rewrite (load_raw (j_member J) _ (of_member m)); [|apply (ok_member J HJ)|apply set_same].
      rewrite lift_run. change (let* pk := point_arg (sm_pk (of_member m)) in _) with (pk_call (of_gk (mk_pk m))). rewrite pk_call_of. intros X. injection X as <- <-. split; [reflexivity|].
      apply holds_saved; [apply (ok_member J HJ)|]. apply member_round. reflexivity.
    - unfold cbind. rewrite W. intros X. injection X as <- <-. exact I.
  Qed.
  Lemma registered_seen tr s : hist tr s -> In me (map who (registrations tr)) -> status (addrToNode s me) = true.
  Proof.
    intros H I. pose proof (inv1 _ _ _ _ _ H) as J1. apply in_map_iff in I as (x & X & I). apply in_znth in I as [i I].
    destruct (j_reg _ _ _ _ J1 i x I) as [S _]. rewrite X in S. exact S.
  Qed.
  Lemma member_seen tr s : hist tr s -> nodeAddress (addrToNode s me) = me -> In me (added tr).
  Proof.
    intros H A. destruct (in_dec Z.eq_dec me (added tr)) as [|N]; [assumption|]. rewrite (j_out _ _ _ _ (inv1 _ _ _ _ _ H) me N) in A. cbn [nodeAddress node0] in A. pose proof (oo_me _ _ HO). lia.
  Qed.

  Definition matches (s : fs) (pk : pt) : Prop := exists m, member_file J s myfile m /\ pk = enck (mk_pk m).
  Record good (w : world) : Prop := {
    gd_hist : hist (w_tr w) (w_st w);
    gd_since : prefix (p_since (w_proc w)) (w_tr w);
    gd_file : forall x, In x (registrations (w_tr w)) -> who x = me -> matches (p_fs (w_proc w)) (key x);
    gd_queue : forall a m, In (a, m) (p_queue (w_proc w)) -> is_registration a = true ->
      m = Awaited /\ ~ In me (map who (registrations (w_tr w))) /\ In me (added (w_tr w)) /\ exists pk, a = RegisterNode pk /\ matches (p_fs (w_proc w)) pk;
    gd_poll : p_life (w_proc w) = Polling -> forall a, ~ In (a, Awaited) (p_queue (w_proc w));
    gd_last : forall q1 a q2, p_queue (w_proc w) = q1 ++ (a, Awaited) :: q2 -> q2 = [];
    gd_seen : p_life (w_proc w) = Polling -> In me (map who (registrations (w_tr w))) -> In me (map who (registrations (p_since (w_proc w)))) }.
  Lemma matches_ext s s' pk : s' (member_path myfile) = s (member_path myfile) -> matches s pk -> matches s' pk.
  Proof. intros X (m & F & P). exists m. split; [|exact P]. revert F. apply holds_ext. exact X. Qed.
  (** a registering iteration happens only when the node is not registered and no registration is pending *)
  Lemma register_fresh w trs ch : good w -> p_life (w_proc w) = Polling -> reads v E c (p_since (w_proc w)) (w_tr w) trs ch -> node_poll o (c_threshold c) ch = NRegister ->
    ~ In me (map who (registrations (w_tr w))) /\ (forall a m, In (a, m) (p_queue (w_proc w)) -> is_registration a = false) /\ In me (added (w_tr w)).
  Proof.
    intros G L R P. destruct (R 1%nat) as (H1 & S1 & _ & T1). unfold node_poll in P. destruct (Z.eqb_spec (nodeAddress (addrToNode (ch 1%nat) me)) me) as [A|]; [|discriminate].
    destruct (contractPhase (ch 0%nat)); try discriminate; [|destruct (statusPP _); discriminate|destruct (_ && _); discriminate].
    destruct (status (addrToNode (ch 1%nat) me)) eqn:St; [discriminate|]. split; [|split].
    - intros I. apply (gd_seen _ G L), (prefix_regs _ _ _ S1), (registered_seen _ _ H1) in I. congruence.
    - intros a m I. destruct (is_registration a) eqn:X; [|reflexivity]. destruct (gd_queue _ G a m I X) as [-> _]. destruct (gd_poll _ G L a I).
    - apply (prefix_added _ _ _ T1). apply (member_seen _ _ H1 A).
  Qed.
  Lemma others_regs tr s t : sender t <> me -> In me (map who (registrations (tr ++ [mkStep s t (apply v E s t)]))) -> In me (map who (registrations tr)).
  Proof.
    intros N I. apply in_map_iff in I as (x & X & I). apply regs_in in I as [I|I]; [apply in_map_iff; eauto|].
    apply regs_step in I as (_ & p & _ & ->). cbn in X. congruence.
  Qed.
  Lemma iterate_poll d ch s : node_poll o (c_threshold c) ch = NRegister -> iterate_ (c_threshold c) d ch s = cbind (node_register_ (d_secret d)) (fun t => cret (Some (t, Awaited))) s.
  Proof. intros P. unfold iterate. rewrite P. reflexivity. Qed.
  (** a program that sends no registration *)
  Definition noreg {A} (f : A -> Prop) (m : cmd A) : Prop := forall s a, snd (m s) = Ok a -> f a.
  Lemma noreg_bind {A B} (f : B -> Prop) (m : cmd A) (k : A -> cmd B) : (forall a, noreg f (k a)) -> noreg f (cbind m k).
  Proof.
    intros H s b X. unfold cbind in X. destruct (m s) as [w [a| |]]; try discriminate X. pose proof (H a (effects s w)) as Y. destruct (k a (effects s w)) as [w' r']. cbn [snd] in *. apply Y, X.
  Qed.
  Lemma noreg_lift {A} (f : A -> Prop) (r : res A) : (forall a, r = Ok a -> f a) -> noreg f (lift r).
  Proof. intros H s a X. apply H, X. Qed.
  Lemma unregistering d ch s a m : node_poll o (c_threshold c) ch <> NRegister -> snd (iterate_ (c_threshold c) d ch s) = Ok (Some (a, m)) -> is_registration a = false.
  Proof.
    intros D It. set (f := fun x : option (call * mode) => match x with Some (a, _) => is_registration a = false | None => True end).
    assert (H : noreg f (iterate_ (c_threshold c) d ch)); [|exact (H s _ It)].
    assert (R : forall m0 (q : cmd call), noreg (fun a => is_registration a = false) q -> noreg f (do t := q in cret (Some (t, m0)))).
    { intros m0 q Hq s0 x X. unfold cbind in X. pose proof (Hq s0) as Y. destruct (q s0) as [w0 [a0| |]]; try discriminate X. cbn [cret snd] in X. injection X as <-. exact (Y a0 eq_refl). }
    unfold iterate. destruct (node_poll o (c_threshold c) ch) as [| | |dv]; [intros s0 x X; injection X as <-; exact I|congruence| |].
    - apply R. unfold node_submit_pp. repeat (apply noreg_bind; intros ?). apply noreg_lift. intros x X. apply bind_ok in X as (y & _ & X). injection X as <-. reflexivity.
    - apply noreg_bind. intros _. apply R. unfold node_submit_eval. repeat (apply noreg_bind; intros ?). apply noreg_lift. intros x X.
      apply bind_ok in X as (y1 & _ & X). apply bind_ok in X as (y2 & _ & X). apply bind_ok in X as (y3 & _ & X). injection X as <-. reflexivity.
  Qed.
  Lemma noticed_polling l m ok : noticed l m ok = Polling -> l = Polling \/ (l = Waiting /\ m = Awaited /\ ok = true).
  Proof. destruct l, m, ok; cbn; auto; discriminate. Qed.
  Lemma noreg_included tr s a : is_registration a = false -> registrations (tr ++ [mkStep s (mkTx me 0 a) (apply v E s (mkTx me 0 a))]) = registrations tr.
  Proof.
    intros X. rewrite registrations_app. assert (Y : registrations [mkStep s (mkTx me 0 a) (apply v E s (mkTx me 0 a))] = []); [|rewrite Y, app_nil_r; reflexivity].
    unfold registrations. cbn [flat_map txn what]. destruct (accepted _); [|reflexivity]. destruct a; try reflexivity. discriminate X.
  Qed.

  Lemma good_move l w w' : good w -> move_ l w w' -> (l = Restart -> ~ registering w) -> good w'.
  Proof.
    intros G M C. destruct M as [tr s p t N|tr s p d trs ch w r L R It|tr s p d trs ch w r s' L R It Cr|tr s f l q since a m t x|tr s p|tr s p].
    - (* others *)
      destruct G as [H S F Q P La Se]. cbn [w_tr w_st w_proc] in *. constructor; cbn [w_tr w_st w_proc].
      + apply hist_tx. exact H.
      + apply prefix_app, S.
      + intros x I X. apply regs_in in I as [I|I]; [auto|]. apply regs_step in I as (_ & pk & _ & ->). cbn in X. congruence.
      + intros a m I X. destruct (Q a m I X) as (Q1 & Q2 & Q3 & Q4). split; [exact Q1|]. split; [intros Y; apply Q2, (others_regs _ _ _ N Y)|]. split; [|exact Q4]. apply (prefix_added tr); [apply prefix_app, prefix_refl|exact Q3].
      + exact P.
      + exact La.
      + intros L I. apply (Se L), (others_regs _ _ _ N I).
    - (* an iteration *)
      pose proof (register_fresh _ _ _ G L R) as RF. destruct G as [H S F Q P La Se]. cbn [w_tr w_st w_proc] in *. specialize (P L).
      assert (Pv : forall t m, p_queue p ++ [(t, m)] = p_queue p ++ [(t, m)] -> forall q1 a q2, p_queue p ++ [(t, m)] = q1 ++ (a, Awaited) :: q2 -> q2 = []).
      { intros t m _ q1 a q2 X. destruct q2 as [|y q2] using rev_ind; [reflexivity|]. exfalso. rewrite app_comm_cons, app_assoc in X. apply app_inj_tail in X as [X _]. apply (P a). rewrite X. apply in_or_app. right. left. reflexivity. }
      assert (D : node_poll o (c_threshold c) ch = NRegister \/ node_poll o (c_threshold c) ch <> NRegister) by (destruct (node_poll o (c_threshold c) ch); (left; reflexivity) || (right; discriminate)).
      destruct D as [D|D].
      + destruct (RF D) as (N & NQ & Ad). rewrite (iterate_poll _ _ _ D) in It. unfold cbind in It. destruct (node_register_ (d_secret d) (p_fs p)) as [w0 r0] eqn:Rg. pose proof (register_result _ _ _ _ Rg) as X.
        assert (Stop' : forall e, (r = Err e \/ r = Panic e) -> good (World tr s (after p w r tr))).
        { intros e Y. assert (Z1 : after p w r tr = Proc (effects (p_fs p) w) Stopped (p_queue p) tr) by (destruct Y as [-> | ->]; reflexivity). rewrite Z1. constructor; cbn [w_tr w_st w_proc p_life p_queue p_since p_fs]; auto; try discriminate.
          - apply prefix_refl.
          - intros x I Wx. destruct N. apply in_map_iff. eauto.
          - intros a m I Y'. rewrite (NQ _ _ I) in Y'. discriminate. }
        destruct r0 as [a0|e|e]; [|injection It as <- <-; apply (Stop' e); auto|injection It as <- <-; apply (Stop' e); auto].
        cbn [cret] in It. rewrite app_nil_r in It. injection It as <- <-. destruct X as [-> Mf]. constructor; cbn [w_tr w_st w_proc after p_life p_queue p_since p_fs]; auto; try discriminate.
        * apply prefix_refl.
        * intros x I Wx. destruct N. apply in_map_iff. eauto.
        * intros a m I Y. apply in_app_or in I as [I|[I|[]]]; [rewrite (NQ _ _ I) in Y; discriminate|]. injection I as <- <-. split; [reflexivity|]. split; [exact N|]. split; [exact Ad|]. eexists. split; [reflexivity|]. exists (member_random (d_secret d)). split; [exact Mf|reflexivity].
        * exact (Pv _ Awaited eq_refl).
      + pose proof (clear_iterate keccak pairing poseidon J lag vkey pkey vk_write vk_read pk_write pk_read keygen_vk keygen_pk get_vk create_proof verify_proof addr_text o (c_threshold c) d ch D (p_fs p)) as Cl. rewrite It in Cl. cbn [fst] in Cl.
        pose proof (clear_effects w (p_fs p) myfile Cl) as Sm.
        assert (Qx : forall a m, In (a, m) (p_queue p) -> is_registration a = false).
        { intros a m I. destruct (is_registration a) eqn:X; [|reflexivity]. destruct (Q a m I X) as [-> _]. destruct (P a I). }
        assert (New : forall a m, r = Ok (Some (a, m)) -> is_registration a = false).
        { intros a m ->. apply (f_equal snd) in It. exact (unregistering d ch (p_fs p) a m D It). }
        destruct r as [[[a m]|]|e|e]; cbn [after]; constructor; cbn [w_tr w_st w_proc p_life p_queue p_since p_fs]; auto; try discriminate; try apply prefix_refl;
          try (intros x I Wx; apply (matches_ext _ _ _ Sm); auto; fail); try (intros a' m' I Y; rewrite (Qx _ _ I) in Y; discriminate Y).
        * intros a' m' I Y. apply in_app_or in I as [I|[I|[]]]; [rewrite (Qx _ _ I) in Y; discriminate|]. injection I as <- <-. rewrite (New a m eq_refl) in Y. discriminate.
        * intros Lp a' I. apply in_app_or in I as [I|[I|[]]]; [apply (P _ I)|]. injection I as <- ->. discriminate Lp.
        * exact (Pv a m eq_refl).
    - (* killed *)
      pose proof (register_fresh _ _ _ G L R) as RF. destruct G as [H S F Q P La Se]. cbn [w_tr w_st w_proc] in *. specialize (P L).
      assert (D : node_poll o (c_threshold c) ch = NRegister \/ node_poll o (c_threshold c) ch <> NRegister) by (destruct (node_poll o (c_threshold c) ch); (left; reflexivity) || (right; discriminate)).
      assert (Qx : forall a m, In (a, m) (p_queue p) -> is_registration a = false).
      { intros a m I. destruct (is_registration a) eqn:X; [|reflexivity]. destruct (Q a m I X) as [-> _]. destruct (P a I). }
      constructor; cbn [w_tr w_st w_proc p_life p_queue p_since p_fs]; auto; try discriminate; try apply prefix_refl.
      + destruct D as [D|D].
        * destruct (RF D) as (N & _ & _). intros x I Wx. destruct N. apply in_map_iff. eauto.
        * pose proof (clear_iterate keccak pairing poseidon J lag vkey pkey vk_write vk_read pk_write pk_read keygen_vk keygen_pk get_vk create_proof verify_proof addr_text o (c_threshold c) d ch D (p_fs p)) as Cl. rewrite It in Cl. cbn [fst] in Cl.
          intros x I Wx. apply (matches_ext _ _ _ (clear_crashed _ _ _ myfile Cl Cr)). auto.
      + intros a m I Y. rewrite (Qx _ _ I) in Y. discriminate.
    - (* included *)
      destruct G as [H S F Q P La Se]. cbn [w_tr w_st w_proc p_life p_queue p_since p_fs] in *. assert (Hx : hist (tr ++ [x]) (exec v E s t)) by (apply hist_tx; exact H).
      assert (Q0 : m = Awaited -> q = []) by (intros ->; exact (La [] a q eq_refl)).
      assert (Ra : is_registration a = true -> m = Awaited) by (intros X; apply (Q a m (or_introl eq_refl) X)).
      assert (NR : m <> Awaited -> registrations (tr ++ [x]) = registrations tr) by (intros N; apply noreg_included; destruct (is_registration a); [destruct N; auto|reflexivity]).
      constructor; cbn [w_tr w_st w_proc p_life p_queue p_since p_fs].
      + exact Hx.
      + destruct m; [apply prefix_refl|apply prefix_app, S|apply prefix_app, S].
      + intros y I Wy. apply regs_in in I as [I|I]; [auto|]. apply regs_step in I as (_ & pk & X & ->). cbn [what t] in X.
        destruct (Q a m (or_introl eq_refl)) as (_ & _ & _ & pk' & X' & Mt); [rewrite X; reflexivity|]. unfold key. cbn [fst snd]. congruence.
      + intros a' m' I Y. destruct (Q a' m' (or_intror I) Y) as (Q1 & Q2 & Q3 & Q4). split; [exact Q1|].
        destruct (mode_awaited m) as [M0|M0]; [rewrite (Q0 M0) in I; destruct I|]. split; [rewrite (NR M0); exact Q2|]. split; [|exact Q4]. apply (prefix_added tr); [apply prefix_app, prefix_refl|exact Q3].
      + intros L a' I. apply noticed_polling in L as [L|(_ & L & _)]; [apply (P L a'); right; exact I|rewrite (Q0 L) in I; destruct I].
      + intros q1 a' q2 X. apply (La ((a, m) :: q1) a' q2). cbn [app]. f_equal. exact X.
      + intros L I. destruct (mode_awaited m) as [M0|M0]; [rewrite M0; exact I|].
        apply noticed_polling in L as [L|(_ & L & _)]; [|contradiction]. rewrite (NR M0) in I. destruct m; [contradiction|apply (Se L I)|apply (Se L I)].
    - (* stop *)
      destruct G as [H S F Q P La Se]. cbn [w_tr w_st w_proc p_life p_queue p_since p_fs] in *. constructor; cbn [w_tr w_st w_proc p_life p_queue p_since p_fs]; auto; try discriminate. apply prefix_refl.
    - (* restart *)
      destruct G as [H S F Q P La Se]. cbn [w_tr w_st w_proc p_life p_queue p_since p_fs] in *. specialize (C eq_refl).
      assert (Qx : forall a m, In (a, m) (p_queue p) -> is_registration a = false).
      { intros a m I. destruct (is_registration a) eqn:X; [|reflexivity]. destruct C. exists a, m. split; [exact I|exact X]. }
      assert (O : forall a m, In (a, m) (map (fun x => (fst x, Orphan)) (p_queue p)) -> m = Orphan /\ is_registration a = false).
      { intros a m I. apply in_map_iff in I as ([a' m'] & X & I). cbn [fst] in X. injection X as <- <-. split; [reflexivity|]. eauto. }
      constructor; cbn [w_tr w_st w_proc p_life p_queue p_since p_fs]; auto; try apply prefix_refl.
      + intros a m I Y. destruct (O a m I) as [_ Z]. congruence.
      + intros _ a I. destruct (O _ _ I) as [X _]. discriminate X.
      + intros q1 a q2 X. assert (I : In (a, Awaited) (map (fun x => (fst x, Orphan)) (p_queue p))) by (rewrite X; apply in_or_app; right; left; reflexivity). destruct (O _ _ I) as [Y _]. discriminate Y.
  Qed.
  Lemma good_runs w w' : calm_runs_ w w' -> good w -> good w'.
  Proof. induction 1 as [|w w' w'' l R IH M C]; intros G; [exact G|]. exact (good_move l w' w'' (IH G) M C). Qed.
End Run.
