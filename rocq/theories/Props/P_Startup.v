(** C67: deploy.ts and the services' start-up give the contract, the services and their client the same configuration, or refuse.
    For every environment, every set of overrides and every contract. *)
From Coq Require Import ZArith String List Bool Lia.
From Verif.Base Require Import Fld Fp EC Primes Curves Group.
From Verif.Model Require Serialise.
From Verif.Model Require Import Monad Evm Strings Files Client Zkdvrf Services Halo2VerifierSol Startup.
From Verif.Spec Require Import Histories ClientSpec PlonkVerifier.
From Verif.Proofs Require Import ZkdvrfStep ZkdvrfInv1 DecimalProofs CacheProofs ClientProofs ServiceHex ServiceProofs.
From Verif.Props Require Import P_Client P_Verifier.
Import ListNotations.
Open Scope string_scope.
Open Scope list_scope.
Open Scope Z_scope.

(** ** the text of a number is read as that number *)
Lemma digit_iff c : is_digit c = true <-> 48 <= c <= 57.
Proof. unfold is_digit. rewrite andb_true_iff, !Z.leb_le. reflexivity. Qed.
Lemma take_all s : Forall (fun c => 48 <= c <= 57) s -> take_digits s = s.
Proof. induction 1 as [|c s H _ IH]; [reflexivity|]. cbn [take_digits]. rewrite (proj2 (digit_iff c) H), IH. reflexivity. Qed.
Lemma decimal_text x : 0 <= x < M256 -> decimal (to_dec x) = x.
Proof. exact (to_dec_value x). Qed.
Lemma parse_text x : 0 <= x < M256 -> parseInt (Some (to_dec x)) = Some x.
Proof.
  intros H. pose proof (to_dec_digits x ltac:(lia)) as F. pose proof (to_dec_nonempty x) as N. pose proof (decimal_text x H) as D0. unfold parseInt.
  destruct (to_dec x) as [|c s] eqn:E0; [contradiction|]. pose proof (take_all _ F) as T. inversion F as [|? ? Hc Fs]; subst.
  assert (S : skip_spaces (c :: s) = c :: s) by (cbn [skip_spaces]; unfold is_space; destruct (Z.eqb_spec c 32), (Z.leb_spec 9 c), (Z.leb_spec c 13); cbn [orb andb]; try reflexivity; lia).
  rewrite S. assert (K : c = 48 \/ c = 49 \/ c = 50 \/ c = 51 \/ c = 52 \/ c = 53 \/ c = 54 \/ c = 55 \/ c = 56 \/ c = 57) by (clear -Hc; lia).
  clear -K T. repeat destruct K as [->|K]; [..|subst c]; cbv beta iota zeta; rewrite T; reflexivity.
Qed.
Lemma all_digits x : 0 <= x -> forallb is_digit (to_dec x) = true.
Proof. intros H. apply forallb_forall. intros c I. apply digit_iff. pose proof (to_dec_digits x H) as F. rewrite Forall_forall in F. auto. Qed.
Lemma not_nil x : Nat.eqb (length (to_dec x)) 0 = false.
Proof. pose proof (to_dec_nonempty x). destruct (to_dec x); [contradiction|reflexivity]. Qed.

Lemma parse_signed x : - M256 < x < M256 -> parseInt (Some (num_text (Some x))) = Some x.
Proof.
  intros H. unfold num_text. destruct (Z.ltb_spec x 0) as [L|L]; [|apply parse_text; lia].
  change (str "-" ++ to_dec (- x)) with (45 :: to_dec (- x)). unfold parseInt. change (skip_spaces (45 :: to_dec (- x))) with (45 :: to_dec (- x)). cbv beta iota zeta.
  rewrite (take_all _ (to_dec_digits (- x) ltac:(lia))). pose proof (to_dec_nonempty (- x)) as N. pose proof (decimal_text (- x) ltac:(lia)) as D0.
  destruct (to_dec (- x)) as [|c r]; [contradiction|]. f_equal. lia.
Qed.

(** the contract's numbers are those it was deployed with, of 32 bits *)
Lemma sizes v E c tr s : hist v E c tr s -> Zkdvrf.threshold s = c_threshold c /\ memberCount s = c_number c /\ 0 <= c_threshold c < 2 ^ 32 /\ 0 <= c_number c < 2 ^ 32.
Proof.
  intros H. destruct (inv0 v E c tr s H) as [I1 I2 _ _ _ _ _]. split; [exact I2|]. split; [exact I1|]. clear I1 I2.
  induction H as [s Hc _|tr s t H IH]; [|exact IH].
  unfold cfg_ok in Hc. repeat (apply andb_prop in Hc; destruct Hc as [Hc ?]). unfold is_u32 in *. change (2 ^ 32) with M32. lia.
Qed.
(** ** what a started service is *)
Lemma start_node_inv env config s sv : start_node env config s = Ok sv -> run_node env config = Ok sv /\ check_service sv s = Ok tt.
Proof. unfold start_node. intros H. apply bind_ok in H as (x & A & H). apply bind_ok in H as ([] & B & H). split; congruence. Qed.
Lemma start_admin_inv env config me s sv : start_admin env config me s = Ok sv -> run_admin env config = Ok sv /\ check_service sv s = Ok tt /\ owner s = me.
Proof.
  unfold start_admin. intros H. apply bind_ok in H as (x & A & H). apply bind_ok in H as ([] & B & H). apply bind_ok in H as (u & O & H). apply require_ok in O. apply Z.eqb_eq in O.
  assert (x = sv) by congruence. subst x. auto.
Qed.
Lemma check_iff sv s : check_service sv s = Ok tt <-> sv_threshold sv = Some (Zkdvrf.threshold s) /\ sv_members sv = Some (memberCount s).
Proof.
  unfold check_service, same_number. destruct (sv_threshold sv) as [t|], (sv_members sv) as [n|]; split; intros H.
  - apply bind_ok in H as (u & A & B). apply require_ok in A, B. apply Z.eqb_eq in A, B. subst. auto.
  - destruct H as [A B]. injection A as ->. injection B as ->. rewrite !Z.eqb_refl. reflexivity.
  - apply bind_ok in H as (u & _ & B). apply require_ok in B. discriminate.
  - destruct H as [_ B]. discriminate.
  - apply bind_ok in H as (u & A & _). apply require_ok in A. discriminate.
  - destruct H as [A _]. discriminate.
  - apply bind_ok in H as (u & A & _). apply require_ok in A. discriminate.
  - destruct H as [A _]. discriminate.
Qed.
(** a service that starts has the contract's threshold and number of members, and the admin's wallet owns the contract *)
Theorem C67_node_agrees env config s sv : start_node env config s = Ok sv -> sv_threshold sv = Some (Zkdvrf.threshold s) /\ sv_members sv = Some (memberCount s).
Proof. intros H. apply start_node_inv in H as [_ H]. apply check_iff. exact H. Qed.
Theorem C67_admin_agrees env config me s sv : start_admin env config me s = Ok sv ->
  sv_threshold sv = Some (Zkdvrf.threshold s) /\ sv_members sv = Some (memberCount s) /\ owner s = me.
Proof. intros H. apply start_admin_inv in H as (_ & H & O). apply check_iff in H as [A B]. auto. Qed.

(** what the client reads from its environment: the three numbers if all of them are u32, else 3, 5 and 18 *)
Lemma num_u32 o : (forall x, o = Some x -> x < M256) -> parse_u32 (num_text o) = match o with Some x => if (0 <=? x) && (x <? 2 ^ 32) then Some x else None | None => None end.
Proof.
  destruct o as [x|]; [|reflexivity]. intros Bx. specialize (Bx x eq_refl). unfold num_text. destruct (Z.ltb_spec x 0) as [L|L].
  - rewrite (proj2 (Z.leb_gt 0 x) L). cbn [andb]. change (str "-" ++ to_dec (- x)) with (45 :: to_dec (- x)). reflexivity.
  - rewrite (proj2 (Z.leb_le 0 x) L). cbn [andb]. destruct (Z.ltb_spec x (2 ^ 32)) as [U|U].
    + apply parse_u32_iff, dec_denotes. lia.
    + destruct (parse_u32 (to_dec x)) as [y|] eqn:Y; [|reflexivity]. exfalso. apply parse_u32_iff in Y as (ds & N & F & T & V & B).
      pose proof (to_dec_digits x L) as Fd. destruct T as [T|T]; [|rewrite T in Fd; inversion Fd; lia].
      rewrite <- (to_dec_value x) in U by lia. rewrite T in U. clear -U V B F. assert (X : DecimalProofs.dec (map (fun d => 48 + d) ds) = y); [|lia].
      rewrite V. unfold DecimalProofs.dec. generalize 0. clear. induction ds as [|d l IH]; intros a; [reflexivity|]. cbn [map fold_left]. rewrite IH. f_equal. lia.
Qed.
Definition u32 (x : Z) : Prop := 0 <= x < 2 ^ 32.
Lemma u32b x : u32 x -> (0 <=? x) && (x <? 2 ^ 32) = true.
Proof. intros H. unfold u32 in H. rewrite (proj2 (Z.leb_le _ _)), (proj2 (Z.ltb_lt _ _)) by lia. reflexivity. Qed.
Lemma cmd_config sv : (forall x, sv_threshold sv = Some x -> x < M256) -> (forall x, sv_members sv = Some x -> x < M256) -> (forall x, sv_degree sv = Some x -> x < M256) ->
  get_config (cmd_env sv) = match parse_u32 (num_text (sv_threshold sv)), parse_u32 (num_text (sv_members sv)), parse_u32 (num_text (sv_degree sv)) with
    | Some t, Some n, Some d => PC t n d | _, _, _ => PC 3 5 18 end.
Proof.
  intros _ _ _. unfold get_config, env_u32, cmd_env.
  change (path_eqb (str "THRESHOLD") (str "THRESHOLD")) with true. change (path_eqb (str "NUMBER_OF_MEMBERS") (str "THRESHOLD")) with false. change (path_eqb (str "NUMBER_OF_MEMBERS") (str "NUMBER_OF_MEMBERS")) with true.
  change (path_eqb (str "DEGREE") (str "THRESHOLD")) with false. change (path_eqb (str "DEGREE") (str "NUMBER_OF_MEMBERS")) with false. change (path_eqb (str "DEGREE") (str "DEGREE")) with true. cbv iota. reflexivity.
Qed.
(** a started service runs its client with the contract's threshold and number of members and the configured degree ... *)
Theorem C67_client_config v E c tr s sv d : hist v E c tr s -> check_service sv s = Ok tt -> sv_degree sv = Some d -> u32 d ->
  get_config (cmd_env sv) = PC (c_threshold c) (c_number c) d.
Proof.
  intros H Ck D Hd. apply check_iff in Ck as [A B]. destruct (sizes v E c tr s H) as (St & Sn & Ut & Un). rewrite St in A. rewrite Sn in B.
  assert (Big : 2 ^ 32 < M256) by reflexivity. unfold u32 in *.
  rewrite cmd_config by (rewrite ?A, ?B, ?D; intros x X; injection X as <-; lia).
  rewrite A, B, D, !num_u32 by (intros x X; injection X as <-; lia). rewrite !u32b by (unfold u32; lia). reflexivity.
Qed.
(** ... but without a degree (DEGREE is not checked) the client silently works for 3 members out of 5 and degree 18 *)
Theorem C67_degree_missing sv s : check_service sv s = Ok tt -> sv_degree sv = None -> get_config (cmd_env sv) = PC 3 5 18.
Proof.
  intros _ D. unfold get_config. assert (X : env_u32 (cmd_env sv) (str "DEGREE") = None) by (unfold env_u32; replace (cmd_env sv (str "DEGREE")) with (Some (num_text None)) by (unfold cmd_env; rewrite D; reflexivity); reflexivity).
  rewrite X. destruct (env_u32 (cmd_env sv) (str "THRESHOLD")), (env_u32 (cmd_env sv) (str "NUMBER_OF_MEMBERS")); reflexivity.
Qed.

(** whatever number is given for the degree in the .env: used if the client can take it, else the client's own numbers are *)
Theorem C67_any_degree v E c tr s env config sv k : hist v E c tr s -> config (str "threshold") = None ->
  env (str "DEGREE") = Some (if k <? 0 then str "-" ++ to_dec (- k) else to_dec k) -> - M256 < k < M256 ->
  start_node env config s = Ok sv \/ (exists me, start_admin env config me s = Ok sv) ->
  get_config (cmd_env sv) = if (0 <=? k) && (k <? 2 ^ 32) then PC (c_threshold c) (c_number c) k else PC 3 5 18.
Proof.
  intros H C0 Ek Bk St. destruct (sizes v E c tr s H) as (Tt & Tn & Ut & Un). assert (Big : 2 ^ 32 < M256) by reflexivity. unfold u32 in *.
  assert (AB : sv_threshold sv = Some (Zkdvrf.threshold s) /\ sv_members sv = Some (memberCount s)) by (destruct St as [X|[me X]]; [exact (C67_node_agrees _ _ _ _ X)|destruct (C67_admin_agrees _ _ _ _ _ X) as (A & B & _); auto]).
  destruct AB as [A B]. rewrite Tt in A. rewrite Tn in B.
  assert (D : sv_degree sv = Some k).
  { change (env (str "DEGREE") = Some (num_text (Some k))) in Ek. assert (U : uint config (str "threshold") (parseInt (env (str "DEGREE"))) = Ok (Some k)) by (unfold uint; rewrite C0, Ek, parse_signed by lia; reflexivity).
    destruct St as [X|[me X]].
    - apply start_node_inv in X as [X _]. unfold run_node in X. apply bind_ok in X as (t1 & _ & X). apply bind_ok in X as (n1 & _ & X). rewrite U in X. cbn [bind] in X. apply bind_ok in X as (p1 & _ & X). apply bind_ok in X as (u1 & _ & X). injection X as <-. reflexivity.
    - apply start_admin_inv in X as (X & _). unfold run_admin in X. apply bind_ok in X as (t1 & _ & X). apply bind_ok in X as (n1 & _ & X). rewrite U in X. cbn [bind] in X. apply bind_ok in X as (p1 & _ & X). apply bind_ok in X as (i1 & _ & X). apply bind_ok in X as (u1 & _ & X). injection X as <-. reflexivity. }
  rewrite cmd_config by (rewrite ?A, ?B, ?D; intros x X; injection X as <-; lia).
  rewrite A, B, D, !num_u32 by (intros x X; injection X as <-; lia). rewrite (u32b (c_threshold c) Ut), (u32b (c_number c) Un). destruct ((0 <=? k) && (k <? 2 ^ 32)); reflexivity.
Qed.

(** ** from the same .env *)
Definition overridden (config : vars) (key : string) : Prop := config (str key) <> None.
Record env_for (env : vars) (t n d : Z) : Prop := {
  e_t : env (str "THRESHOLD") = Some (to_dec t); e_n : env (str "NUMBER_OF_MEMBERS") = Some (to_dec n); e_d : env (str "DEGREE") = Some (to_dec d);
  e_url : exists x y, env (str "L2_NODE_WEB3_URL") = Some (x :: y) }.
(** services started with the contract's numbers in their .env and nothing overridden do start, and run their client with them *)
Theorem C67_starts v E c tr s env config d : hist v E c tr s -> env_for env (c_threshold c) (c_number c) d -> u32 d -> (forall key, ~ overridden config key) ->
  (exists sv, start_node env config s = Ok sv /\ get_config (cmd_env sv) = PC (c_threshold c) (c_number c) d) /\
  (exists sv, start_admin env config (owner s) s = Ok sv /\ get_config (cmd_env sv) = PC (c_threshold c) (c_number c) d /\
     sv_polling sv = Some (or_else (parseInt (env (str "POLLING_INTERVAL"))) 12000) /\ sv_interval sv = Some (or_else (parseInt (env (str "RAND_GEN_INTERVAL"))) 3600)).
Proof.
  intros H [Et En Ed (x & y & Eu)] Hd No. destruct (sizes v E c tr s H) as (St & Sn & Ut & Un). assert (Big : 2 ^ 32 < M256) by reflexivity.
  assert (C0 : forall key, config (str key) = None) by (intros key; destruct (config (str key)) eqn:X; [exfalso; apply (No key); unfold overridden; congruence|reflexivity]).
  assert (U0 : forall key f, uint config (str key) f = Ok f) by (intros key f; unfold uint; rewrite C0; reflexivity).
  unfold u32 in *. set (sn := Service (Some (c_threshold c)) (Some (c_number c)) (Some d) (Some (or_else (parseInt (env (str "POLLING_INTERVAL"))) 12000)) None).
  set (sa := Service (Some (c_threshold c)) (Some (c_number c)) (Some d) (Some (or_else (parseInt (env (str "POLLING_INTERVAL"))) 12000)) (Some (or_else (parseInt (env (str "RAND_GEN_INTERVAL"))) 3600))).
  assert (Rn : run_node env config = Ok sn). { unfold run_node. rewrite Et, En, Ed, !parse_text by lia. rewrite !U0. unfold text. rewrite C0, Eu. reflexivity. }
  assert (Ra : run_admin env config = Ok sa). { unfold run_admin. rewrite Et, En, Ed, !parse_text by lia. rewrite !U0. unfold text. rewrite C0, Eu. reflexivity. }
  assert (Kn : check_service sn s = Ok tt) by (apply check_iff; rewrite St, Sn; split; reflexivity).
  assert (Ka : check_service sa s = Ok tt) by (apply check_iff; rewrite St, Sn; split; reflexivity).
  split.
  - exists sn. split; [unfold start_node; rewrite Rn; cbn [bind]; rewrite Kn; reflexivity|]. exact (C67_client_config v E c tr s sn d H Kn eq_refl Hd).
  - exists sa. split; [unfold start_admin; rewrite Ra; cbn [bind]; rewrite Ka; cbn [bind]; rewrite Z.eqb_refl; reflexivity|]. split; [exact (C67_client_config v E c tr s sa d H Ka eq_refl Hd)|]. split; reflexivity.
Qed.
(** with other numbers than the contract's, or without them, neither service starts *)
Theorem C67_refused env config me s : (forall key, ~ overridden config key) ->
  parseInt (env (str "THRESHOLD")) <> Some (Zkdvrf.threshold s) \/ parseInt (env (str "NUMBER_OF_MEMBERS")) <> Some (memberCount s) ->
  (forall sv, start_node env config s <> Ok sv) /\ (forall sv, start_admin env config me s <> Ok sv).
Proof.
  intros No Df. assert (C0 : forall key, config (str key) = None) by (intros key; destruct (config (str key)) eqn:X; [exfalso; apply (No key); unfold overridden; congruence|reflexivity]).
  assert (U0 : forall key f, uint config (str key) f = Ok f) by (intros key f; unfold uint; rewrite C0; reflexivity).
  split; intros sv H.
  - apply start_node_inv in H as [R K]. apply check_iff in K as [A B]. unfold run_node in R. rewrite !U0 in R. cbn [bind] in R. apply bind_ok in R as (u & _ & R).
    assert (sv = Service (parseInt (env (str "THRESHOLD"))) (parseInt (env (str "NUMBER_OF_MEMBERS"))) (parseInt (env (str "DEGREE"))) (Some (or_else (parseInt (env (str "POLLING_INTERVAL"))) 12000)) None) by congruence.
    subst sv. cbn [sv_threshold sv_members] in *. tauto.
  - apply start_admin_inv in H as (R & K & _). apply check_iff in K as [A B]. unfold run_admin in R. rewrite !U0 in R. cbn [bind] in R. apply bind_ok in R as (u & _ & R).
    assert (X : sv_threshold sv = parseInt (env (str "THRESHOLD")) /\ sv_members sv = parseInt (env (str "NUMBER_OF_MEMBERS"))) by (assert (Y : Service (parseInt (env (str "THRESHOLD"))) (parseInt (env (str "NUMBER_OF_MEMBERS"))) (parseInt (env (str "DEGREE"))) (Some (or_else (parseInt (env (str "POLLING_INTERVAL"))) 12000)) (Some (or_else (parseInt (env (str "RAND_GEN_INTERVAL"))) 3600)) = sv) by congruence; rewrite <- Y; split; reflexivity).
    destruct X as [X1 X2]. rewrite <- X1, <- X2 in Df. tauto.
Qed.

(** ** findings: two keys are read twice *)
(** a threshold given to bcfg (on the command line, say) is also taken for the degree, whatever DEGREE says *)
Theorem C67_degree_is_threshold env config t : 0 <= t < 2 ^ 53 -> config (str "threshold") = Some (to_dec t) ->
  (forall sv, run_node env config = Ok sv -> sv_threshold sv = Some t /\ sv_degree sv = Some t) /\
  (forall sv, run_admin env config = Ok sv -> sv_threshold sv = Some t /\ sv_degree sv = Some t).
Proof.
  intros Ht Ct. assert (Big : 2 ^ 53 < M256) by reflexivity.
  assert (U : forall f, uint config (str "threshold") f = Ok (Some t)) by (intros f; unfold uint; rewrite Ct, not_nil, all_digits, decimal_text, (proj2 (Z.ltb_lt t _)) by lia; reflexivity).
  split; intros sv R.
  - unfold run_node in R. rewrite !U in R. cbn [bind] in R. apply bind_ok in R as (n & _ & R). apply bind_ok in R as (p & _ & R). apply bind_ok in R as (u & _ & R).
    assert (Y : Service (Some t) n (Some t) p None = sv) by congruence. rewrite <- Y. split; reflexivity.
  - unfold run_admin in R. rewrite !U in R. cbn [bind] in R. apply bind_ok in R as (n & _ & R). apply bind_ok in R as (p & _ & R). apply bind_ok in R as (i & _ & R). apply bind_ok in R as (u & _ & R).
    assert (Y : Service (Some t) n (Some t) p i = sv) by congruence. rewrite <- Y. split; reflexivity.
Qed.
(** a polling interval given to bcfg (in milliseconds) is also taken for the interval between rounds (in seconds) *)
Theorem C67_interval_is_polling env config sv : overridden config "polling-interval" -> run_admin env config = Ok sv -> sv_interval sv = sv_polling sv.
Proof.
  unfold overridden. intros Ov R. unfold run_admin in R. apply bind_ok in R as (t & _ & R). apply bind_ok in R as (n & _ & R). apply bind_ok in R as (d & _ & R).
  apply bind_ok in R as (p & Hp & R). apply bind_ok in R as (i & Hi & R). apply bind_ok in R as (u & _ & R). unfold uint in Hp, Hi.
  destruct (config (str "polling-interval")) as [z|]; [|contradiction]. assert (p = i) by (destruct (_ && _); congruence). subst i.
  assert (Y : Service t n d p p = sv) by congruence. rewrite <- Y. reflexivity.
Qed.

(** ** deploy.ts *)
Lemma path_eqb_iff a b : path_eqb a b = true <-> a = b.
Proof. unfold path_eqb. destruct (list_eq_dec Z.eq_dec a b); split; intros; congruence. Qed.
Lemma app_same {A} (p x y : list A) : p ++ x = p ++ y -> x = y.
Proof. apply app_inv_head. Qed.
Lemma split_18 t n d : t ++ str "-" ++ n ++ str "-" ++ d = str "3-5-18" -> t = str "3" /\ n = str "5" /\ d = str "18".
Proof.
  change (str "-") with [45]. change (str "3-5-18") with [51; 45; 53; 45; 49; 56]. change (str "3") with [51]. change (str "5") with [53]. change (str "18") with [49; 56]. cbn [app]. intros H.
  destruct t as [|t0 [|t1 [|t2 [|t3 [|t4 [|t5 t6]]]]]]; cbn [app] in H; try discriminate; try (apply (f_equal (@length Z)) in H; cbn [length] in H; rewrite ?app_length in H; cbn [length] in H; lia).
  - injection H as -> H.
    destruct n as [|n0 [|n1 [|n2 [|n3 n4]]]]; cbn [app] in H; try discriminate; try (apply (f_equal (@length Z)) in H; cbn [length] in H; rewrite ?app_length in H; cbn [length] in H; lia).
    injection H as -> ->. auto.
  - injection H as -> -> -> H. destruct n as [|n0 [|n1 n2]]; cbn [app] in H; try discriminate. apply (f_equal (@length Z)) in H; cbn [length] in H; rewrite ?app_length in H; cbn [length] in H; lia.
Qed.
Lemma key_name t n d :
  path_eqb (str "contracts/Halo2VerifyingKey-3-5-18-g2.sol:Halo2VerifyingKey") (str "contracts/Halo2VerifyingKey-" ++ t ++ str "-" ++ n ++ str "-" ++ d ++ str "-g2.sol:Halo2VerifyingKey") = true <->
  t = str "3" /\ n = str "5" /\ d = str "18".
Proof.
  rewrite path_eqb_iff. split.
  - intros H. apply split_18. symmetry. apply (app_inv_tail (str "-g2.sol:Halo2VerifyingKey")). apply (app_inv_head (str "contracts/Halo2VerifyingKey-")).
    rewrite <- !app_assoc. exact H.
  - intros (-> & -> & ->). reflexivity.
Qed.
Lemma bad_name x : path_eqb (str "contracts/Halo2Verifier.sol:Halo2Verifier") (str "contracts/Halo2VerifyingKey-" ++ x) = false /\
  path_eqb (str "GlobalPublicParams") (str "contracts/Halo2VerifyingKey-" ++ x) = false /\ path_eqb (str "PseudoRand") (str "contracts/Halo2VerifyingKey-" ++ x) = false.
Proof.
  repeat split.
Qed.
Lemma key_factory t n d x : factory (str "contracts/Halo2VerifyingKey-" ++ t ++ str "-" ++ n ++ str "-" ++ d ++ str "-g2.sol:Halo2VerifyingKey") = Ok x <->
  (t = str "3" /\ n = str "5" /\ d = str "18") /\ x = KeyContract vk_code.
Proof.
  unfold factory, artifacts. generalize vk_code. intros code. cbn [find fst snd].
  destruct (bad_name (t ++ str "-" ++ n ++ str "-" ++ d ++ str "-g2.sol:Halo2VerifyingKey")) as (B1 & B2 & B3). 
  destruct (path_eqb (str "contracts/Halo2VerifyingKey-3-5-18-g2.sol:Halo2VerifyingKey") _) eqn:X; [|rewrite B1, B2, B3].
  - apply key_name in X. cbn [snd]. split; [intros H; split; [exact X|congruence]|intros [_ ->]; reflexivity].
  - split; [discriminate|]. intros [H _]. apply key_name in H. congruence.
Qed.
(** a string or the fallback given for it *)
Definition given (o : option bytes) (fallback : bytes) : bytes := match o with Some s => s | None => fallback end.
(** the decimal text of a number is read as that number, if it fits *)
Lemma uint_arg_text bits x : 0 <= x < M256 -> uint_arg bits (Some (to_dec x)) = if x <? 2 ^ bits then Ok x else Err "value out-of-bounds".
Proof. intros H. unfold uint_arg. rewrite not_nil, all_digits by lia. cbn [negb andb bind]. rewrite decimal_text by exact H. destruct (x <? 2 ^ bits); reflexivity. Qed.

Lemma hex_val_pos d x : Serialise.hex_val d = Some x -> 0 <= x.
Proof. unfold Serialise.hex_val. repeat (match goal with |- context [if ?b then _ else _] => destruct b eqn:?; [intros [= <-]; lia|] end). discriminate. Qed.
Lemma hex_digits_pos s : forall a x, 0 <= a -> hex_digits a s = Some x -> 0 <= x.
Proof.
  induction s as [|d r IH]; intros a x Ha H; cbn [hex_digits] in H; [congruence|]. destruct (Serialise.hex_val d) as [y|] eqn:Y; [|discriminate].
  apply hex_val_pos in Y. refine (IH _ _ _ H). lia.
Qed.
Lemma decimal_pos s : forallb is_digit s = true -> 0 <= decimal s.
Proof.
  unfold decimal. assert (G : forall a, 0 <= a -> forallb is_digit s = true -> 0 <= fold_left (fun a c => a * 10 + (c - 48)) s a); [|intros H; apply G; [lia|exact H]].
  induction s as [|c r IH]; intros a Ha H; [exact Ha|]. cbn [forallb] in H. apply andb_prop in H as [Hc H]. apply digit_iff in Hc. cbn [fold_left]. apply IH; [lia|exact H].
Qed.
Lemma uint_arg_range bits o x : uint_arg bits o = Ok x -> 0 <= x < 2 ^ bits.
Proof.
  unfold uint_arg. intros H. apply bind_ok in H as (y & Y & H). apply bind_ok in H as (u & B & H). apply require_ok in B. apply Z.ltb_lt in B. assert (y = x) by congruence. subst y. split; [|exact B].
  destruct o as [s|]; [|discriminate]. destruct (negb _ && forallb is_digit s) eqn:D.
  - apply andb_prop in D as [_ D]. injection Y as <-. apply decimal_pos, D.
  - unfold hex_num in Y. destruct s as [|c1 [|c2 r]]; try discriminate;
    repeat (match type of Y with context [match ?q with _ => _ end] => is_var q; destruct q; try discriminate end).
    all: match type of Y with context [hex_digits 0 ?q] => destruct (hex_digits 0 q) as [zz|] eqn:Zd; [|discriminate] end; injection Y as <-; apply (hex_digits_pos _ 0 _ ltac:(lia) Zd).
Qed.

Section Deploy.
  Variable address_of : bytes -> option Z.
  Variable next : nat -> Z.
  Hypothesis AO : forall s a, address_of s = Some a -> 0 <= a < M160.
  Hypothesis NO : forall k, 0 < next k < M160.
  (** deploy.ts creates five contracts, and only for 3, 5 and 18: the key generated for these numbers, the verifier, the two helpers,
      and zkdvrf_pre with the same numbers, the admin as owner and the addresses of the other four, each in its place *)
  Theorem C67_deploy env l : env (str "DEPLOY_NO_HELPERS") <> Some (str "true") ->
    (deploy address_of next env = Ok l <->
     env (str "THRESHOLD") = Some (str "3") /\ env (str "NUMBER_OF_MEMBERS") = Some (str "5") /\ env (str "DEGREE") = Some (str "18") /\
     exists a dep, address_of (given (env (str "ADMIN_ADDRESS")) []) = Some a /\ a <> 0 /\ uint_arg 256 (Some (given (env (str "MIN_DEPOSIT")) (str "0"))) = Ok dep /\
       l = [ (next 0%nat, KeyContract vk_code); (next 1%nat, VerifierContract); (next 2%nat, GppContract); (next 3%nat, PrandContract);
             (next 4%nat, ZkdvrfPre (mkCfg 3 5 a (next 1%nat) (next 0%nat) (next 2%nat) (next 3%nat) dep)) ]).
  Proof.
    intros Hh. assert (Hf : path_eqb (env_text (env (str "DEPLOY_NO_HELPERS"))) (str "true") = false).
    { destruct (path_eqb _ _) eqn:X; [|reflexivity]. apply path_eqb_iff in X. destruct (env (str "DEPLOY_NO_HELPERS")); [cbn [env_text] in X; congruence|discriminate X]. }
    unfold deploy, helpers. rewrite Hf. clear Hf Hh.
    assert (Fv : factory (str "contracts/Halo2Verifier.sol:Halo2Verifier") = Ok VerifierContract) by reflexivity.
    assert (Fg : factory (str "GlobalPublicParams") = Ok GppContract) by reflexivity. assert (Fp0 : factory (str "PseudoRand") = Ok PrandContract) by reflexivity.
    assert (Nz : forall k, (next k =? 0) = false) by (intros k; apply Z.eqb_neq; pose proof (NO k); lia).
    assert (Un : forall o, env_text o = str "3" \/ env_text o = str "5" \/ env_text o = str "18" -> o = Some (env_text o)) by (intros [o|] [X|[X|X]]; [reflexivity..|discriminate X|discriminate X|discriminate X]).
    assert (U3 : uint_arg 32 (Some (str "3")) = Ok 3) by reflexivity. assert (U5 : uint_arg 32 (Some (str "5")) = Ok 5) by reflexivity.
    split.
    - intros H. apply bind_ok in H as ([l0 [[[h0 k0] g0] p0]] & A & H). apply bind_ok in A as (k & K & A). apply key_factory in K as ((T & N & D) & ->).
      rewrite Fv, Fg, Fp0 in A. cbn [bind] in A. injection A as <- <- <- <- <-. 
      pose proof (Un _ (or_introl T)) as ET. pose proof (Un _ (or_intror (or_introl N))) as EN. pose proof (Un _ (or_intror (or_intror D))) as ED. rewrite T in ET. rewrite N in EN. rewrite D in ED.
      rewrite ET, EN, U3, U5 in H. cbn [bind] in H. apply bind_ok in H as (a & Ha & H). apply bind_ok in H as (dep & Hd & H). apply bind_ok in H as (s & Hs & H).
      split; [exact ET|]. split; [exact EN|]. split; [exact ED|]. exists a, dep. unfold address_arg in Ha. fold (given (env (str "ADMIN_ADDRESS")) []) in Ha.
      destruct (address_of (given (env (str "ADMIN_ADDRESS")) [])) as [a'|]; [|discriminate]. injection Ha as ->. split; [reflexivity|].
      apply construct_ok in Hs as (Hs & _). split; [exact Hs|]. split; [exact Hd|]. cbn [length app] in H. congruence.
    - intros (ET & EN & ED & a & dep & Ha & Na & Hd & ->). rewrite ET, EN, ED. cbn [env_text].
      rewrite (proj2 (key_factory (str "3") (str "5") (str "18") (KeyContract vk_code)) (conj (conj eq_refl (conj eq_refl eq_refl)) eq_refl)). rewrite Fv, Fg, Fp0. cbn [bind]. rewrite U3, U5. cbn [bind].
      fold (given (env (str "ADMIN_ADDRESS")) []). unfold address_arg. rewrite Ha. cbn [bind]. fold (given (env (str "MIN_DEPOSIT")) (str "0")). rewrite Hd. cbn [bind].
      unfold construct. cbn [c_owner c_halo2 c_gpp c_prand c_number]. rewrite (proj2 (Z.eqb_neq a 0) Na), !Nz. reflexivity.
  Qed.
  (** the contract so deployed starts a history, its owner is the admin, and it expects the vectors of 49 words that its key is for *)
  Theorem C67_deployed v E env l : env (str "DEPLOY_NO_HELPERS") <> Some (str "true") -> deploy address_of next env = Ok l ->
    exists c s, In (next 4%nat, ZkdvrfPre c) l /\ hist v E c [] s /\ Zkdvrf.threshold s = 3 /\ memberCount s = 5 /\ address_of (given (env (str "ADMIN_ADDRESS")) []) = Some (owner s) /\
      In (halo2VerifyingKey s, KeyContract vk_code) l /\ In (c_halo2 c, VerifierContract) l /\ In (c_gpp c, GppContract) l /\ In (c_prand c, PrandContract) l /\
      (forall k, key_words k = vk_code -> ppLength s = Z.of_nat (k_instances k)).
  Proof.
    intros Hh H. apply C67_deploy in H as (_ & _ & _ & a & dep & Ha & Na & Hd & ->); [|exact Hh].
    set (c := mkCfg 3 5 a (next 1%nat) (next 0%nat) (next 2%nat) (next 3%nat) dep).
    assert (Nz : forall k, (next k =? 0) = false) by (intros k; apply Z.eqb_neq; pose proof (NO k); lia).
    apply uint_arg_range in Hd. change (2 ^ 256) with M256 in Hd. pose proof (AO _ _ Ha) as Ra.
    assert (Ad : forall k, is_addr (next k) = true) by (intros k; pose proof (NO k); unfold is_addr; rewrite (proj2 (Z.leb_le _ _)), (proj2 (Z.ltb_lt _ _)) by lia; reflexivity).
    assert (Ok0 : cfg_ok c = true).
    { unfold cfg_ok, c. cbn [c_threshold c_number c_owner c_halo2 c_vk c_gpp c_prand c_minDeposit]. rewrite !Ad. unfold is_addr, is_u256.
      rewrite (proj2 (Z.leb_le 0 a)), (proj2 (Z.ltb_lt a M160)), (proj2 (Z.leb_le 0 dep)), (proj2 (Z.ltb_lt dep M256)) by lia. reflexivity. }
    assert (Cs : exists s, construct c = Ok s) by (unfold construct, c; cbn [c_owner c_halo2 c_gpp c_prand c_number]; rewrite (proj2 (Z.eqb_neq a 0) Na), !Nz; eexists; reflexivity).
    destruct Cs as [s Cs]. exists c, s. split; [right; right; right; right; left; reflexivity|]. split; [constructor; assumption|].
    apply construct_ok in Cs as (_ & _ & ->). cbn [Zkdvrf.threshold memberCount owner halo2VerifyingKey ppLength]. unfold c. cbn [c_threshold c_number c_owner c_halo2 c_vk c_gpp c_prand].
    split; [reflexivity|]. split; [reflexivity|]. split; [exact Ha|]. split; [left; reflexivity|]. split; [right; left; reflexivity|]. split; [right; right; left; reflexivity|]. split; [right; right; right; left; reflexivity|].
    intros k Hk. destruct (C60_deployed k Hk) as [-> _]. reflexivity.
  Qed.
  (** with DEPLOY_NO_HELPERS=true nothing ties the numbers to the key, nor to each other: any pair goes into the contract (with t > n,
      say, its members can never make a random) *)
  Theorem C67_no_helpers env t n h k g p a dep : env (str "DEPLOY_NO_HELPERS") = Some (str "true") -> 0 <= t < M32 -> 0 <= n -> 7 * n + 14 < M32 ->
    env (str "THRESHOLD") = Some (to_dec t) -> env (str "NUMBER_OF_MEMBERS") = Some (to_dec n) -> option_map address_of (env (str "HALO2V")) = Some (Some h) ->
    option_map address_of (env (str "HALO2VK")) = Some (Some k) -> option_map address_of (env (str "GPP")) = Some (Some g) -> option_map address_of (env (str "PSRAND")) = Some (Some p) ->
    option_map address_of (env (str "ADMIN_ADDRESS")) = Some (Some a) -> uint_arg 256 (Some (given (env (str "MIN_DEPOSIT")) (str "0"))) = Ok dep ->
    h <> 0 -> g <> 0 -> p <> 0 -> a <> 0 -> deploy address_of next env = Ok [(next 0%nat, ZkdvrfPre (mkCfg t n a h k g p dep))].
  Proof.
    intros Hh Ht Hn Hm ET EN EH EK EG EP EA ED Nh Ng Np Na. unfold deploy, helpers. rewrite Hh. cbn [env_text]. rewrite (proj2 (path_eqb_iff (str "true") (str "true")) eq_refl).
    assert (G : forall key x, option_map address_of (env (str key)) = Some (Some x) -> address_arg address_of (env (str key)) = Ok x).
    { intros key x X. unfold address_arg. destruct (env (str key)); cbn [option_map] in X; [|discriminate]. injection X as ->. reflexivity. }
    rewrite (G _ _ EH), (G _ _ EK), (G _ _ EG), (G _ _ EP). cbn [bind]. assert (Big : 2 ^ 32 < M256) by reflexivity. change (2 ^ 32) with M32 in Big.
    rewrite ET, EN, !uint_arg_text by lia. change (2 ^ 32) with M32. rewrite (proj2 (Z.ltb_lt t M32)), (proj2 (Z.ltb_lt n M32)) by lia. cbn [bind].
    assert (GA : address_arg address_of (Some (match env (str "ADMIN_ADDRESS") with Some s => s | None => [] end)) = Ok a).
    { unfold address_arg. destruct (env (str "ADMIN_ADDRESS")); cbn [option_map] in EA; [|discriminate]. injection EA as ->. reflexivity. }
    rewrite GA. cbn [bind]. fold (given (env (str "MIN_DEPOSIT")) (str "0")). rewrite ED. cbn [bind].
    unfold construct. cbn [c_owner c_halo2 c_gpp c_prand c_number]. rewrite (proj2 (Z.eqb_neq a 0) Na), (proj2 (Z.eqb_neq h 0) Nh), (proj2 (Z.eqb_neq g 0) Ng), (proj2 (Z.eqb_neq p 0) Np). cbn [negb andb].
    unfold require. cbn [bind]. unfold mul32, add32, chk. rewrite (proj2 (Z.leb_le 0 (7 * n))), (proj2 (Z.ltb_lt (7 * n) M32)) by lia. cbn [andb bind]. rewrite (proj2 (Z.leb_le 0 (7 * n + 14))), (proj2 (Z.ltb_lt (7 * n + 14) M32)) by lia. reflexivity.
  Qed.
End Deploy.

(** ** A concrete case: a .env for 3 members out of 5 and degree 18 deploys the contracts; the services then start with it and run their
    client for it; with another threshold, or once the threshold is overridden, they do not *)
Definition env1 (t : string) : vars := fun key =>
  if path_eqb key (str "THRESHOLD") then Some (str t) else if path_eqb key (str "NUMBER_OF_MEMBERS") then Some (str "5")
  else if path_eqb key (str "DEGREE") then Some (str "18") else if path_eqb key (str "L2_NODE_WEB3_URL") then Some (str "http://localhost:8545")
  else if path_eqb key (str "ADMIN_ADDRESS") then Some (str "admin") else if path_eqb key (str "MIN_DEPOSIT") then Some (str "1000") else None.
Definition addresses1 (s : bytes) : option Z := if path_eqb s (str "admin") then Some 77 else None.
Definition next1 (k : nat) : Z := 100 + Z.of_nat k.
Definition cfg1 : cfg := mkCfg 3 5 77 101 100 102 103 1000.
Definition config0 : vars := fun _ => None.
Definition config1 : vars := fun key => if path_eqb key (str "threshold") then Some (str "3") else None.
Example C67_deploy_case : deploy addresses1 next1 (env1 "3") = Ok [(100, KeyContract vk_code); (101, VerifierContract); (102, GppContract); (103, PrandContract); (104, ZkdvrfPre cfg1)].
Proof. reflexivity. Qed.
Example C67_start_case E : exists s, hist Pre E cfg1 [] s /\
  (exists sv, start_node (env1 "3") config0 s = Ok sv /\ get_config (cmd_env sv) = PC 3 5 18) /\
  (exists sv, start_admin (env1 "3") config0 77 s = Ok sv /\ get_config (cmd_env sv) = PC 3 5 18) /\
  start_node (env1 "2") config0 s = Err "threshold does not match" /\
  (exists sv, start_node (env1 "3") config1 s = Ok sv /\ get_config (cmd_env sv) = PC 3 5 3).
Proof.
  assert (Cs : exists s, construct cfg1 = Ok s) by (eexists; reflexivity). destruct Cs as [s Cs]. exists s.
  assert (H : hist Pre E cfg1 [] s) by (constructor; [reflexivity|exact Cs]). split; [exact H|].
  assert (Ev : env_for (env1 "3") 3 5 18) by (split; [vm_compute; reflexivity..|eexists _, _; reflexivity]).
  destruct (C67_starts Pre E cfg1 [] s (env1 "3") config0 18 H Ev) as [A (sv & B & C & _)]; [unfold u32; lia|intros key K; apply K; reflexivity|].
  split; [exact A|]. unfold construct in Cs. injection Cs as <-. split; [exists sv; split; [exact B|exact C]|]. split; [reflexivity|].
  eexists. split; reflexivity.
Qed.

Print Assumptions C67_node_agrees.
Print Assumptions C67_admin_agrees.
Print Assumptions C67_client_config.
Print Assumptions C67_degree_missing.
Print Assumptions C67_starts.
Print Assumptions C67_refused.
Print Assumptions C67_degree_is_threshold.
Print Assumptions C67_interval_is_polling.
Print Assumptions C67_deploy.
Print Assumptions C67_deployed.
Print Assumptions C67_no_helpers.
Print Assumptions C67_deploy_case.
Print Assumptions C67_start_case.
Print Assumptions C67_any_degree.
