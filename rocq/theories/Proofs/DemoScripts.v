(** The demo scripts as the services' programs followed by a transaction; loops. *)
From Coq Require Import ZArith String List Bool Lia Arith.
From Verif.Base Require Import Fld Fp EC Primes Curves Group.
From Verif.Model Require Import Monad Evm Strings Points HashEvm Dkg Lib Serialise Files Cache Client Zkdvrf Services Demo.
From Verif.Spec Require Import Histories.
From Verif.Proofs Require Import ClientProofs CacheProofs Forward.
Import ListNotations.
Open Scope Z_scope.

Lemma run_ok {A} (m : cmd A) W w a : m (files W) = (w, Ok a) -> run m W = (World (effects (files W) w) (chain W) (elog W), Ok a).
Proof. intros H. unfold run. rewrite H. reflexivity. Qed.
Lemma sbind_ok {A B} (m : script A) (k : A -> script B) W W' a : m W = (W', Ok a) -> sbind m k W = k a W'.
Proof. intros H. unfold sbind. rewrite H. reflexivity. Qed.
Lemma sbind_err {A B} (m : script A) (k : A -> script B) W W' e : m W = (W', Err e) -> sbind m k W = (W', Err e).
Proof. intros H. unfold sbind. rewrite H. reflexivity. Qed.
Lemma sbind_ext {A B} (m : script A) (k k' : A -> script B) W : (forall a W', k a W' = k' a W') -> sbind m k W = sbind m k' W.
Proof. intros H. unfold sbind. destruct (m W) as [W' [a| |]]; auto. Qed.
Lemma run_bind {A B C} (m : cmd A) (k : A -> cmd B) (g : B -> script C) W : sbind (run (cbind m k)) g W = sbind (run m) (fun a => sbind (run (k a)) g) W.
Proof.
  unfold sbind, run, cbind. cbn [files chain elog]. destruct (m (files W)) as [w [a| |]]; [|reflexivity..]. cbn [files chain elog].
  destruct (k a (effects (files W) w)) as [w' r]. rewrite effects_app. reflexivity.
Qed.
Lemma run_lift {A B C} (x : res A) (f : A -> B) (g : B -> script C) W : sbind (run (lift (let* a := x in Ok (f a)))) g W = sbind (run (lift x)) (fun a => g (f a)) W.
Proof. unfold sbind, run, lift. destruct x; reflexivity. Qed.
Lemma run_ret {A C} (x : A) (g : A -> script C) W : sbind (run (lift (Ok x))) g W = g x W.
Proof. unfold sbind, run, lift. cbn [effects fold_left]. destruct W. reflexivity. Qed.
Lemma view_ok {A B} (f : st -> res A) (k : A -> script B) W a : f (chain W) = Ok a -> sbind (view f) k W = k a W.
Proof. intros H. unfold sbind, view. rewrite H. reflexivity. Qed.
Lemma lift_view {A B} (x : st -> res A) (k : A -> script B) W : sbind (run (lift (x (chain W)))) k W = sbind (view x) k W.
Proof. unfold sbind, run, lift, view. cbn [effects fold_left]. destruct W. reflexivity. Qed.

(** ** loops *)
Lemma each_inv {A} (f : A -> script unit) (Inv : list A -> world -> Prop) l :
  (forall pre x post W, l = pre ++ x :: post -> Inv pre W -> exists W', f x W = (W', Ok tt) /\ Inv (pre ++ [x]) W') ->
  forall W, Inv [] W -> exists W', each f l W = (W', Ok tt) /\ Inv l W'.
Proof.
  intros H. assert (X : forall post pre W, l = pre ++ post -> Inv pre W -> exists W', each f post W = (W', Ok tt) /\ Inv l W').
  { induction post as [|x post IH]; intros pre W E I.
    - rewrite app_nil_r in E. subst l. exists W. split; [reflexivity|exact I].
    - destruct (H pre x post W E I) as (W1 & E1 & I1). destruct (IH (pre ++ [x]) W1) as (W' & E2 & I2); [rewrite <- app_assoc; exact E|exact I1|].
      exists W'. split; [|exact I2]. cbn [each]. rewrite (sbind_ok _ _ _ _ _ E1). exact E2. }
  intros W I. apply (X l [] W eq_refl I).
Qed.
Lemma collect_ok {A B} (f : A -> script B) (g : A -> B) W : forall l, (forall x, In x l -> f x W = (W, Ok (g x))) -> collect f l W = (W, Ok (map g l)).
Proof.
  induction l as [|x l IH]; intros H; [reflexivity|]. cbn [collect map]. rewrite (sbind_ok _ _ _ _ _ (H x (or_introl eq_refl))).
  rewrite (sbind_ok _ _ _ _ _ (IH (fun y I => H y (or_intror I)))). reflexivity.
Qed.
Lemma heard_app {A} (f : event -> option A) a b : heard f (a ++ b) = match heard f b with Some x => Some x | None => heard f a end.
Proof.
  unfold heard. rewrite fold_left_app. generalize (fold_left (fun o e => match f e with Some a0 => Some a0 | None => o end) a None). clear a.
  assert (G : forall b (o : option A), fold_left (fun o e => match f e with Some a => Some a | None => o end) b o = match fold_left (fun o e => match f e with Some a => Some a | None => o end) b None with Some x => Some x | None => o end).
  { clear b. induction b as [|e b IH]; intros o; [reflexivity|]. cbn [fold_left]. rewrite IH. rewrite (IH (match f e with Some a => Some a | None => None end)).
    destruct (fold_left _ b None); [reflexivity|]. destruct (f e); reflexivity. }
  intros o. apply G.
Qed.
Lemma on_ok {A B} (f : event -> option A) (k : A -> script B) W a : heard f (elog W) = Some a -> on f k W = k a W.
Proof. intros H. unfold on. rewrite H. reflexivity. Qed.

Section Scripts.
  Variable keccak : bytes -> Z.
  Variable pairing : list (G1 * G2c) -> bool.
  Variable poseidon : Fr -> Fr -> Fr.
  Variable J : json.
  Variable lag : list bytes -> Z -> list bytes.
  Variables vkey pkey : Type.
  Variable vk_write : vkey -> bytes.
  Variable vk_read : bytes -> res vkey.
  Variable pk_write : pkey -> bytes.
  Variable pk_read : bytes -> res pkey.
  Variable keygen_vk : kzg -> config -> res vkey.
  Variable keygen_pk : kzg -> vkey -> config -> res pkey.
  Variable get_vk : pkey -> vkey.
  Variable create_proof : kzg -> pkey -> member_params -> list Fr -> Z -> res bytes.
  Variable verify_proof : kzg -> vkey -> bytes -> list Fr -> bool.
  Variable E : env.
  Variables t n d : Z.
  Variable admin : Z.
  Notation cl o := (client keccak pairing poseidon J lag vkey pkey vk_write vk_read pk_write pk_read keygen_vk keygen_pk get_vk create_proof verify_proof o).
  Notation client_ := (Demo.client_ keccak pairing poseidon J lag vkey pkey vk_write vk_read pk_write pk_read keygen_vk keygen_pk get_vk create_proof verify_proof t n d admin).
  Lemma client_me a : cl (Opts t n d a) = client_.
  Proof. reflexivity. Qed.
  Notation register_one_ := (register_one keccak pairing poseidon J lag vkey pkey vk_write vk_read pk_write pk_read keygen_vk keygen_pk get_vk create_proof verify_proof E t n d admin).
  Notation nidkg_one_ := (nidkg_one keccak pairing poseidon J lag vkey pkey vk_write vk_read pk_write pk_read keygen_vk keygen_pk get_vk create_proof verify_proof E t n d admin).
  Notation random_one_ := (random_one keccak pairing poseidon J lag vkey pkey vk_write vk_read pk_write pk_read keygen_vk keygen_pk get_vk create_proof verify_proof E t n d admin).
  Notation admin_random_ := (admin_random keccak pairing poseidon J lag vkey pkey vk_write vk_read pk_write pk_read keygen_vk keygen_pk get_vk create_proof verify_proof E t n d admin).
  Notation node_register_ a i := (node_register keccak pairing poseidon J lag vkey pkey vk_write vk_read pk_write pk_read keygen_vk keygen_pk get_vk create_proof verify_proof (fun _ => to_dec i) (Opts t n d a)).
  Notation node_submit_eval_ a := (node_submit_eval keccak pairing poseidon J lag vkey pkey vk_write vk_read pk_write pk_read keygen_vk keygen_pk get_vk create_proof verify_proof (Opts t n d a)).
  Notation admin_create_random_ := (admin_create_random keccak pairing poseidon J lag vkey pkey vk_write vk_read pk_write pk_read keygen_vk keygen_pk get_vk create_proof verify_proof (Opts t n d admin)).
  Notation admin_create_gpp_ := (admin_create_gpp keccak pairing poseidon J lag vkey pkey vk_write vk_read pk_write pk_read keygen_vk keygen_pk get_vk create_proof verify_proof (Opts t n d admin)).

  Lemma register_eq i a secret W : register_one_ (i, (a, secret)) W = sbind (run (node_register_ a i secret)) (send E a) W.
  Proof.
    unfold register_one, node_register. rewrite run_bind. apply sbind_ext. intros _ W1. rewrite run_bind. apply sbind_ext. intros m W2. rewrite run_lift. reflexivity.
  Qed.
  Definition nidkg_program i coeffs r seed : cmd call :=
    do _ := client_ (Prove i coeffs r seed) in do _ := client_ (Verify i) in do zk := read_file (proof_path i) in
    do inst := load_json (j_strings J) (instance_path i) in lift (let* pp := mapM hex_num inst in Ok (SubmitPublicParams pp zk)).
  Lemma nidkg_eq a i coeffs r seed W : nidkg_one_ ((a, i), (coeffs, r, seed)) W = sbind (run (nidkg_program i coeffs r seed)) (send E a) W.
  Proof.
    unfold nidkg_one, nidkg_program. rewrite run_bind. apply sbind_ext. intros _ W1. rewrite run_bind. apply sbind_ext. intros _ W2. rewrite run_bind. apply sbind_ext. intros zk W3.
    rewrite run_bind. apply sbind_ext. intros inst W4. rewrite run_lift. reflexivity.
  Qed.
  Lemma sbind_run_ext {A B} (m m' : cmd A) (k : A -> script B) W : (forall s, m s = m' s) -> sbind (run m) k W = sbind (run m') k W.
  Proof. intros H. unfold sbind, run. rewrite H. reflexivity. Qed.
  Lemma lift_bind2 {A B} (x : res A) (k : A -> res B) s : lift (let* a := x in k a) s = cbind (lift x) (fun a => lift (k a)) s.
  Proof. unfold cbind, lift. destruct x; reflexivity. Qed.
  Lemma run_lift_bind {A B C} (x : res A) (k : A -> res B) (g : B -> script C) W : sbind (run (lift (let* a := x in k a))) g W = sbind (run (lift x)) (fun a => sbind (run (lift (k a))) g) W.
  Proof. rewrite (sbind_run_ext _ _ _ _ (lift_bind2 x k)). apply run_bind. Qed.
  (** random.ts evaluates the input it was given; the service reads it from the contract *)
  Lemma random_eq input a r W : roundInput (chain W) (currentRoundNum (chain W)) = input ->
    random_one_ input (a, r) W = sbind (run (node_submit_eval_ a (fun _ => chain W) r)) (send E a) W.
  Proof.
    intros <-. unfold random_one, node_submit_eval. rewrite run_bind, (lift_view (fun s => getIndexPlus s a)). apply sbind_ext. intros i W0.
    rewrite run_bind. apply sbind_ext. intros _ W1. rewrite run_bind. apply sbind_ext. intros _ W2. rewrite run_bind. apply sbind_ext. intros e W3.
    rewrite !run_lift_bind. apply sbind_ext. intros v W4. rewrite !run_lift_bind. apply sbind_ext. intros z W5. rewrite !run_lift_bind. apply sbind_ext. intros c W6.
    rewrite !run_ret. reflexivity.
  Qed.
  Lemma admin_random_eq count round input W : roundInput (chain W) round = input -> memberCount (chain W) = count ->
    admin_random_ count (round, input) W = sbind (run (admin_create_random_ (fun _ => chain W) round)) (fun c => sbind (send E admin c) (fun _ => view getLatestRandom)) W.
  Proof.
    intros <- <-. unfold admin_random, admin_create_random. rewrite (view_ok (fun s => Ok (read_evals (fun _ => s) round (memberCount (chain W)))) _ _ _ eq_refl). rewrite run_bind. apply sbind_ext. intros _ W1. rewrite run_bind. apply sbind_ext. intros _ W2.
    rewrite run_bind. apply sbind_ext. intros _ W3. rewrite run_bind. apply sbind_ext. intros p W4.
    rewrite !run_lift_bind. apply sbind_ext. intros v W5. rewrite !run_lift_bind. apply sbind_ext. intros u W6. rewrite !run_ret. reflexivity.
  Qed.
End Scripts.
