(** Where the programs of a running node write, and what a trace determines. *)
From Coq Require Import ZArith String List Bool Lia.
From Verif.Base Require Import Fld Fp EC Primes Curves Group.
From Verif.Model Require Import Monad Evm Strings Points HashEvm Dkg Lib Serialise Files Cache Client Zkdvrf Services ServiceRun.
From Verif.Spec Require Import Histories Serial CacheSpec ClientSpec ServiceSpec.
From Verif.Proofs Require Import ZkdvrfStep ZkdvrfInv1 ZkdvrfInv2 ZkdvrfInv3 SerialProofs CacheProofs ClientProofs.
Import ListNotations.
Open Scope Z_scope.

(** paths that no member file has: the member files are in ./data/members *)
Definition elsewhere (p : path) : Prop := nth 8 p 0 <> 101.
Lemma member_8 f : nth 8 (member_path f) 0 = 101. Proof. reflexivity. Qed.
(** whatever happens, the program writes only elsewhere *)
Definition clear {A} (m : cmd A) : Prop := forall s, Forall (fun x => elsewhere (fst x)) (fst (m s)).
Lemma clear_ret {A} (a : A) : clear (cret a). Proof. intros s. constructor. Qed.
Lemma clear_lift {A} (r : res A) : clear (lift r). Proof. intros s. constructor. Qed.
Lemma clear_read p : clear (read_file p). Proof. intros s. constructor. Qed.
Lemma clear_isdir p : clear (is_dir p). Proof. intros s. constructor. Qed.
Lemma clear_write p b : elsewhere p -> clear (write_file p b).
Proof. intros H s. unfold write_file. destruct (s p) as [[]|], (s (parent p)) as [[]|]; cbn [fst]; repeat constructor; exact H. Qed.
Lemma clear_bind {A B} (m : cmd A) (k : A -> cmd B) : clear m -> (forall a, clear (k a)) -> clear (cbind m k).
Proof.
  intros Hm Hk s. unfold cbind. specialize (Hm s). destruct (m s) as [w [a| |]]; cbn [fst] in *; try exact Hm.
  specialize (Hk a (effects s w)). destruct (k a (effects s w)) as [w' r']. cbn [fst] in *. apply Forall_app. split; assumption.
Qed.
Lemma clear_try {A} (m : cmd A) : clear m -> clear (try_ok m).
Proof. intros Hm s. unfold try_ok. specialize (Hm s). destruct (m s) as [w [a| |]]; exact Hm. Qed.
Lemma clear_load {A} (c : codec A) p : clear (load_json c p).
Proof. apply clear_bind; [apply clear_read|]. intros. apply clear_lift. Qed.
Lemma clear_if {A} (b : bool) (m n : cmd A) : clear m -> clear n -> clear (if b then m else n). Proof. destruct b; auto. Qed.
Ltac clear1 := lazymatch goal with
  | |- clear (cret _) => apply clear_ret
  | |- clear (lift _) => apply clear_lift
  | |- clear (read_file _) => apply clear_read
  | |- clear (is_dir _) => apply clear_isdir
  | |- clear (load_json _ _) => apply clear_load
  | |- clear (write_file _ _) => apply clear_write; unfold elsewhere; vm_compute; discriminate
  | |- clear (cbind _ _) => apply clear_bind; [|intros ?]
  | |- clear (try_ok _) => apply clear_try
  | |- clear (if _ then _ else _) => apply clear_if
  end.

Section Client.
  Variable keccak : bytes -> Z.
  Variable pairing : list (G1 * G2c) -> bool.
  Variable poseidon : Fr -> Fr -> Fr.
  Variable J : json.
  Variable lag : list bytes -> Z -> list bytes.
  Variables vkey pkey : Type.
  Variable vk_write : vkey -> bytes.
  Variable vk_read : bytes -> res vkey.
  Variable pk_write : pkey -> bytes.
  Variable pk_read : bytes -> res pkey.
  Variable keygen_vk : kzg -> config -> res vkey.
  Variable keygen_pk : kzg -> vkey -> config -> res pkey.
  Variable get_vk : pkey -> vkey.
  Variable create_proof : kzg -> pkey -> member_params -> list Fr -> Z -> res bytes.
  Variable verify_proof : kzg -> vkey -> bytes -> list Fr -> bool.
  Variable addr_text : Z -> bytes.
  Variable o : options.
  Notation run_ := (run_command keccak pairing poseidon J lag vkey pkey vk_write vk_read pk_write pk_read keygen_vk keygen_pk get_vk create_proof verify_proof).
  Notation client_ := (client keccak pairing poseidon J lag vkey pkey vk_write vk_read pk_write pk_read keygen_vk keygen_pk get_vk create_proof verify_proof o).
  Notation iterate_ := (iterate keccak pairing poseidon J lag vkey pkey vk_write vk_read pk_write pk_read keygen_vk keygen_pk get_vk create_proof verify_proof addr_text o).

  Lemma kzg_else n : elsewhere (KZG_PARAMS_DIR ++ n).
  Proof. unfold elsewhere. change (nth 8 (KZG_PARAMS_DIR ++ n) 0) with 114. discriminate. Qed.
  Lemma clear_params degree : clear (load_or_create_params lag KZG_PARAMS_DIR degree).
  Proof.
    unfold load_or_create_params.
    assert (L : forall f d, clear (load_params f d)) by (intros; unfold load_params; repeat clear1).
    apply clear_bind; [apply clear_try, L|]. intros [p|]; [apply clear_ret|].
    apply clear_bind; [apply clear_try, L|]. intros [p|]; [|apply clear_lift].
    apply clear_if; [|apply clear_ret]. apply clear_bind; [apply clear_lift|]. intros p'. apply clear_bind; [|intros; apply clear_ret]. apply clear_write. apply kzg_else.
  Qed.
  Lemma clear_vk g cfg params degree : clear (load_or_create_vk vkey vk_write vk_read keygen_vk g cfg KZG_PARAMS_DIR params degree).
  Proof.
    assert (L : clear (load_vk vkey vk_read g cfg KZG_PARAMS_DIR degree)) by (unfold load_vk; repeat clear1).
    unfold load_or_create_vk. apply clear_bind; [apply clear_isdir|intros dd]. apply clear_bind; [apply clear_lift|intros _]. apply clear_bind; [apply clear_try, L|]. intros [k0|]; [apply clear_ret|].
      apply clear_bind; [apply clear_lift|]. intros k. apply clear_bind; [|intros; apply clear_ret]. apply clear_write. apply kzg_else.
  Qed.
  Lemma clear_pk g cfg params degree : clear (load_or_create_pk vkey pkey vk_write vk_read pk_write pk_read keygen_vk keygen_pk g cfg KZG_PARAMS_DIR params degree).
  Proof.
    assert (L : clear (load_pk pkey pk_read g cfg KZG_PARAMS_DIR degree)) by (unfold load_pk; repeat clear1).
    unfold load_or_create_pk. apply clear_bind; [apply clear_isdir|intros dd]. apply clear_bind; [apply clear_lift|intros _]. apply clear_bind; [apply clear_try, L|]. intros [k0|]; [apply clear_ret|].
      apply clear_bind; [apply clear_vk|]. intros vk. apply clear_bind; [apply clear_lift|]. intros k. apply clear_bind; [|intros; apply clear_ret]. apply clear_write. apply kzg_else.
  Qed.
  (** the commands the loop gives to the client after the registration *)
  Definition not_keygen (cm : command) : Prop :=
    match cm with Prove _ _ _ _ | Verify _ | Derive _ _ | Eval _ _ _ | RandVerify _ _ => True | _ => False end.
  Ltac cw := lazymatch goal with
    | |- clear (load_or_create_params _ _ _) => apply clear_params
    | |- clear (load_or_create_vk _ _ _ _ _ _ _ _ _) => apply clear_vk
    | |- clear (load_or_create_pk _ _ _ _ _ _ _ _ _ _ _ _ _) => apply clear_pk
    | _ => clear1 end.
  Lemma clear_command cfg degree cm : not_keygen cm -> clear (run_ cfg degree cm).
  Proof.
    destruct cm as [| | | |i coeffs r seed|i|i f|i input r|i input| |]; cbn [not_keygen]; try contradiction; intros _; cbn [run_command].
    - unfold cmd_prove, check_index, save_proof, save_json. repeat cw.
    - unfold cmd_verify, check_index. repeat cw.
    - unfold cmd_derive, save_gpp, save_share, save_json, file_path, check_index. repeat cw. destruct i; repeat cw.
    - unfold cmd_eval, save_json, check_index. repeat cw.
    - unfold cmd_rand_verify, check_index. repeat cw.
  Qed.
  Lemma clear_main env cm : not_keygen cm -> clear (main keccak pairing poseidon J lag vkey pkey vk_write vk_read pk_write pk_read keygen_vk keygen_pk get_vk create_proof verify_proof env cm).
  Proof. intros H. unfold main. repeat first [apply clear_command, H | clear1 | match goal with |- clear (match ?x with _ => _ end) => destruct x end]. Qed.
  Lemma clear_client cm : not_keygen cm -> clear (client_ cm). Proof. apply clear_main. Qed.
  Lemma clear_js {A} (c : codec A) p a : elsewhere p -> clear (js_write c p a).
  Proof. intros H s. unfold js_write. cbn [fst]. apply (clear_write p (enc c a) H s). Qed.
  Lemma clear_iterate thr d ch : node_poll o thr ch <> NRegister -> clear (iterate_ thr d ch).
  Proof.
    unfold iterate. destruct (node_poll o thr ch) as [| | |dv]; intros N; [apply clear_ret|congruence| |].
    - unfold node_submit_pp. repeat first [ apply clear_js; unfold elsewhere; vm_compute; discriminate | apply clear_client; exact I | clear1 ].
    - unfold node_derive, node_submit_eval. repeat first [ apply clear_js; unfold elsewhere; vm_compute; discriminate | apply clear_client; exact I | clear1 ].
  Qed.
End Client.

Lemma effects_other w : forall s p, ~ In p (map fst w) -> effects s w p = s p.
Proof.
  induction w as [|[q b] w IH]; intros s p N; [reflexivity|]. cbn [effects fold_left]. change (fold_left _ w ?x) with (effects x w). cbn [map In fst] in N.
  rewrite IH by tauto. apply set_other. intros X. apply N. left. congruence.
Qed.
Lemma clear_effects w s f : Forall (fun x => elsewhere (fst x)) w -> effects s w (member_path f) = s (member_path f).
Proof.
  intros H. apply effects_other. intros I. apply in_map_iff in I as ([q b] & X & I). rewrite Forall_forall in H. specialize (H _ I). cbn [fst] in *. subst q. apply H. apply member_8.
Qed.
Lemma clear_crashed w s s' f : Forall (fun x => elsewhere (fst x)) w -> crashed s w s' -> s' (member_path f) = s (member_path f).
Proof.
  intros H [[k ->]|(w1 & p & b & w2 & j & -> & ->)]; apply clear_effects.
  - revert k. induction H as [|x l Hx Hl IH]; intros [|k]; cbn [firstn]; constructor; auto.
  - apply Forall_app in H as [H1 H2]. inversion H2. subst. apply Forall_app. split; [exact H1|]. constructor; [assumption|constructor].
Qed.
