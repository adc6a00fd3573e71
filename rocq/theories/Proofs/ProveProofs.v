(** The commands `dkg prove` and `dkg verify`. *)
From Coq Require Import ZArith String List Bool Lia Arith.
From Verif.Base Require Import Fld Fp EC Primes Curves Group Fermat.
From Verif.Model Require Import Monad Evm Strings Points HashEvm Dkg Lib Serialise Files Cache Client.
From Verif.Spec Require Import Dvrf CacheSpec ClientSpec.
From Verif.Proofs Require Import HashProofs OnchainProofs DkgProofs DvrfProofs GppProofs SerialProofs CacheProofs ClientProofs InstanceProofs.
Import ListNotations.
Open Scope Z_scope.

Lemma gk_list_eqb_iff a : forall b, gk_list_eqb a b = true <-> a = b.
Proof.
  induction a as [|x a IH]; intros [|y b]; cbn [gk_list_eqb]; try (split; [discriminate|discriminate]); [split; reflexivity|].
  rewrite andb_true_iff, IH. rewrite (geqb_eq Gk x y). split; [intros [-> ->]; reflexivity|]. intros E. inversion E. auto.
Qed.
Lemma gk_from_xy_iff x y (P : Gk) : gk_from_xy x y = Some P <-> xy P = (x, y).
Proof.
  split; intros H; [exact (xy_from_xy Fr bk x y P H)|]. pose proof (from_xy_xy Fr bk bk_neq0 P) as E. unfold gk_from_xy.
  replace x with (fst (xy P)) by (rewrite H; reflexivity). replace y with (snd (xy P)) by (rewrite H; reflexivity). exact E.
Qed.
Lemma unwrap_ok {A} (o : option A) a : unwrap o = Ok a <-> o = Some a.
Proof. destruct o; cbn; split; congruence. Qed.
Lemma Forall2_seq {B} (R : nat -> B -> Prop) : forall n b l, length l = n -> (forall k x, nth_error l k = Some x -> R (b + k)%nat x) -> Forall2 R (seq b n) l.
Proof.
  induction n as [|n IH]; intros b [|x l] L H; cbn in L; try discriminate; [constructor|]. cbn [seq]. constructor.
  - specialize (H 0%nat x eq_refl). rewrite Nat.add_0_r in H. exact H.
  - apply IH; [lia|]. intros k y E. specialize (H (S k) y E). rewrite Nat.add_succ_r in H. exact H.
Qed.
Lemma Forall2_seq_inv {B} (R : nat -> B -> Prop) : forall n b l, Forall2 R (seq b n) l -> length l = n /\ forall k x, nth_error l k = Some x -> R (b + k)%nat x.
Proof.
  induction n as [|n IH]; intros b l F; cbn [seq] in F; inversion F; subst; [split; [reflexivity|intros [|k] x E; discriminate]|].
  destruct (IH _ _ H3) as [L H]. split; [cbn; lia|]. intros [|k] x E; cbn in E.
  - rewrite Nat.add_0_r. congruence.
  - rewrite Nat.add_succ_r. apply H. exact E.
Qed.
Lemma F2_length {A B} (R : A -> B -> Prop) l l' : Forall2 R l l' -> length l = length l'.
Proof. induction 1; cbn; congruence. Qed.
Lemma mapM_Forall2' {A B} (f : A -> res B) l : forall l', Forall2 (fun a b => f a = Ok b) l l' -> mapM f l = Ok l'.
Proof. induction l as [|a l IH]; intros l' F; inversion F; subst; cbn [mapM]; [reflexivity|]. rewrite H1. cbn [bind]. rewrite (IH _ H3). reflexivity. Qed.
Lemma public_keys_iff cfg inst pks : 0 <= number_of_members cfg -> (public_keys cfg inst = Ok pks <-> names_keys cfg inst pks).
Proof.
  intros N0. unfold public_keys, names_keys, zlen.
  assert (St : forall i pk, (let* x := get inst (5 * number_of_members cfg + 14 + 2 * Z.of_nat i) in
                   let* y := get inst (5 * number_of_members cfg + 14 + 2 * Z.of_nat i + 1) in unwrap (gk_from_xy x y)) = Ok pk <->
     nth_error inst (Z.to_nat (5 * number_of_members cfg + 14 + 2 * Z.of_nat i)) = Some (fst (xy pk)) /\
     nth_error inst (Z.to_nat (5 * number_of_members cfg + 14 + 2 * Z.of_nat i + 1)) = Some (snd (xy pk))).
  { intros i pk. split.
    - intros H. apply bind_ok in H as (x & Hx & H). apply bind_ok in H as (y & Hy & H). apply get_inv in Hx as [_ Hx]. apply get_inv in Hy as [_ Hy].
      apply unwrap_ok in H. apply gk_from_xy_iff in H. rewrite H. cbn [fst snd]. auto.
    - intros [Hx Hy]. assert (Z1 : 0 <= 5 * number_of_members cfg + 14 + 2 * Z.of_nat i) by (clear -N0; lia).
      assert (Z2 : 0 <= 5 * number_of_members cfg + 14 + 2 * Z.of_nat i + 1) by (clear -N0; lia).
      rewrite (get_ok _ _ _ Z1 Hx). cbn [bind]. rewrite (get_ok _ _ _ Z2 Hy). cbn [bind].
      apply unwrap_ok. apply gk_from_xy_iff. destruct (xy pk). reflexivity. }
  split.
  - intros H. apply mapM_inv in H. apply Forall2_seq_inv in H as [L H]. split; [exact (eq_trans (f_equal Z.of_nat L) (Z2Nat.id _ N0))|]. intros k pk E. apply St. exact (H k pk E).
  - intros [L H]. apply mapM_Forall2'. apply Forall2_seq; [exact (eq_trans (eq_sym (Nat2Z.id _)) (f_equal Z.to_nat L))|]. intros k pk E. apply St. exact (H k pk E).
Qed.
Lemma names_keys_fun cfg inst pks pks' : names_keys cfg inst pks -> names_keys cfg inst pks' -> pks = pks'.
Proof.
  intros [L H] [L' H'].
  assert (N : 0 <= number_of_members cfg) by (unfold zlen in L; lia).
  pose proof (proj2 (public_keys_iff cfg inst pks N) (conj L H)) as E. pose proof (proj2 (public_keys_iff cfg inst pks' N) (conj L' H')) as E'. congruence.
Qed.
Lemma names_app cfg (A : list Fr) (pks : list Gk) : zlen pks = number_of_members cfg -> zlen A = 5 * number_of_members cfg + 14 ->
  names_keys cfg (A ++ flat_map (fun pk => [fst (xy pk); snd (xy pk)]) pks) pks.
Proof.
  intros L LA. split; [exact L|]. unfold zlen in *.
  assert (G : forall (l : list Gk) k pk, nth_error l k = Some pk -> nth_error (flat_map (fun pk => [fst (xy pk); snd (xy pk)]) l) (2 * k) = Some (fst (xy pk)) /\
     nth_error (flat_map (fun pk => [fst (xy pk); snd (xy pk)]) l) (2 * k + 1) = Some (snd (xy pk))).
  { induction l as [|a l IH]; intros [|k] pk E; cbn [nth_error] in E; try discriminate.
    - injection E as ->. split; reflexivity.
    - apply IH in E. replace (2 * S k)%nat with (S (S (2 * k))) by lia. cbn [flat_map app nth_error Nat.add]. exact E. }
  intros k pk E. destruct (G _ _ _ E) as [E1 E2]. split.
  - rewrite nth_error_app2 by lia. replace (Z.to_nat (5 * number_of_members cfg + 14 + 2 * Z.of_nat k) - length A)%nat with (2 * k)%nat by lia. exact E1.
  - rewrite nth_error_app2 by lia. replace (Z.to_nat (5 * number_of_members cfg + 14 + 2 * Z.of_nat k + 1) - length A)%nat with (2 * k + 1)%nat by lia. exact E2.
Qed.
(** what `member_params_new` and `instance` put there *)
Lemma instance_names poseidon cfg pks coeffs r mp inst : 1 <= number_of_members cfg -> member_params_new poseidon cfg pks coeffs r = Ok mp ->
  instance_of (mp_public_params mp) (mp_public_keys mp) = Ok inst -> mp_public_keys mp = pks /\ mp_coeffs mp = coeffs /\ names_keys cfg inst pks.
Proof.
  unfold member_params_new. intros N1 H. apply bind_ok in H as (u & A & H). apply assert_ok in A. apply Z.eqb_eq in A.
  apply bind_ok in H as (a0 & _ & H). apply bind_ok in H as (sh & Hsh & H). apply bind_ok in H as (rs & _ & H). apply bind_ok in H as (cs & Hc & H).
  assert (mp = mkMP cfg coeffs sh r pks (mkPP (map (fun s => g1mul g1 s) sh) cs (gkmul gk rs) (g1mul g1 a0) (g2mul g2 a0))) by congruence. subst mp. clear H.
  cbn [mp_public_params mp_public_keys mp_coeffs]. intros I. split; [reflexivity|]. split; [reflexivity|].
  assert (Ls : length sh = Z.to_nat (number_of_members cfg)).
  { unfold shares in Hsh. apply bind_ok in Hsh as (rest & Hr & Hsh). assert (sh = fold_left fadd coeffs (f0 : Fr) :: rest) by congruence. subst sh.
    apply mapM_inv in Hr. apply F2_length in Hr. unfold range2 in Hr. rewrite map_length, seq_length in Hr. cbn [length]. clear -Hr N1. lia. }
  assert (Lc : length cs = Z.to_nat (number_of_members cfg)).
  { apply mapM_inv in Hc. apply F2_length in Hc. rewrite seq_length in Hc. lia. }
  rewrite instance_shares in I by (cbn [public_shares]; rewrite map_length, Ls; unfold zlen in A; lia).
  cbn [ga g2a gr public_shares ciphers] in I.
  assert (E : inst = (point_to_public (g1mul g1 a0) ++ flat_map point_to_public (map (fun s => g1mul g1 s) sh) ++ point2_to_public (g2mul g2 a0) ++
     [fst (xy (gkmul gk rs)); snd (xy (gkmul gk rs))] ++ cs) ++ flat_map (fun pk => [fst (xy pk); snd (xy pk)]) pks).
  { rewrite <- !app_assoc. congruence. }
  rewrite E. apply names_app; [exact A|]. unfold zlen. rewrite !app_length.
  assert (L4 : forall l : list G1, length (flat_map point_to_public l) = (4 * length l)%nat).
  { induction l as [|a l IH]; cbn [flat_map length]; [reflexivity|]. rewrite app_length, IH. change (length (point_to_public a)) with (length (point_to_public a)).
    assert (length (point_to_public a) = 4%nat) by (unfold point_to_public; destruct (xy a); reflexivity). lia. }
  rewrite L4, map_length, Ls, Lc.
  assert (E4 : length (point_to_public (g1mul g1 a0)) = 4%nat) by (unfold point_to_public; destruct (xy (g1mul g1 a0)); reflexivity).
  assert (E8 : length (point2_to_public (g2mul g2 a0)) = 8%nat) by (unfold point2_to_public; destruct (xy (g2mul g2 a0)); reflexivity).
  rewrite E4, E8. cbn [length]. unfold zlen in A. clear -A. lia.
Qed.

(** ** running the two commands *)
Lemma cb_inv {A B} (m : cmd A) (f : A -> cmd B) s w b : cbind m f s = (w, Ok b) ->
  exists w1 a w2, m s = (w1, Ok a) /\ f a (effects s w1) = (w2, Ok b) /\ w = w1 ++ w2.
Proof.
  unfold cbind. destruct (m s) as [w1 [a| |]]; [|discriminate..]. destruct (f a (effects s w1)) as [w2 r] eqn:E. intros H.
  exists w1, a, w2. assert (r = Ok b) by congruence. subst r. split; [reflexivity|]. split; [exact E|congruence].
Qed.
Lemma cb_run {A B} (m : cmd A) (f : A -> cmd B) s w1 a w2 r : m s = (w1, Ok a) -> f a (effects s w1) = (w2, r) -> cbind m f s = (w1 ++ w2, r).
Proof. unfold cbind. intros -> ->. reflexivity. Qed.
Lemma li_inv {A} (x : res A) s w a : lift x s = (w, Ok a) -> w = [] /\ x = Ok a.
Proof. unfold lift. intros H. split; congruence. Qed.
Lemma rd_inv p s w b : read_file p s = (w, Ok b) -> w = [] /\ s p = Some (File b).
Proof. unfold read_file. destruct (s p) as [[t|]|]; intros H; [split; congruence|discriminate..]. Qed.
Lemma rd_run p s b : s p = Some (File b) -> read_file p s = ([], Ok b).
Proof. unfold read_file. intros ->. reflexivity. Qed.
Lemma lj_inv {A} (c : codec A) p s w a : load_json c p s = (w, Ok a) -> w = [] /\ exists t, s p = Some (File t) /\ dec c t = Ok a.
Proof.
  intros H. apply cb_inv in H as (w1 & t & w2 & H1 & H2 & ->). apply rd_inv in H1 as [-> H1]. apply li_inv in H2 as [-> H2]. split; [reflexivity|]. eauto.
Qed.
Lemma lj_run {A} (c : codec A) p s t a : s p = Some (File t) -> dec c t = Ok a -> load_json c p s = ([], Ok a).
Proof. intros H1 H2. apply (cb_run _ _ s [] t [] (Ok a)); [apply rd_run; exact H1|]. unfold lift. rewrite H2. reflexivity. Qed.

Lemma wf_inv p b s w u : write_file p b s = (w, Ok u) -> w = [(p, b)].
Proof. unfold write_file. destruct (s p) as [[|]|]; destruct (s (parent p)) as [[|]|]; intros H; first [discriminate H|congruence]. Qed.

Definition kzg_name (p : path) : Prop := exists name, p = KZG_PARAMS_DIR ++ [47] ++ name.
Definition not_kzg (p : path) : Prop := nth 2 p 0 <> 107.
Lemma kzg_neq p q : kzg_name p -> not_kzg q -> q <> p.
Proof. intros [n ->] N E. apply N. rewrite E. reflexivity. Qed.
Lemma effects_other w : forall s q, Forall (fun x => q <> fst x) w -> effects s w q = s q.
Proof.
  induction w as [|[p b] w IH]; intros s q F; [reflexivity|]. inversion F; subst. cbn [effects fold_left]. fold (effects (set s p (File b)) w).
  rewrite IH by assumption. apply set_other. exact H1.
Qed.

Section Commands.
  Variable poseidon : Fr -> Fr -> Fr.
  Variable J : json.
  Hypothesis HJ : json_ok J.
  Variable lag : list bytes -> Z -> list bytes.
  Hypothesis HL : lagrange_ok lag.
  Variables vkey pkey : Type.
  Variable vk_write : vkey -> bytes.
  Variable vk_read : bytes -> res vkey.
  Variable pk_write : pkey -> bytes.
  Variable pk_read : bytes -> res pkey.
  Variable keygen_vk : kzg -> config -> res vkey.
  Variable keygen_pk : kzg -> vkey -> config -> res pkey.
  Hypothesis HV : serial_ok vk_write vk_read.
  Hypothesis HP : serial_ok pk_write pk_read.
  Variable get_vk : pkey -> vkey.
  (** the proving key contains the verification key it was made from *)
  Hypothesis HG : forall p v cfg k, keygen_pk p v cfg = Ok k -> get_vk k = v.
  Variable create_proof : kzg -> pkey -> member_params -> list Fr -> Z -> res bytes.
  Variable verify_proof : kzg -> vkey -> bytes -> list Fr -> bool.
  Variable srs : kzg.
  Hypothesis HS : kzg_of_degree 22 srs.
  Notation dir := KZG_PARAMS_DIR.
  Notation pfor := (params_for lag srs).
  Notation Inv := (inv lag vkey pkey vk_write pk_write keygen_vk keygen_pk true dir srs).
  Notation Good := (good lag vkey pkey vk_write pk_write keygen_vk keygen_pk true dir srs).
  Notation verify_ := (cmd_verify J lag vkey vk_write vk_read keygen_vk verify_proof).
  Notation prove_ := (cmd_prove poseidon J lag vkey pkey vk_write vk_read pk_write pk_read keygen_vk keygen_pk get_vk create_proof verify_proof).
  Notation load_vk_ := (load_vk vkey vk_read true).
  Notation VkIs := (vk_is lag vkey keygen_vk srs).
  Notation PkIs := (pk_is lag vkey pkey keygen_vk keygen_pk srs).

  Lemma good_name w : Good w -> kzg_name (fst w).
  Proof.
    intros [(d & _ & ->)|[(c & d & v & _ & _ & ->)|(c & d & v & _ & _ & ->)]]; cbn [fst].
    - exists (params_name d). apply params_file_name.
    - exists (key_name true (str "vk") c d). apply key_file_name.
    - exists (key_name true (str "pk") c d). apply key_file_name.
  Qed.
  Lemma good_other w s q : Forall Good w -> not_kzg q -> effects s w q = s q.
  Proof. intros F N. apply effects_other. apply Forall_forall. intros x I. rewrite Forall_forall in F. apply (kzg_neq (fst x) q); [apply good_name, F; exact I|exact N]. Qed.

  Lemma vk_run cfg d v s : Inv s -> range cfg d -> VkIs cfg d v -> (forall m, snd (load_vk_ cfg dir d s) <> Panic m) ->
    exists w, load_or_create_vk vkey vk_write vk_read keygen_vk true cfg dir (pfor d) d s = (w, Ok v) /\ Forall Good w.
  Proof.
    intros I R Hv NP. pose proof (t_load_vk lag vkey pkey vk_write vk_read pk_write keygen_vk keygen_pk true HV dir srs cfg d R s I) as [_ T].
    assert (W0 : fst (load_vk_ cfg dir d s) = []).
    { unfold load_vk, cbind, is_dir, lift, read_file. rewrite (i_dir _ _ _ _ _ _ _ _ _ _ s I). cbn [effects fold_left app]. destruct (s (vk_file true dir cfg d)) as [[b|]|]; reflexivity. }
    unfold load_or_create_vk.
    destruct (load_vk_ cfg dir d s) as [w0 r0] eqn:E. cbn [fst snd] in *. subst w0.
    assert (E1 : is_dir dir s = ([], Ok true)) by (unfold is_dir; rewrite (i_dir _ _ _ _ _ _ _ _ _ _ s I); reflexivity).
    destruct r0 as [v'|m|m]; [|..].
    - exists []. split; [|constructor]. assert (v' = v) by (specialize (T v' eq_refl); unfold vk_is in *; congruence). subst v'.
      apply (cb_run _ _ s [] true [] (Ok v) E1). apply (cb_run _ _ _ [] tt [] (Ok v)); [reflexivity|].
      apply (cb_run _ _ _ [] (Some v) [] (Ok v)); [unfold try_ok; cbn [effects fold_left]; rewrite E; reflexivity|reflexivity].
    - exists [(vk_file true dir cfg d, vk_write v)]. split; [|constructor; [right; left; exists cfg, d, v; auto|constructor]].
      apply (cb_run _ _ s [] true _ (Ok v) E1). apply (cb_run _ _ _ [] tt _ (Ok v)); [reflexivity|].
      apply (cb_run _ _ _ [] None _ (Ok v)); [unfold try_ok; cbn [effects fold_left]; rewrite E; reflexivity|].
      apply (cb_run _ _ _ [] v _ (Ok v)); [unfold lift; rewrite Hv; reflexivity|].
      apply (cb_run _ _ _ [(vk_file true dir cfg d, vk_write v)] tt [] (Ok v)); [|reflexivity].
      cbn [effects fold_left]. unfold write_file. destruct R as (D & Tt & N).
      assert (PD : parent (vk_file true dir cfg d) = dir).
      { unfold vk_file. rewrite key_file_name. apply parent_of, key_name_ok; [cbn; intuition lia|lia|lia|lia]. }
      rewrite PD, (i_dir _ _ _ _ _ _ _ _ _ _ s I).
      destruct (i_vk _ _ _ _ _ _ _ _ _ _ s I cfg d (conj D (conj Tt N))) as [->|(v' & j & _ & ->)]; reflexivity.
    - destruct (NP m eq_refl).
  Qed.

  (** a run of `dkg verify` that succeeds *)
  Lemma verify_inv cfg d i s w : Inv s -> range cfg d -> verify_ cfg d i s = (w, Ok tt) ->
    1 <= i <= number_of_members cfg /\ Forall Good w /\
    exists proof inst mpks v, s (proof_path i) = Some (File proof) /\ instance_file J s i inst /\ mpks_file J s mpks /\
      public_keys cfg inst = Ok mpks /\ VkIs cfg d v /\ verify_proof (pfor d) v proof inst = true.
  Proof.
    intros I R H. pose proof R as R'. destruct R' as (D & _ & _). unfold cmd_verify in H.
    apply cb_inv in H as (w1 & u & w2 & H1 & H & ->). unfold check_index in H1. apply li_inv in H1 as [-> H1]. cbn [app effects fold_left] in *.
    assert (Hi : 1 <= i <= number_of_members cfg).
    { destruct ((i <? 1) || (number_of_members cfg <? i)) eqn:B; [discriminate|]. apply orb_false_elim in B as [B1 B2]. apply Z.ltb_ge in B1, B2. lia. }
    apply cb_inv in H as (w1 & proof & w3 & H2 & H & ->). apply rd_inv in H2 as [-> H2]. cbn [app effects fold_left] in *.
    apply cb_inv in H as (w1 & ib & w4 & H3 & H & ->). apply lj_inv in H3 as (-> & t3 & H3 & H3'). cbn [app effects fold_left] in *.
    apply cb_inv in H as (w1 & inst & w5 & H4 & H & ->). apply li_inv in H4 as [-> H4]. cbn [app effects fold_left] in *.
    apply cb_inv in H as (w1 & mb & w6 & H5 & H & ->). apply lj_inv in H5 as (-> & t5 & H5 & H5'). cbn [app effects fold_left] in *.
    apply cb_inv in H as (w1 & mpks & w7 & H6 & H & ->). apply li_inv in H6 as [-> H6]. cbn [app effects fold_left] in *.
    apply cb_inv in H as (w1 & pks & w8 & H7 & H & ->). apply li_inv in H7 as [-> H7]. cbn [app effects fold_left] in *.
    apply cb_inv in H as (w1 & [] & w9 & H8 & H & ->). apply li_inv in H8 as [-> H8]. cbn [app effects fold_left] in *.
    assert (Eq : pks = mpks). { destruct (gk_list_eqb pks mpks) eqn:B; [apply gk_list_eqb_iff; exact B|discriminate]. } subst pks.
    apply cb_inv in H as (w1 & params & w10 & H9 & H & ->).
    destruct (t_params lag HL vkey pkey vk_write pk_write keygen_vk keygen_pk true dir srs HS d D s I) as [F9 T9].
    rewrite H9 in F9, T9. cbn [fst snd] in F9, T9. specialize (T9 params eq_refl). subst params.
    pose proof (inv_effects lag vkey pkey vk_write pk_write keygen_vk keygen_pk true dir srs w1 F9 s I) as I1.
    apply cb_inv in H as (w11 & v & w12 & H10 & H & ->).
    destruct (t_vk lag vkey pkey vk_write vk_read pk_write keygen_vk keygen_pk true HV dir srs cfg d R _ I1) as [F10 T10].
    rewrite H10 in F10, T10. cbn [fst snd] in F10, T10. specialize (T10 v eq_refl).
    apply li_inv in H as [-> H].
    split; [exact Hi|]. split; [apply Forall_app; split; [exact F9|apply Forall_app; split; [exact F10|constructor]]|].
    exists proof, inst, mpks, v. split; [exact H2|]. split; [exists t3, ib; auto|]. split; [exists t5, mb; auto|]. split; [exact H7|]. split; [exact T10|].
    unfold verify_single in H. apply assert_ok in H. exact H.
  Qed.
  (** all writes of `dkg verify`, successful or not, are in the parameter directory *)
  Lemma verify_writes cfg d i s : Inv s -> range cfg d -> Forall Good (fst (verify_ cfg d i s)).
  Proof.
    intros I R. pose proof R as (D & _ & _).
    assert (T : triple lag vkey pkey vk_write pk_write keygen_vk keygen_pk true dir srs (verify_ cfg d i) (fun _ => True)).
    { unfold cmd_verify.
      apply t_bind with (P := fun _ => True); [apply t_true; reflexivity|intros _ _].
      apply t_bind with (P := fun _ => True); [apply t_true; reflexivity|intros proof _].
      assert (TL : forall A (c : codec A) p, triple lag vkey pkey vk_write pk_write keygen_vk keygen_pk true dir srs (load_json c p) (fun _ => True)).
      { intros A c p. apply t_bind with (P := fun _ => True); [apply t_true; reflexivity|intros ? _]. apply t_true. reflexivity. }
      apply t_bind with (P := fun _ => True); [apply TL|intros ib _].
      apply t_bind with (P := fun _ => True); [apply t_true; reflexivity|intros inst _].
      apply t_bind with (P := fun _ => True); [apply TL|intros mb _].
      apply t_bind with (P := fun _ => True); [apply t_true; reflexivity|intros mpks _].
      apply t_bind with (P := fun _ => True); [apply t_true; reflexivity|intros pks _].
      apply t_bind with (P := fun _ => True); [apply t_true; reflexivity|intros _ _].
      apply t_bind with (P := fun p => p = pfor d); [apply t_params; assumption|intros p ->].
      apply t_bind with (P := VkIs cfg d); [apply t_vk; assumption|intros v _]. apply t_true. reflexivity. }
    exact (proj1 (T s I)).
  Qed.
  Lemma verify_run cfg d i s proof inst mpks v : Inv s -> range cfg d -> 1 <= i <= number_of_members cfg ->
    s (proof_path i) = Some (File proof) -> instance_file J s i inst -> mpks_file J s mpks -> public_keys cfg inst = Ok mpks ->
    VkIs cfg d v -> verify_proof (pfor d) v proof inst = true -> (forall m, snd (load_vk_ cfg dir d s) <> Panic m) ->
    snd (verify_ cfg d i s) = Ok tt.
  Proof.
    intros I R Hi H2 (t3 & ib & H3 & H3' & H4) (t5 & mb & H5 & H5' & H6) H7 Hv Hp NP. pose proof R as (D & Tt & Nn).
    destruct (params_ok lag HL vkey pkey vk_write pk_write keygen_vk keygen_pk true dir srs HS s d I D) as (w1 & E1 & F1).
    pose proof (inv_effects lag vkey pkey vk_write pk_write keygen_vk keygen_pk true dir srs w1 F1 s I) as I1.
    (* the parameters written are not the key file *)
    assert (NP1 : forall m, snd (load_vk_ cfg dir d (effects s w1)) <> Panic m).
    { intros m X. apply (NP m). rewrite <- X. unfold load_vk, cbind, is_dir, lift, read_file.
      rewrite (i_dir _ _ _ _ _ _ _ _ _ _ s I), (i_dir _ _ _ _ _ _ _ _ _ _ _ I1). cbn [effects fold_left app]. fold (effects s w1).
      assert (K : effects s w1 (vk_file true dir cfg d) = s (vk_file true dir cfg d)); [|rewrite K; reflexivity].
      apply effects_other. apply Forall_forall. intros x Ix.
      (* the writes of load_or_create_params are parameter files *)
      assert (PF : exists d', fst x = params_file dir d').
      { clear -E1 Ix. unfold load_or_create_params in E1. apply cb_inv in E1 as (a1 & o & a2 & A1 & A2 & ->).
        assert (L0 : forall p dd ss, fst (load_params p dd ss) = []).
        { intros p dd ss. unfold load_params, cbind, is_dir, read_file, lift. destruct (ss p) as [[|]|] eqn:E; cbn [effects fold_left app fst]; try reflexivity.
          - rewrite E. reflexivity.
          - destruct (ss (params_file p dd)) as [[|]|]; reflexivity. }
        assert (T0 : forall p dd ss, fst (try_ok (load_params p dd) ss) = []).
        { intros p dd ss. unfold try_ok. pose proof (L0 p dd ss) as L. destruct (load_params p dd ss). exact L. }
        pose proof (T0 (params_file dir d) d s) as Z. rewrite A1 in Z. cbn [fst] in Z. subst a1. cbn [app] in Ix. destruct o as [p|].
        - unfold cret in A2. assert (a2 = []) by congruence. subst a2. destruct Ix.
        - apply cb_inv in A2 as (b1 & o' & b2 & B1 & B2 & ->). pose proof (T0 (params_file dir MAX_DEGREE) MAX_DEGREE (effects s [])) as Z. rewrite B1 in Z. cbn [fst] in Z. subst b1. cbn [app] in Ix.
          destruct o' as [p|]; [|discriminate B2]. destruct (d <? MAX_DEGREE).
          + apply cb_inv in B2 as (c1 & p' & c2 & C1 & C2 & ->). apply li_inv in C1 as [-> _]. cbn [app] in Ix.
            apply cb_inv in C2 as (e1 & u & e2 & G1' & G2' & ->). unfold cret in G2'. assert (e2 = []) by congruence. subst e2. rewrite app_nil_r in Ix.
            apply wf_inv in G1'. subst e1. destruct Ix as [<-|[]]; exists d; reflexivity.
          + unfold cret in B2. assert (b2 = []) by congruence. subst b2. destruct Ix. }
      destruct PF as [d' ->]. intros X'. symmetry in X'. revert X'. unfold vk_file. rewrite params_file_name, key_file_name. intros X'. apply in_dir_inj in X'. revert X'. apply params_not_key. left. reflexivity. }
    destruct (vk_run cfg d v (effects s w1) I1 R Hv NP1) as (w2 & E2 & F2).
    assert (E : verify_ cfg d i s = (w1 ++ w2 ++ [], Ok tt)).
    { unfold cmd_verify.
      apply (cb_run _ _ s [] tt (w1 ++ w2 ++ [])).
      { unfold check_index, lift. destruct ((i <? 1) || (number_of_members cfg <? i)) eqn:B; [|reflexivity]. apply orb_prop in B as [B|B]; apply Z.ltb_lt in B; lia. }
      apply (cb_run _ _ s [] proof (w1 ++ w2 ++ [])); [apply rd_run; exact H2|].
      apply (cb_run _ _ s [] ib (w1 ++ w2 ++ [])); [apply (lj_run _ _ _ t3); assumption|].
      apply (cb_run _ _ s [] inst (w1 ++ w2 ++ [])); [unfold lift; rewrite H4; reflexivity|].
      apply (cb_run _ _ s [] mb (w1 ++ w2 ++ [])); [apply (lj_run _ _ _ t5); assumption|].
      apply (cb_run _ _ s [] mpks (w1 ++ w2 ++ [])); [unfold lift; rewrite H6; reflexivity|].
      apply (cb_run _ _ s [] mpks (w1 ++ w2 ++ [])); [unfold lift; rewrite H7; reflexivity|].
      apply (cb_run _ _ s [] tt (w1 ++ w2 ++ [])); [unfold lift; rewrite (proj2 (gk_list_eqb_iff mpks mpks) eq_refl); reflexivity|].
      apply (cb_run _ _ s w1 (pfor d) (w2 ++ [])); [exact E1|].
      apply (cb_run _ _ _ w2 v []); [exact E2|]. unfold lift, verify_single. rewrite Hp. reflexivity. }
    rewrite E. reflexivity.
  Qed.

  (** a run of `dkg prove` that succeeds *)
  Lemma prove_inv cfg d i coeffs r seed s w : Inv s -> range cfg d -> 1 <= number_of_members cfg -> prove_ cfg d i coeffs r seed s = (w, Ok tt) ->
    1 <= i <= number_of_members cfg /\
    exists mpks mp inst proof v w0, mpks_file J s mpks /\ member_params_new poseidon cfg mpks coeffs r = Ok mp /\
      instance_of (mp_public_params mp) mpks = Ok inst /\ public_keys cfg inst = Ok mpks /\
      VkIs cfg d v /\ verify_proof (pfor d) v proof inst = true /\ Forall Good w0 /\
      w = w0 ++ [(proof_path i, proof); (instance_path i, enc (j_strings J) (map write_fr inst))] /\ Inv (effects s w0).
  Proof.
    intros I R N1 H. pose proof R as R'. destruct R' as (D & _ & _). unfold cmd_prove in H.
    apply cb_inv in H as (w1 & u & w2 & H1 & H & ->). unfold check_index in H1. apply li_inv in H1 as [-> H1]. cbn [app effects fold_left] in *.
    assert (Hi : 1 <= i <= number_of_members cfg).
    { destruct ((i <? 1) || (number_of_members cfg <? i)) eqn:B; [discriminate|]. apply orb_false_elim in B as [B1 B2]. apply Z.ltb_ge in B1, B2. lia. }
    split; [exact Hi|].
    apply cb_inv in H as (w1 & mb & w3 & H2 & H & ->). apply lj_inv in H2 as (-> & t2 & H2 & H2'). cbn [app effects fold_left] in *.
    apply cb_inv in H as (w1 & mpks & w4 & H3 & H & ->). apply li_inv in H3 as [-> H3]. cbn [app effects fold_left] in *.
    apply cb_inv in H as (w1 & mp & w5 & H4 & H & ->). apply li_inv in H4 as [-> H4]. cbn [app effects fold_left] in *.
    apply cb_inv in H as (w1 & inst & w6 & H5 & H & ->). apply li_inv in H5 as [-> H5]. cbn [app effects fold_left] in *.
    destruct (instance_names poseidon cfg mpks coeffs r mp inst N1 H4 H5) as (Ek & _ & Nk).
    apply cb_inv in H as (w1 & params & w7 & H6 & H & ->).
    destruct (t_params lag HL vkey pkey vk_write pk_write keygen_vk keygen_pk true dir srs HS d D s I) as [F6 T6].
    rewrite H6 in F6, T6. cbn [fst snd] in F6, T6. specialize (T6 params eq_refl). subst params.
    pose proof (inv_effects lag vkey pkey vk_write pk_write keygen_vk keygen_pk true dir srs w1 F6 s I) as I1.
    apply cb_inv in H as (w8 & k & w9 & H7 & H & ->).
    destruct (t_pk lag vkey pkey vk_write vk_read pk_write pk_read keygen_vk keygen_pk true HV HP dir srs cfg d R _ I1) as [F7 T7].
    rewrite H7 in F7, T7. cbn [fst snd] in F7, T7. destruct (T7 k eq_refl) as (v & Hv & Hk).
    pose proof (inv_effects lag vkey pkey vk_write pk_write keygen_vk keygen_pk true dir srs w8 F7 _ I1) as I2.
    apply cb_inv in H as (w10 & proof & w11 & H8 & H & ->). apply li_inv in H8 as [-> H8]. cbn [app effects fold_left] in H.
    unfold create_proof_checked in H8. apply bind_ok in H8 as (pr & _ & H8). apply bind_ok in H8 as ([] & H8 & H8'). assert (pr = proof) by congruence. subst pr.
    unfold verify_single in H8. apply assert_ok in H8. rewrite (HG _ _ _ _ Hk) in H8.
    exists mpks, mp, inst, proof, v, (w1 ++ w8). rewrite Ek in H5.
    split; [exists t2, mb; auto|]. split; [exact H4|]. split; [exact H5|]. split; [apply public_keys_iff; [lia|exact Nk]|]. split; [exact Hv|]. split; [exact H8|].
    split; [apply Forall_app; auto|]. split; [|rewrite effects_app; exact I2].
    unfold save_proof in H. apply cb_inv in H as (w12 & [] & w13 & H9 & H & ->).
    apply wf_inv in H9.
    apply save_cases in H as [(-> & _)|[_ X]]; [|destruct (X tt eq_refl)]. rewrite H9. cbn [app]. rewrite <- app_assoc. reflexivity.
  Qed.
End Commands.
