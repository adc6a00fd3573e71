(** C01-C11, C14, C18: the off-chain distributed VRF (src/dkg.rs, src/lib.rs).
    Ranges over every keccak and Poseidon function, every pairing check satisfying [pairing_ok] (one exists), every
    valid configuration, all keys, dealers' coefficients, randomness, nonces, messages and subsets of members. *)
From Coq Require Import ZArith String List Bool Lia Permutation.
From Verif.Base Require Import Fld Fp EC Primes Curves Group Fermat Poly.
From Verif.Model Require Import Monad Evm Points HashEvm Dkg Lib.
From Verif.Spec Require Import Dvrf.
From Verif.Proofs Require Import HashProofs DkgProofs DvrfProofs PairingExists.
Import ListNotations.
Open Scope Z_scope.

(** what an honest DKG is: a configuration accepted by [DkgConfig::new], a key pair per member, at least one dealer, every
    dealer with as many coefficients as the threshold *)
Record honest (cfg : config) (members : list member_key) (dealers : list (list Fr * Fr)) : Prop := {
  h_cfg : exists t n, is_usize t = true /\ is_usize n = true /\ config_new t n = Ok cfg;
  h_members : zlen members = number_of_members cfg;
  h_keys : Forall key_pair members;
  h_dealers : dealers <> [];
  h_coeffs : Forall (fun d => zlen (fst d) = threshold cfg) dealers
}.
(** the members who evaluate: threshold many, listed in increasing order, all in 1..n *)
Definition quorum (cfg : config) (idxs : list Z) : Prop :=
  zlen idxs = threshold cfg /\ increasing idxs /\ Forall (fun i => 1 <= i <= number_of_members cfg) idxs.

(** ** C11 *)
Theorem C11_config_rejects t n : ~ (0 < t <= n) -> config_new t n = Err (InvalidParams t n).
Proof. intros H. unfold config_new. destruct (Z.ltb_spec 0 t), (Z.leb_spec t n); cbn [andb]; auto. lia. Qed.
Theorem C11_config_iff t n cfg : config_new t n = Ok cfg <-> 0 < t <= n /\ threshold cfg = t /\ number_of_members cfg = n.
Proof.
  unfold config_new. destruct (Z.ltb_spec 0 t), (Z.leb_spec t n); cbn [andb]; split.
  1: injection 1 as <-; cbn; lia. 1: destruct cfg; cbn; intros (? & -> & ->); auto.
  all: try discriminate; try lia.
Qed.
Lemma cfg_facts cfg members dealers : honest cfg members dealers ->
  0 < threshold cfg /\ threshold cfg <= number_of_members cfg /\ number_of_members cfg < M64.
Proof.
  intros [(t & n & _ & Hn & E) _ _ _ _]. apply C11_config_iff in E as (? & <- & <-).
  apply andb_prop in Hn as [_ Hn]. apply Z.ltb_lt in Hn. lia.
Qed.
Lemma Forall2_len {A B} (R : A -> B -> Prop) l l' : Forall2 R l l' -> length l = length l'.
Proof. induction 1; cbn; auto. Qed.
Arguments Forall2_len {A B R l l'}.
Lemma point_to_public_len P : length (point_to_public P) = 4%nat.
Proof. reflexivity. Qed.
Lemma point2_to_public_len P : length (point2_to_public P) = 8%nat.
Proof. unfold point2_to_public. destruct (xy P) as [x y]. reflexivity. Qed.
Lemma concat_len {A} (l : list (list A)) k : Forall (fun x => length x = k) l -> length (concat l) = (k * length l)%nat.
Proof. induction 1; cbn [concat length]; [lia|]. rewrite app_length. lia. Qed.
Lemma flat_len {A B} (f g : A -> B) l : length (flat_map (fun a => [f a; g a]) l) = (2 * length l)%nat.
Proof. induction l; cbn [flat_map length app]; auto. rewrite IHl. lia. Qed.
Theorem C11_instance_size cfg pp pks inst : zlen pks = number_of_members cfg -> length (ciphers pp) = length pks ->
  instance_of pp pks = Ok inst -> zlen inst = instance_size cfg /\ instance_size cfg = 7 * number_of_members cfg + 14.
Proof.
  intros HL Hc H. unfold instance_of in H. destruct (mapM _ _) as [gs| |] eqn:E; try discriminate. cbn [bind] in H.
  apply mapM_inv in E. assert (Hg : length gs = length pks) by (rewrite <- (Forall2_len E), seq_length; auto).
  assert (F : Forall (fun x => length x = 4%nat) gs).
  { apply Forall_forall. intros x Hx. apply (In_nth _ _ []) in Hx as (k & Hk & <-). clear -E Hk.
    revert k Hk. induction E as [|a b la lb Hab _ IH]; cbn [length nth]; [lia|]. intros [|k] Hk; [|apply IH; lia].
    destruct (get _ _); try discriminate. cbn [bind] in Hab. injection Hab as <-. apply point_to_public_len. }
  assert (X : inst = point_to_public (ga pp) ++ concat gs ++ point2_to_public (g2a pp) ++ [fst (xy (gr pp)); snd (xy (gr pp))] ++ ciphers pp
      ++ flat_map (fun pk => [fst (xy pk); snd (xy pk)]) pks) by congruence. subst inst.
  unfold zlen, instance_size in *. rewrite !app_length, point_to_public_len, point2_to_public_len, (concat_len gs 4 F), Hc, flat_len, Hg. cbn [length]. clear -HL. change (@length (EC Fr bk) pks) with (@length Gk pks). lia.
Qed.
(** the parameters a member builds always have an instance of that size *)
Theorem C11_member_instance poseidon cfg pks coeffs r : 0 < number_of_members cfg -> zlen pks = number_of_members cfg -> coeffs <> [] ->
  exists mp inst, member_params_new poseidon cfg pks coeffs r = Ok mp /\ instance_of (mp_public_params mp) pks = Ok inst /\ zlen inst = instance_size cfg.
Proof.
  intros Hn HL Hc. rewrite member_params_new_ok by (auto; lia).
  match goal with |- exists _ _, Ok ?x = _ /\ _ => exists x; set (pp := mp_public_params x) end. cbn [mp_public_params] in pp.
  assert (E : exists inst, instance_of pp pks = Ok inst).
  { unfold instance_of. erewrite (mapM_ok _ (fun i => point_to_public (g1mul g1 (peval coeffs (fr (Z.of_nat i + 1)))))).
    - cbn [bind]. eexists. reflexivity.
    - intros i Hi. apply in_seq in Hi. cbn [public_shares pp]. rewrite get_map.
      replace (Z.of_nat i) with (Z.of_nat i + 1 - 1) at 1 by lia. rewrite get_zseq by lia. reflexivity. }
  destruct E as [inst E]. exists inst. split; [reflexivity|]. split; [exact E|]. apply (C11_instance_size cfg pp pks inst HL); auto.
  cbn [ciphers pp]. rewrite map_length, combine_length, length_zseq. lia.
Qed.
Example C11_meets : config_new 3 5 = Ok (mkConfig 3 5) /\ config_new 0 5 <> Ok (mkConfig 0 5) /\ instance_size (mkConfig 3 5) = 49.
Proof. repeat split; discriminate. Qed.

(** ** C18 *)
(** no error, no panic; the result is the identity (affine form (0,0)) or satisfies y^2 = x^3 + 3 *)
Theorem C18_hash_total keccak domain msg : exists P : G1, hash_to_curve_bn keccak domain msg = Ok P /\
  let '(x, y) := xy P in (x = f0 /\ y = f0) \/ (y * y = x * x * x + fq 3)%fld.
Proof.
  destruct (hash_to_curve_ok keccak domain msg) as [P E]. exists P. split; [exact E|]. destruct P as [[|x y] H]; cbn [xy EC.pt].
  - left. split; reflexivity.
  - right. exact (proj1 (on_aff Fq b1 x y) H).
Qed.
(** each of the two mapped points is an affine curve point *)
Theorem C18_map_total (t : Fq) : exists (P : G1) (x y : Fq), map_to_curve_evm t = Ok P /\ xy P = (x, y) /\ (y * y = x * x * x + fq 3)%fld.
Proof.
  destruct (map_to_curve_ok t) as (x & y & H & _ & E). exists (mkEC Fq b1 _ H), x, (y * sign t)%fld. split; [exact E|]. split; [reflexivity|].
  exact (proj1 (on_aff Fq b1 x _) H).
Qed.

(** ** C05 *)
Theorem C05_shares n coeffs : coeffs <> [] -> 1 <= n -> exists sh, shares n coeffs = Ok sh /\ zlen sh = n /\
  forall i, 1 <= i <= n -> get sh (i - 1) = Ok (poly_at coeffs (fr i)).
Proof.
  intros Hc Hn. eexists. split; [apply shares_ok; auto|]. split.
  - unfold zlen. rewrite map_length, length_zseq. lia.
  - intros i Hi. rewrite get_map, get_zseq by lia. cbn [bind]. rewrite poly_at_peval. reflexivity.
Qed.
Example C05_meets : exists sh, shares 3 [fr 7; fr 2] = Ok sh /\ zlen sh = 3.
Proof. destruct (C05_shares 3 [fr 7; fr 2]) as (sh & E & L & _); [discriminate|lia|]. eauto. Qed.

(** ** C07 *)
Theorem C07_no_information (idxs : list Z) (value : Z -> Fr) (secret : Fr) : NoDup idxs -> Forall (fun i => 0 < i < M64) idxs ->
  exists! coeffs, length coeffs = S (length idxs) /\ hd f0 coeffs = secret /\ forall i, In i idxs -> poly_at coeffs (fr i) = value i.
Proof.
  intros N F.
  assert (F' : Forall (fun a => 0 <= a < r_mod) (0 :: idxs)).
  { constructor; [split; reflexivity || discriminate|]. eapply Forall_impl; [|exact F]. intros a Ha. pose proof M64_r. cbv beta in *. lia. }
  assert (N0 : NoDup (map fr (0 :: idxs))).
  { assert (N1 : NoDup (0 :: idxs)).
    { constructor; auto. intros I. rewrite Forall_forall in F. specialize (F 0 I). lia. }
    revert F' N1. generalize (0 :: idxs). clear. induction l as [|a l IH]; cbn [map]; intros F N; constructor.
    - intros I. apply in_map_iff in I as (b & E & Hb). inversion N; subst. inversion F; subst. rewrite Forall_forall in H4.
      assert (b = a) by (apply fr_inj; auto). congruence.
    - inversion N; inversion F; auto. }
  assert (Inj : forall a b, In a (0 :: idxs) -> In b (0 :: idxs) -> fr a = fr b -> a = b).
  { rewrite Forall_forall in F'. intros a b Ha Hb. apply fr_inj; auto. }
  pose (f := fun x : Fr => if feqb x (f0 : Fr) then secret else
             match find (fun i => feqb (fr i) x) idxs with Some i => value i | None => f0 end).
  assert (Hf0 : f (fr 0) = secret) by (unfold f; change (fr 0) with (f0 : Fr); rewrite feqb_refl; auto).
  assert (Hf : forall i, In i idxs -> f (fr i) = value i).
  { intros i Hi. unfold f. destruct (feqb (fr i) (f0 : Fr)) eqn:E.
    - apply feqb_eq in E. assert (i = 0) by (apply Inj; [right; auto|left; auto|exact E]). subst i.
      rewrite Forall_forall in F. specialize (F 0 Hi). lia.
    - destruct (find _ idxs) as [k|] eqn:E'.
      + apply find_some in E' as [Ik Ek]. apply feqb_eq in Ek. f_equal. apply Inj; [right; auto|right; auto|exact Ek].
      + pose proof (find_none _ _ E' i Hi) as X. cbv beta in X. rewrite feqb_refl in X. discriminate. }
  destruct (interp_unique Fr f (map fr (0 :: idxs)) N0) as (co & [L H] & U).
  assert (H0 : forall l, hd f0 l = peval l (fr 0)) by (intros l; symmetry; exact (peval_0 Fr l)).
  exists co. split.
  - split; [rewrite L, map_length; reflexivity|]. split.
    + rewrite H0, H; auto. left. reflexivity.
    + intros i Hi. rewrite poly_at_peval, H; auto. right. apply in_map. auto.
  - intros l (L' & S' & V'). apply U. split; [rewrite L', map_length; reflexivity|].
    intros a Ha. destruct Ha as [<-|Ha]; [rewrite <- H0, Hf0; auto|].
    apply in_map_iff in Ha as (i & <- & Hi). rewrite Hf, <- (V' i Hi), poly_at_peval by auto. reflexivity.
Qed.
(** so with threshold t, the shares of any t-1 members leave every secret possible, with exactly one polynomial each *)
Theorem C07_hiding t n (idxs : list Z) (value : Z -> Fr) (secret : Fr) cfg : is_usize n = true -> config_new t n = Ok cfg ->
  NoDup idxs -> Forall (fun i => 1 <= i <= n) idxs -> zlen idxs = t - 1 ->
  exists! coeffs, zlen coeffs = t /\ hd f0 coeffs = secret /\
    exists sh, shares n coeffs = Ok sh /\ forall i, In i idxs -> get sh (i - 1) = Ok (value i).
Proof.
  intros Un Hc N F L. apply C11_config_iff in Hc as (Ht & _ & _). apply andb_prop in Un as [_ Un]. apply Z.ltb_lt in Un.
  destruct (C07_no_information idxs value secret N) as (co & (A & B & C) & U).
  { eapply Forall_impl; [|exact F]. intros a Ha. cbv beta in *. lia. }
  rewrite Forall_forall in F. unfold zlen in *. exists co. split.
  - split; [lia|]. split; auto. destruct (C05_shares n co) as (sh & E & _ & G); [destruct co; [discriminate|congruence]|lia|].
    exists sh. split; auto. intros i Hi. rewrite G by auto. f_equal. auto.
  - intros l (A' & B' & sh & E & G). apply U. split; [lia|]. split; auto. intros i Hi.
    destruct (C05_shares n l) as (sh' & E' & _ & G'); [intros ->; cbn in A'; lia|lia|]. rewrite E in E'.
    assert (sh = sh') by congruence. subst sh'. specialize (G' i (F i Hi)).
    specialize (G i Hi). congruence.
Qed.
Example C07_meets : exists co, zlen co = 2 /\ hd f0 co = fr 42 /\ exists sh, shares 3 co = Ok sh /\ get sh 1 = Ok (fr 9).
Proof.
  destruct (C07_hiding 2 3 [2] (fun _ => fr 9) (fr 42) (mkConfig 2 3)) as (co & (A & B & sh & E & G) & _); try reflexivity.
  - constructor; [auto|constructor].
  - repeat constructor; lia.
  - exists co. split; auto. split; auto. exists sh. split; auto. apply (G 2). left; auto.
Qed.

(** ** C04 *)
Section Encryption.
  Variable poseidon : Fr -> Fr -> Fr.
  (** the one-time pad derived from a shared point *)
  Definition pad_from (P : Gk) : Fr := poseidon (fst (xy P)) (snd (xy P)).

  Lemma nth_error_combine {A B} (l : list A) : forall (l' : list B) k a b, nth_error l k = Some a -> nth_error l' k = Some b ->
    nth_error (combine l l') k = Some (a, b).
  Proof. induction l as [|x l IH]; intros [|y l'] [|k]; cbn; try discriminate; intros; try congruence. apply IH; auto. Qed.
  Lemma cipher_of cfg pks coeffs r mp i pk : 1 <= number_of_members cfg -> coeffs <> [] -> member_params_new poseidon cfg pks coeffs r = Ok mp ->
    get pks (i - 1) = Ok pk ->
    gr (mp_public_params mp) = gkmul gk (rs_of r) /\
    get (ciphers (mp_public_params mp)) (i - 1) = Ok (pad_from (gkmul pk (rs_of r)) + peval coeffs (fr i))%fld.
  Proof.
    intros Hn Hc H Hk.
    assert (HL : zlen pks = number_of_members cfg).
    { unfold member_params_new in H. destruct (Z.eqb_spec (zlen pks) (number_of_members cfg)); auto. discriminate. }
    rewrite member_params_new_ok in H by auto. match type of H with Ok ?x = _ => assert (X : mp = x) by congruence end. subst mp.
    cbn [mp_public_params gr ciphers]. split; auto. apply get_inv in Hk as [K0 K].
    assert (L : (Z.to_nat (i - 1) < length pks)%nat) by (apply nth_error_Some; congruence).
    apply get_ok; auto. rewrite nth_error_map.
    assert (E : nth_error (combine (zseq (length pks)) pks) (Z.to_nat (i - 1)) = Some (i, pk)).
    { pose proof (get_zseq (length pks) i ltac:(lia)) as G. apply get_inv in G as [_ G]. exact (nth_error_combine _ _ _ _ _ G K). }
    rewrite E. reflexivity.
  Qed.
  (** the recipient's key gives back the share; any other key gives it masked by the difference of the two pads *)
  Theorem C04_decrypt cfg pks coeffs r mp i k : 1 <= number_of_members cfg -> coeffs <> [] ->
    member_params_new poseidon cfg pks coeffs r = Ok mp -> key_pair k -> get pks (i - 1) = Ok (mk_pk k) ->
    exists c, get (ciphers (mp_public_params mp)) (i - 1) = Ok c /\
      decrypt_share poseidon k (gr (mp_public_params mp)) c = poly_at coeffs (fr i).
  Proof.
    intros Hn Hc H Hk Hp. destruct (cipher_of cfg pks coeffs r mp i _ Hn Hc H Hp) as [G C]. eexists. split; [exact C|].
    rewrite G, poly_at_peval. unfold decrypt_share. rewrite <- (dh_agree k r Hk). exact (pad_cancel Fr _ _).
  Qed.
  Theorem C04_other_key cfg pks coeffs r mp i k k' : 1 <= number_of_members cfg -> coeffs <> [] ->
    member_params_new poseidon cfg pks coeffs r = Ok mp -> key_pair k -> get pks (i - 1) = Ok (mk_pk k) ->
    exists c, get (ciphers (mp_public_params mp)) (i - 1) = Ok c /\
      decrypt_share poseidon k' (gr (mp_public_params mp)) c =
      (poly_at coeffs (fr i) + (pad_from (gkmul (gr (mp_public_params mp)) (mk_sk k)) - pad_from (gkmul (gr (mp_public_params mp)) (mk_sk k'))))%fld.
  Proof.
    intros Hn Hc H Hk Hp. destruct (cipher_of cfg pks coeffs r mp i _ Hn Hc H Hp) as [G C]. eexists. split; [exact C|].
    rewrite G, poly_at_peval, <- (dh_agree k r Hk). exact (pad_diff Fr _ _ _).
  Qed.
End Encryption.

Example C04_meets poseidon : let pks := map mk_pk (map member_random [fq 5; fq 6; fq 7]) in
  exists mp c, member_params_new poseidon (mkConfig 2 3) pks [fr 11; fr 12] (fr 13) = Ok mp /\
    get (ciphers (mp_public_params mp)) (2 - 1) = Ok c /\
    decrypt_share poseidon (member_random (fq 6)) (gr (mp_public_params mp)) c = poly_at [fr 11; fr 12] (fr 2).
Proof.
  intros pks. assert (N : [fr 11; fr 12] <> []) by (intros X; inversion X).
  pose proof (member_params_new_ok poseidon (mkConfig 2 3) pks [fr 11; fr 12] (fr 13) ltac:(cbn; lia) eq_refl N) as E.
  match type of E with _ = Ok ?x => set (mp := x) in E end. clearbody mp.
  destruct (C04_decrypt poseidon (mkConfig 2 3) pks [fr 11; fr 12] (fr 13) mp 2 (member_random (fq 6)) ltac:(cbn; lia) N E eq_refl eq_refl) as (c & C & D).
  exists mp, c. split; [exact E|]. split; [exact C|exact D].
Qed.

(** ** C08, C09 *)
Section Eval.
  Variable keccak : bytes -> Z.
  Theorem C08_honest_evaluation_verifies key msg r cfg : vk key = g1mul g1 (sk key) -> 1 <= index key <= number_of_members cfg ->
    exists h e, hash_to_curve_bn keccak EVAL_PREFIX msg = Ok h /\ evaluate keccak key msg r = Ok e /\
      pe_index e = index key /\ pe_value e = g1mul h (sk key) /\ pe_verify keccak e cfg msg (vk key) = Ok tt.
  Proof.
    intros Hv Hi. destruct (evaluate_ok keccak key msg r) as (h & Hh & E).
    match type of E with _ = Ok ?x => set (e := x) in E end. exists h, e. split; auto. split; auto. split; [reflexivity|]. split; [reflexivity|].
    apply (evaluate_verifies keccak key msg r e cfg Hv Hi E).
  Qed.
  (** out-of-range indices are refused *)
  Theorem C08_index_range e cfg msg v : ~ (1 <= pe_index e <= number_of_members cfg) -> pe_verify keccak e cfg msg v = Err (InvalidIndex (pe_index e)).
  Proof. intros H. unfold pe_verify. destruct (Z.ltb_spec (number_of_members cfg) (pe_index e)), (Z.ltb_spec (pe_index e) 1); cbn [orb]; auto. lia. Qed.
End Eval.
Example C08_meets keccak msg : exists e, evaluate keccak (mkShareKey 2 (fr 5) (g1mul g1 (fr 5))) msg (fr 3) = Ok e /\
  pe_verify keccak e (mkConfig 2 3) msg (g1mul g1 (fr 5)) = Ok tt.
Proof.
  destruct (C08_honest_evaluation_verifies keccak (mkShareKey 2 (fr 5) (g1mul g1 (fr 5))) msg (fr 3) (mkConfig 2 3)) as (h & e & _ & E & _ & _ & V); [reflexivity|cbn; lia|].
  exists e. auto.
Qed.

(** the commitments a verifier recomputes from an answer (z, c) *)
Definition commit1 (vk_ : G1) (z c : Fr) : G1 := (g1mul g1 z ⊕ ⊖ g1mul vk_ c)%grp.
Definition commit2 (h v : G1) (z c : Fr) : G1 := (g1mul h z ⊕ ⊖ g1mul v c)%grp.

Lemma gsub_swap (G : Grp) (a b x y : G) : (a ⊕ ⊖ x = b ⊕ ⊖ y -> a ⊕ ⊖ b = x ⊕ ⊖ y)%grp.
Proof.
  intros H. assert (E : (a = b ⊕ (⊖ y ⊕ x))%grp).
  { rewrite <- gassoc, <- H, gassoc, gopp_l, g0_r. reflexivity. }
  rewrite E, (gcomm G b), gassoc, gopp_r, g0_r. apply gcomm.
Qed.
Lemma same_commit (P Q : G1) (z z' c c' : Fr) : (g1mul P z ⊕ ⊖ g1mul Q c)%grp = (g1mul P z' ⊕ ⊖ g1mul Q c')%grp ->
  g1mul P (z - z')%fld = g1mul Q (c - c')%fld.
Proof. intros H. rewrite !g1mul_sub. exact (gsub_swap G1 _ _ _ _ H). Qed.

Theorem C09_special_soundness (sk_ : Fr) (h v : G1) (z z' c c' : Fr) : let vk_ := g1mul g1 sk_ in
  commit1 vk_ z c = commit1 vk_ z' c' -> commit2 h v z c = commit2 h v z' c' -> c <> c' -> v = g1mul h sk_.
Proof.
  intros vk_ H1 H2 N. apply same_commit in H1, H2. unfold vk_ in H1. rewrite <- g1mul_mul in H1.
  apply g1mul_inj in H1; [|exact g1_neq0].
  assert (D : (c - c')%fld <> f0) by (apply fsub_neq0; auto).
  assert (E : g1mul v (c - c')%fld = g1mul (g1mul h sk_) (c - c')%fld).
  { rewrite <- H2, H1, g1mul_mul, g1mul_comm. reflexivity. }
  assert (I : forall P : G1, P = g1mul (g1mul P (c - c')%fld) (finv (c - c')%fld)).
  { intros P. rewrite <- g1mul_mul. rewrite (finv_l Fr _ D). reflexivity. }
  rewrite (I v), E, <- (I (g1mul h sk_)). reflexivity.
Qed.
(** a wrong value can only be accepted if the hash of the transcript hits one particular challenge, fixed by the commitments *)
Theorem C09_wrong_value_one_challenge (sk_ : Fr) (h v : G1) : v <> g1mul h sk_ -> let vk_ := g1mul g1 sk_ in
  forall R1 R2, exists c0 : Fr, forall keccak e cfg msg, hash_to_curve_bn keccak EVAL_PREFIX msg = Ok h -> pe_value e = v ->
    commit1 vk_ (pe_z e) (pe_c e) = R1 -> commit2 h v (pe_z e) (pe_c e) = R2 ->
    pe_verify keccak e cfg msg vk_ = Ok tt -> pe_c e = c0 /\ challenge keccak v vk_ R2 R1 h g1 = c0.
Proof.
  intros N vk_ R1 R2. destruct (G1_dlog h) as [k Hk]. destruct (G1_dlog v) as [w Hw]. destruct (G1_dlog R1) as [a Ha]. destruct (G1_dlog R2) as [b Hb].
  assert (D : (k * sk_ - w)%fld <> f0).
  { intros D. apply N. rewrite Hw, Hk. rewrite <- g1mul_mul. f_equal. apply (fsub_eq0 Fr) in D. rewrite <- D. apply (mul_comm Fr). }
  exists ((b - k * a) * finv (k * sk_ - w))%fld. intros keccak e cfg msg Hh Hv H1 H2 V.
  unfold pe_verify in V. destruct (_ || _)%bool; [discriminate|]. rewrite Hh in V. cbn [bind] in V.
  match type of V with (if feqb ?x ?y then _ else _) = _ => destruct (feqb x y) eqn:E; [|discriminate]; apply feqb_eq in E end.
  rewrite Hv in E. fold (commit1 vk_ (pe_z e) (pe_c e)) in E. fold (commit2 h v (pe_z e) (pe_c e)) in E. rewrite H1, H2 in E.
  rewrite <- E. enough (X : pe_c e = ((b - k * a) * finv (k * sk_ - w))%fld) by (split; exact X).
  unfold commit1, vk_ in H1. rewrite <- g1mul_mul, <- g1mul_sub, Ha in H1. apply g1mul_inj in H1; [|exact g1_neq0].
  unfold commit2 in H2. rewrite Hk, Hw in H2. rewrite <- !g1mul_mul, <- g1mul_sub, Hb in H2. apply g1mul_inj in H2; [|exact g1_neq0].
  exact (answer_unique Fr _ _ _ _ _ _ _ (eq_sym H1) (eq_sym H2) D).
Qed.
Example C09_meets : g1mul g1 (fr 3) <> g1mul g1 (fr 2).
Proof. intros E. apply g1mul_inj in E; [|exact g1_neq0]. apply of_Z_inj_mod in E. discriminate E. Qed.

(** ** C10 *)
Section Combine.
  Variable keccak : bytes -> Z.
  Variable cfg : config.
  Hypothesis valid : exists t n, config_new t n = Ok cfg.
  Notation combine_ := (combine_partial_evaluations keccak cfg).
  Lemma valid_t : 0 < threshold cfg.
  Proof. destruct valid as (t & n & E). apply C11_config_iff in E. lia. Qed.
  Theorem C10_wrong_number sigmas : zlen sigmas <> threshold cfg -> exists m, combine_ sigmas = Panic m.
  Proof. intros H. unfold combine_partial_evaluations. destruct (Z.eqb_spec (zlen sigmas) (threshold cfg)); [congruence|]. cbn. eauto. Qed.
  Theorem C10_accepts_iff sigmas : zlen sigmas = threshold cfg ->
    (exists pr, combine_ sigmas = Ok pr) <->
    increasing (map pe_index sigmas) /\ Forall (fun i => 1 <= i <= number_of_members cfg) (map pe_index sigmas).
  Proof.
    intros HL. rewrite combine_ok by (auto using valid_t). split.
    - intros [pr H]. apply check_indices_ok. destruct (check_indices _ _) as [[]| |]; auto; discriminate.
    - intros H. apply check_indices_ok in H. rewrite H. cbn [bind]. eauto.
  Qed.
  (** the first offending position decides the error: an order violation is reported before a range violation there *)
  Theorem C10_bad_order sigmas p : zlen sigmas = threshold cfg -> let l := map pe_index sigmas in
    bad_order l p -> (forall p', (p' < p)%nat -> ~ bad_order l p' /\ ~ bad_range (number_of_members cfg) l p') ->
    combine_ sigmas = Err (InvalidOrder (Z.of_nat p)).
  Proof.
    intros HL l H F. rewrite combine_ok by (auto using valid_t). unfold check_indices. fold l.
    rewrite (check_indices_err_order _ l 0 p H F). reflexivity.
  Qed.
  Theorem C10_bad_range sigmas p a : zlen sigmas = threshold cfg -> let l := map pe_index sigmas in
    nth_error l p = Some a -> ~ (1 <= a <= number_of_members cfg) -> ~ bad_order l p ->
    (forall p', (p' < p)%nat -> ~ bad_order l p' /\ ~ bad_range (number_of_members cfg) l p') ->
    combine_ sigmas = Err (InvalidIndex a).
  Proof.
    intros HL l H R O F. rewrite combine_ok by (auto using valid_t). unfold check_indices. fold l.
    rewrite (check_indices_err_range _ l 0 p a H R O F). reflexivity.
  Qed.
  (** with t evaluations it never panics *)
  Theorem C10_no_panic sigmas m : zlen sigmas = threshold cfg -> combine_ sigmas <> Panic m.
  Proof.
    intros HL. rewrite combine_ok by (auto using valid_t). unfold check_indices.
    assert (G : forall l i m, check_indices_from (number_of_members cfg) i l <> Panic m).
    { clear. induction l as [|a l IH]; intros i m; cbn [check_indices_from]; [discriminate|].
      destruct l as [|b l].
      - cbn [bind]. destruct (_ || _)%bool; discriminate.
      - destruct (b <=? a); cbn [bind]; [discriminate|]. destruct (_ || _)%bool; [discriminate|]. apply IH. }
    specialize (G (map pe_index sigmas) 0). destruct (check_indices_from _ _ _); cbn [bind]; try discriminate.
    intros E. apply (G msg). reflexivity.
  Qed.
  (** the combined proof is the Lagrange combination at zero of the values *)
  Theorem C10_value sigmas pr : zlen sigmas = threshold cfg -> number_of_members cfg < M64 -> combine_ sigmas = Ok pr ->
    pr_proof pr = gsum (map (fun s => g1mul (pe_value s) (lagrange0 (map pe_index sigmas) (pe_index s))) sigmas) /\
    pr_value pr = prf_value keccak (pr_proof pr).
  Proof.
    intros HL Hn H. assert (A : increasing (map pe_index sigmas) /\ Forall (fun i => 1 <= i <= number_of_members cfg) (map pe_index sigmas)) by (apply C10_accepts_iff; eauto).
    rewrite combine_ok in H by (auto using valid_t). rewrite (proj2 (check_indices_ok _ _) A) in H. cbn [bind] in H.
    assert (X : pr = mkPseudoRandom (lagrange_sum sigmas) (prf_value keccak (lagrange_sum sigmas))) by congruence. subst pr. cbn [pr_proof pr_value].
    split; auto. unfold lagrange_sum. f_equal. apply map_ext_in. intros s Hs. f_equal.
    apply (lagrange0_ok _ (number_of_members cfg)); auto; [apply A|]. apply in_map. auto.
  Qed.
End Combine.
Example C10_meets keccak (v : G1) : let e i := mkPartialEval i v (fr 0) (fr 0) in
  (exists pr, combine_partial_evaluations keccak (mkConfig 2 3) [e 1; e 3] = Ok pr) /\
  combine_partial_evaluations keccak (mkConfig 2 3) [e 3; e 1] = Err (InvalidOrder 0) /\
  combine_partial_evaluations keccak (mkConfig 2 3) [e 2; e 4] = Err (InvalidIndex 4) /\
  exists m, combine_partial_evaluations keccak (mkConfig 2 3) [e 2] = Panic m.
Proof.
  intros e. assert (V : exists t n, config_new t n = Ok (mkConfig 2 3)) by (exists 2, 3; reflexivity).
  repeat split.
  - apply (C10_accepts_iff keccak _ V); [reflexivity|]. cbn. repeat constructor; lia.
  - eexists. reflexivity.
Qed.

(** ** C14 *)
Theorem C14_global_params pps n : pps <> [] -> Forall (fun pp => length (public_shares pp) = n) pps ->
  exists gpp, dkg_global_public_params pps = Ok gpp /\ g_ga gpp = gsum (map ga pps) /\ g_g2a gpp = gsum (map g2a pps) /\
    length (verify_keys gpp) = n /\
    forall i, (i < n)%nat -> nth i (verify_keys gpp) g0 = gsum (map (fun pp => nth i (public_shares pp) g0) pps).
Proof.
  intros H F. rewrite (global_ok _ n H F). eexists. split; [reflexivity|]. cbn [g_ga g_g2a verify_keys].
  split; auto. split; auto. split; [rewrite map_length, seq_length; auto|]. intros i Hi.
  apply nth_error_nth. rewrite nth_error_map.
  assert (L : (i < length (seq 0 n))%nat) by (rewrite seq_length; auto).
  rewrite (nth_error_nth' _ 0%nat L), seq_nth by auto. reflexivity.
Qed.
Theorem C14_order_irrelevant pps pps' n : Permutation pps pps' -> Forall (fun pp => length (public_shares pp) = n) pps ->
  dkg_global_public_params pps = dkg_global_public_params pps'.
Proof.
  intros P F. destruct pps as [|pp l]; [apply Permutation_nil in P; subst; auto|].
  assert (N : pps' <> []) by (intros ->; apply Permutation_sym, Permutation_nil in P; discriminate).
  assert (F' : Forall (fun pp => length (public_shares pp) = n) pps') by (rewrite Forall_forall in *; intros x Hx; apply F, (Permutation_in _ (Permutation_sym P)); auto).
  assert (N0 : pp :: l <> []) by (intros X; inversion X). rewrite (global_ok _ n N0 F), (global_ok _ n N F'). f_equal. f_equal; try apply gsum_perm, Permutation_map; auto.
  apply map_ext. intros i. apply gsum_perm, Permutation_map. auto.
Qed.
Theorem C14_empty : exists m, dkg_global_public_params [] = Panic m.
Proof. eexists. reflexivity. Qed.
Example C14_meets : exists gpp, dkg_global_public_params [mkPP [g1] [fr 1] gk g1 g2; mkPP [g1mul g1 (fr 2)] [fr 1] gk g1 g2] = Ok gpp.
Proof. destruct (C14_global_params [mkPP [g1] [fr 1] gk g1 g2; mkPP [g1mul g1 (fr 2)] [fr 1] gk g1 g2] 1) as (g & E & _); [intros X; inversion X|repeat constructor|exists g; exact E]. Qed.

(** ** C01, C02, C03, C06 *)
Section Honest.
  Variable keccak : bytes -> Z.
  Variable poseidon : Fr -> Fr -> Fr.
  Variable cfg : config.
  Variable members : list member_key.
  Variable dealers : list (list Fr * Fr).
  Hypothesis HH : honest cfg members dealers.
  Let s := group_secret dealers.

  (** the DKG always succeeds, and publishes the group secret's image in both groups *)
  Theorem C06_dkg_public : exists pps gpp, deal_all poseidon cfg members dealers = Ok pps /\ dkg_global_public_params pps = Ok gpp /\
    g_ga gpp = g1mul g1 s /\ g_g2a gpp = g2mul g2 s.
  Proof.
    destruct (cfg_facts _ _ _ HH) as (Ht & Htn & Hn). destruct HH as [_ HL Hk Hd Hc].
    do 2 eexists. split; [apply (deal_all_ok poseidon cfg members dealers); auto|]. split; [apply (global_honest poseidon cfg members dealers); auto|].
    split; reflexivity.
  Qed.

  Theorem C03_share_keys pps gpp : deal_all poseidon cfg members dealers = Ok pps -> dkg_global_public_params pps = Ok gpp ->
    forall i m, get members (i - 1) = Ok m -> exists key, dkg_share_key poseidon m cfg i pps = Ok key /\
      index key = i /\ vk key = g1mul g1 (sk key) /\ sk key = fsum (map (fun d => poly_at (fst d) (fr i)) dealers) /\
      get (verify_keys gpp) (i - 1) = Ok (vk key) /\ share_key_verify key cfg (verify_keys gpp) = Ok tt.
  Proof.
    destruct (cfg_facts _ _ _ HH) as (Ht & Htn & Hn). destruct HH as [_ HL Hk Hd Hc]. intros E1 E2 i m Hm.
    rewrite (deal_all_ok poseidon cfg members dealers) in E1 by auto. assert (X : pps = map (pp_of poseidon members) dealers) by congruence. subst pps.
    rewrite (global_honest poseidon cfg members dealers) in E2 by auto.
    match type of E2 with Ok ?g = _ => assert (X : gpp = g) by congruence end. subst gpp. clear E2. cbn [verify_keys].
    eexists. split; [apply (share_key_ok poseidon cfg members dealers); auto|]. cbn [index vk sk]. split; [reflexivity|]. split; [reflexivity|].
    split; [unfold total; f_equal; apply map_ext; intros d; symmetry; apply poly_at_peval|].
    assert (Hi : 1 <= i <= number_of_members cfg).
    { apply get_inv in Hm as [H0 H1]. assert (L : (Z.to_nat (i - 1) < length members)%nat) by (apply nth_error_Some; congruence). unfold zlen in HL. lia. }
    assert (V : get (map (fun i => g1mul g1 (total dealers (fr i))) (zseq (length members))) (i - 1) = Ok (g1mul g1 (total dealers (fr i)))).
    { apply (vk_at members dealers). unfold zlen in HL. lia. }
    split; [exact V|]. unfold share_key_verify. cbn [index vk]. destruct (Z.ltb_spec i 1); [lia|]. destruct (Z.ltb_spec (number_of_members cfg) i); [lia|].
    cbn [orb]. rewrite V. cbn [bind]. rewrite (proj2 (geqb_eq G1 _ _)); auto.
  Qed.

  (** share keys of any t distinct members interpolate to the group secret *)
  Theorem C06_reconstruct pps (idxs : list Z) (key : Z -> share_key) : deal_all poseidon cfg members dealers = Ok pps ->
    zlen idxs = threshold cfg -> NoDup idxs -> Forall (fun i => 1 <= i <= number_of_members cfg) idxs ->
    (forall i, In i idxs -> exists m, get members (i - 1) = Ok m /\ dkg_share_key poseidon m cfg i pps = Ok (key i)) ->
    fsum (map (fun i => sk (key i) * lagrange0 idxs i)%fld idxs) = s.
  Proof.
    destruct (cfg_facts _ _ _ HH) as (Ht & Htn & Hn). destruct HH as [_ HL Hk Hd Hc]. intros E1 L N F K.
    rewrite (deal_all_ok poseidon cfg members dealers) in E1 by auto. assert (X : pps = map (pp_of poseidon members) dealers) by congruence. subst pps.
    unfold s. rewrite <- (total_lagrange cfg members dealers Ht Hn Hc idxs L N F).
    f_equal. apply map_ext_in. intros i Hi. destruct (K i Hi) as (m & Hm & E). rewrite (share_key_ok poseidon cfg members dealers) in E by auto.
    assert (X : key i = mkShareKey i (total dealers (fr i)) (g1mul g1 (total dealers (fr i)))) by congruence. rewrite X. cbn [sk].
    f_equal. symmetry. apply (lagrange0_ok _ (number_of_members cfg)); auto.
  Qed.

  Variable pairing : list (G1 * G2c) -> bool.
  Hypothesis HP : pairing_ok pairing.

  (** the whole run, every check in it included ([dvrf_run] in Spec/Dvrf.v), succeeds *)
  Theorem C01_any_quorum idxs nonce msg : quorum cfg idxs -> exists h gpp pr,
    hash_to_curve_bn keccak EVAL_PREFIX msg = Ok h /\ dvrf_run keccak pairing poseidon cfg members dealers idxs nonce msg = Ok (gpp, pr) /\
    pr_proof pr = g1mul h s /\ g_g2a gpp = g2mul g2 s /\ g_ga gpp = g1mul g1 s /\ pr_verify keccak pairing pr msg (g_g2a gpp) = Ok tt.
  Proof.
    intros (L & I & F). destruct (cfg_facts _ _ _ HH) as (Ht & Htn & Hn). destruct HH as [_ HL Hk Hd Hc].
    destruct (hash_to_curve_ok keccak EVAL_PREFIX msg) as [h Hh].
    exists h. do 2 eexists. split; [exact Hh|]. split; [apply (run_ok keccak poseidon cfg members dealers) with (h := h); auto|].
    split; [reflexivity|]. split; [reflexivity|]. split; [reflexivity|]. cbn [g_g2a].
    apply (pr_verify_iff keccak pairing HP _ msg s h Hh). split; reflexivity.
  Qed.

  (** the result does not depend on which members contributed, nor on their nonces *)
  Theorem C02_subset_independent idxs idxs' nonce nonce' msg : quorum cfg idxs -> quorum cfg idxs' ->
    dvrf_run keccak pairing poseidon cfg members dealers idxs nonce msg = dvrf_run keccak pairing poseidon cfg members dealers idxs' nonce' msg.
  Proof.
    intros (L & I & F) (L' & I' & F'). destruct (cfg_facts _ _ _ HH) as (Ht & Htn & Hn). destruct HH as [_ HL Hk Hd Hc].
    destruct (hash_to_curve_ok keccak EVAL_PREFIX msg) as [h Hh].
    rewrite (run_ok keccak poseidon cfg members dealers) with (h := h) by auto.
    rewrite (run_ok keccak poseidon cfg members dealers) with (h := h) by auto. reflexivity.
  Qed.
End Honest.

(** at most one pseudorandom verifies for a message and a public key *)
Theorem C02_unique keccak pairing p p' msg (s : Fr) : pairing_ok pairing -> let gpk := g2mul g2 s in
  pr_verify keccak pairing p msg gpk = Ok tt -> pr_verify keccak pairing p' msg gpk = Ok tt -> p = p'.
Proof.
  intros HP gpk V V'. destruct (hash_to_curve_ok keccak EVAL_PREFIX msg) as [h Hh].
  apply (pr_verify_iff keccak pairing HP _ msg s h Hh) in V as [A B]. apply (pr_verify_iff keccak pairing HP _ msg s h Hh) in V' as [A' B'].
  destruct p as [p v], p' as [p' v']. cbn [pr_proof pr_value] in *. congruence.
Qed.

(** a pairing check with the assumed behaviour exists, and an honest DKG with three members and two dealers *)
Definition demo_members : list member_key := map member_random [fq 5; fq 6; fq 7].
Definition demo_dealers : list (list Fr * Fr) := [([fr 11; fr 12], fr 13); ([fr 21; fr 22], fr 23)].
Lemma demo_honest : honest (mkConfig 2 3) demo_members demo_dealers.
Proof.
  constructor.
  - exists 2, 3. auto.
  - reflexivity.
  - repeat constructor.
  - discriminate.
  - repeat constructor.
Qed.
Example C01_meets keccak poseidon msg : exists pairing gpp pr,
  dvrf_run keccak pairing poseidon (mkConfig 2 3) demo_members demo_dealers [1; 3] (fun _ => fr 9) msg = Ok (gpp, pr) /\
  dvrf_run keccak pairing poseidon (mkConfig 2 3) demo_members demo_dealers [2; 3] (fun _ => fr 10) msg = Ok (gpp, pr) /\
  g_g2a gpp = g2mul g2 (group_secret demo_dealers).
Proof.
  destruct pairing_exists as [pairing HP]. exists pairing.
  assert (Q1 : quorum (mkConfig 2 3) [1; 3]) by (split; [reflexivity|]; cbn; repeat constructor; lia).
  assert (Q2 : quorum (mkConfig 2 3) [2; 3]) by (split; [reflexivity|]; cbn; repeat constructor; lia).
  destruct (C01_any_quorum keccak poseidon _ _ _ demo_honest pairing HP [1; 3] (fun _ => fr 9) msg Q1) as (h & gpp & pr & _ & E & _ & G & _).
  exists gpp, pr. split; [exact E|]. split; [|exact G].
  rewrite <- (C02_subset_independent keccak poseidon _ _ _ demo_honest pairing HP _ _ (fun _ => fr 9) (fun _ => fr 10) msg Q1 Q2). exact E.
Qed.
Example C03_meets poseidon : exists pps gpp key, deal_all poseidon (mkConfig 2 3) demo_members demo_dealers = Ok pps /\
  dkg_global_public_params pps = Ok gpp /\ dkg_share_key poseidon (member_random (fq 6)) (mkConfig 2 3) 2 pps = Ok key /\
  share_key_verify key (mkConfig 2 3) (verify_keys gpp) = Ok tt.
Proof.
  destruct (C06_dkg_public poseidon _ _ _ demo_honest) as (pps & gpp & E1 & E2 & _).
  destruct (C03_share_keys poseidon _ _ _ demo_honest pps gpp E1 E2 2 (member_random (fq 6)) eq_refl) as (key & K & _ & _ & _ & _ & V).
  exists pps, gpp, key. split; [exact E1|]. split; [exact E2|]. split; [exact K|exact V].
Qed.

Print Assumptions C01_any_quorum.
Print Assumptions C02_subset_independent.
Print Assumptions C02_unique.
Print Assumptions C03_share_keys.
Print Assumptions C04_decrypt.
Print Assumptions C04_other_key.
Print Assumptions C05_shares.
Print Assumptions C06_reconstruct.
Print Assumptions C07_hiding.
Print Assumptions C08_honest_evaluation_verifies.
Print Assumptions C09_special_soundness.
Print Assumptions C09_wrong_value_one_challenge.
Print Assumptions C10_accepts_iff.
Print Assumptions C10_bad_order.
Print Assumptions C10_value.
Print Assumptions C11_member_instance.
Print Assumptions C14_order_irrelevant.
Print Assumptions C18_hash_total.
