(** The DVRF end to end: dealing, aggregation, evaluation, combination, verification. *)
From Coq Require Import ZArith Znumtheory String List Lia Bool Permutation.
From Verif.Base Require Import Fermat Primes Fld Fp EC Curves Group Poly.
From Verif.Model Require Import Monad Evm Strings Points HashEvm Dkg Lib.
From Verif.Spec Require Import Dvrf.
From Verif.Proofs Require Import HashProofs DkgProofs.
Import ListNotations.
Open Scope Z_scope.

(** * check_indices *)
Lemma check_indices_from_ok n l : forall i, check_indices_from n i l = Ok tt <-> increasing l /\ Forall (fun a => 1 <= a <= n) l.
Proof.
  induction l as [|a l IH]; intros i; [cbn; split; auto|]. destruct l as [|b l].
  - cbn [check_indices_from bind]. destruct (Z.ltb_spec n a), (Z.ltb_spec a 1); cbn [orb]; (split; intros H'; [try discriminate; repeat constructor; lia|]);
      try (destruct H' as [_ H']; inversion H'; lia). auto.
  - cbn [check_indices_from]. destruct (Z.leb_spec b a) as [L|L]; cbn [bind].
    + split; [discriminate|]. intros [[H _] _]. lia.
    + specialize (IH (i + 1)). destruct (Z.ltb_spec n a), (Z.ltb_spec a 1); cbn [orb]; try (split; [discriminate|]; intros [_ H']; inversion H'; lia).
      rewrite IH. split; intros [H1 H2].
      * split; [split; auto|constructor; auto; lia].
      * destruct H1 as [_ H1]. inversion H2; auto.
Qed.
Lemma check_indices_ok n l : check_indices n l = Ok tt <-> increasing l /\ Forall (fun a => 1 <= a <= n) l.
Proof. apply check_indices_from_ok. Qed.

Lemma check_indices_err_order n l : forall i p, bad_order l p -> (forall p', (p' < p)%nat -> ~ bad_order l p' /\ ~ bad_range n l p') ->
  check_indices_from n i l = Err (InvalidOrder (i + Z.of_nat p)).
Proof.
  induction l as [|a l IH]; intros i p (x & y & Hx & Hy & L) F; [destruct p; discriminate|].
  destruct p as [|p].
  - injection Hx as <-. destruct l as [|b l]; [discriminate|]. injection Hy as <-. cbn [check_indices_from].
    rewrite (proj2 (Z.leb_le b a)) by auto. cbn [bind]. do 2 f_equal. lia.
  - destruct (F 0%nat ltac:(lia)) as [F1 F2]. destruct l as [|b l]; [destruct p; discriminate|]. cbn [check_indices_from].
    destruct (Z.leb_spec b a) as [L'|L']; [exfalso; apply F1; exists a, b; auto|]. cbn [bind].
    destruct (Z.ltb_spec n a); [exfalso; apply F2; exists a; split; auto; lia|].
    destruct (Z.ltb_spec a 1); [exfalso; apply F2; exists a; split; auto; lia|]. cbn [orb].
    change (check_indices_from n (i + 1) (b :: l) = Err (InvalidOrder (i + Z.of_nat (S p)))).
    rewrite (IH (i + 1) p); [do 2 f_equal; lia|exists x, y; auto|].
    intros p' Hp. apply (F (S p')). lia.
Qed.
Lemma check_indices_err_range n l : forall i p a, nth_error l p = Some a -> ~ (1 <= a <= n) -> ~ bad_order l p ->
  (forall p', (p' < p)%nat -> ~ bad_order l p' /\ ~ bad_range n l p') -> check_indices_from n i l = Err (InvalidIndex a).
Proof.
  induction l as [|a l IH]; intros i p x Hx R O F; [destruct p; discriminate|].
  assert (G : forall tl, (exists b l', tl = b :: l' /\ a < b) \/ tl = [] ->
      match tl with b :: _ => if b <=? a then Err (InvalidOrder i) else Ok tt | [] => Ok tt end = Ok tt).
  { intros tl [(b & l' & -> & L)| ->]; auto. destruct (Z.leb_spec b a); [lia|auto]. }
  destruct p as [|p].
  - injection Hx as <-. cbn [check_indices_from]. rewrite G.
    + cbn [bind]. destruct (Z.ltb_spec n a), (Z.ltb_spec a 1); cbn [orb]; auto. lia.
    + destruct l as [|b l]; auto. left. exists b, l. split; auto. destruct (Z_lt_le_dec a b); auto. exfalso. apply O. exists a, b. auto.
  - destruct (F 0%nat ltac:(lia)) as [F1 F2]. cbn [check_indices_from]. rewrite G.
    + cbn [bind]. destruct (Z.ltb_spec n a); [exfalso; apply F2; exists a; split; auto; lia|].
      destruct (Z.ltb_spec a 1); [exfalso; apply F2; exists a; split; auto; lia|]. cbn [orb].
      apply (IH (i + 1) p x); auto. intros p' Hp. apply (F (S p')). lia.
    + destruct l as [|b l]; auto. left. exists b, l. split; auto. destruct (Z_lt_le_dec a b); auto. exfalso. apply F1. exists a, b. auto.
Qed.

Lemma increasing_NoDup l : increasing l -> NoDup l.
Proof.
  assert (G : forall l a, increasing (a :: l) -> forall x, In x l -> a < x).
  { induction l0 as [|b l0 IH]; intros a H x Hx; [contradiction|]. destruct H as [H1 H2]. destruct Hx as [<-|Hx]; auto. specialize (IH b H2 x Hx). lia. }
  induction l as [|a l IH]; intros H; constructor.
  - intros I. specialize (G l a H a I). lia.
  - apply IH. destruct l; cbn; auto. apply H.
Qed.

(** * Lagrange coefficients *)
Lemma lambda_of_ok (xs : list Fr) i : lambda_of xs i = Ok (lag xs f0 i).
Proof.
  unfold lambda_of. rewrite (num_den Fr f0). rewrite !mul_1_l.
  destruct (feq_dec _ f0) as [E|_].
  - exfalso. apply (den_neq0 Fr xs i). exact E.
  - cbn [bind]. rewrite lag_0. reflexivity.
Qed.
Lemma lambdas_ok (xs : list Fr) l : mapM (lambda_of xs) l = Ok (map (lag xs f0) l).
Proof. apply mapM_ok. intros; apply lambda_of_ok. Qed.

Lemma combine_map {A B C} (f : A -> B) (g : A -> C) l : combine (map f l) (map g l) = map (fun a => (f a, g a)) l.
Proof. induction l; cbn; congruence. Qed.

(** the result of combining any evaluations with acceptable indices *)
Definition lagrange_sum (sigmas : list partial_eval) : G1 :=
  gsum (map (fun s => g1mul (pe_value s) (lag (map fr (map pe_index sigmas)) f0 (fr (pe_index s)))) sigmas).

Lemma combine_ok keccak cfg sigmas : 0 < threshold cfg -> zlen sigmas = threshold cfg ->
  combine_partial_evaluations keccak cfg sigmas =
    let* _ := check_indices (number_of_members cfg) (map pe_index sigmas) in
    Ok (mkPseudoRandom (lagrange_sum sigmas) (prf_value keccak (lagrange_sum sigmas))).
Proof.
  intros Ht HL. unfold combine_partial_evaluations. rewrite HL, Z.eqb_refl. cbn [assert bind].
  destruct (check_indices (number_of_members cfg) (map pe_index sigmas)); auto. cbn [bind].
  rewrite lambdas_ok. cbn [bind]. rewrite !map_map.
  assert (E : combine sigmas (map (fun x => lag (map (fun x => fr (pe_index x)) sigmas) f0 (fr (pe_index x))) sigmas)
    = map (fun s => (s, lag (map (fun x => fr (pe_index x)) sigmas) f0 (fr (pe_index s)))) sigmas).
  { rewrite <- combine_map, map_id. reflexivity. }
  rewrite E, map_map.
  destruct sigmas as [|s0 sg]; [unfold zlen in HL; cbn in HL; lia|].
  set (xs := map (fun x => fr (pe_index x)) (s0 :: sg)).
  set (f := fun x : partial_eval => g1mul (pe_value x) (lag xs f0 (fr (pe_index x)))).
  change (get (map f (s0 :: sg)) 0) with (Ok (f s0)). cbn [bind map skipn]. rewrite fold_left_gadd, <- gsum_cons.
  unfold lagrange_sum. rewrite map_map. reflexivity.
Qed.

(** * injectivity of small indices in the scalar field *)
Lemma fr_inj a b : 0 <= a < r_mod -> 0 <= b < r_mod -> fr a = fr b -> a = b.
Proof. intros Ha Hb E. apply of_Z_inj_mod in E. rewrite !Z.mod_small in E; auto. Qed.
Lemma M64_r : M64 < r_mod. Proof. reflexivity. Qed.
Lemma NoDup_fr l n : n < M64 -> Forall (fun a => 1 <= a <= n) l -> NoDup l -> NoDup (map fr l).
Proof.
  intros Hn F. pose proof M64_r. induction l as [|a l IH]; intros N; cbn [map]; [constructor|].
  inversion N; subst. inversion F; subst. constructor; auto. intros I. apply in_map_iff in I as (b & E & Hb).
  rewrite Forall_forall in H5. specialize (H5 b Hb).
  assert (b = a) by (apply fr_inj; auto; lia). congruence.
Qed.

(** the explicit Lagrange coefficient *)
Lemma lagrange0_ok l n i : n < M64 -> Forall (fun a => 1 <= a <= n) l -> In i l -> lag (map fr l) f0 (fr i) = lagrange0 l i.
Proof.
  intros Hn F Hi. pose proof M64_r. rewrite lag_0. unfold lagrange0. rewrite Forall_forall in F.
  assert (E : others (map fr l) (fr i) = map fr (filter (fun k => negb (k =? i)) l)).
  { unfold others. assert (G : forall a, In a l -> feqb (fr a) (fr i) = (a =? i)).
    { intros a Ha. pose proof (F a Ha). pose proof (F i Hi). cbv beta in *. destruct (Z.eqb_spec a i) as [->|N]; [apply feqb_refl|].
      apply feqb_neq. intros E. apply N. apply fr_inj; auto; lia. }
    clear -G. induction l as [|a l IH]; cbn [map filter]; auto. rewrite (G a) by (left; auto).
    destruct (a =? i); cbn [negb]; [|cbn [map]; f_equal]; apply IH; intros; apply G; right; auto. }
  rewrite E, map_map. symmetry. apply (lag0_prod Fr fr (fr i)). intros a Ha. apply filter_In in Ha as [Ha N].
  apply fsub_neq0. intros X. pose proof (F a Ha). pose proof (F i Hi). cbv beta in *. assert (a = i) by (apply fr_inj; auto; lia).
  subst. rewrite Z.eqb_refl in N. discriminate.
Qed.

(** * the pairing checks *)
Section Pairing.
  Variable keccak : bytes -> Z.
  Variable pairing : list (G1 * G2c) -> bool.
  Hypothesis HP : pairing_ok pairing.

  Lemma pairing_neg_fr (h x s : Fr) : ((- h * s + (x * 1 + 0)) = 0)%fld <-> (x = h * s)%fld.
  Proof. exact (pairing_id Fr h x s). Qed.

  (** e(-h, gpk) e(x, g2) = 1 *)
  Lemma pairing_check (h x : G1) (s : Fr) : pairing [((⊖ h)%grp, g2mul g2 s); (x, g2)] = true <-> x = g1mul h s.
  Proof.
    destruct (G1_dlog h) as [a ->]. destruct (G1_dlog x) as [b ->].
    assert (E2 : g2 = g2mul g2 (f1 : Fr)) by reflexivity.
    assert (E : [((⊖ g1mul g1 a)%grp, g2mul g2 s); (g1mul g1 b, g2)]
              = map (fun '(a, b) => (g1mul g1 a, g2mul g2 b)) [((- a)%fld, s); (b, f1 : Fr)]).
    { cbn [map]. rewrite <- E2, g1mul_opp. reflexivity. }
    rewrite E, HP, feqb_eq. cbn [map]. rewrite !fsum_cons, fsum_nil, pairing_neg_fr, <- g1mul_mul. split.
    - intros ->. f_equal. apply (mul_comm Fr).
    - intros H. apply g1mul_inj in H; [|exact g1_neq0]. rewrite H. apply (mul_comm Fr).
  Qed.
  Lemma is_dl_equal_iff (P : G1) (s : Fr) : is_dl_equal pairing P (g2mul g2 s) = Ok tt <-> P = g1mul g1 s.
  Proof.
    unfold is_dl_equal. pose proof (pairing_check g1 P s) as H.
    destruct (pairing [((⊖ g1)%grp, g2mul g2 s); (P, g2)]); cbn [negb]; split; intros X; try discriminate; auto.
    - apply H; auto.
    - apply H in X. discriminate.
  Qed.

  Lemma bytes_eqb_eq a b : bytes_eqb a b = true <-> a = b.
  Proof. unfold bytes_eqb. destruct (list_eq_dec Z.eq_dec a b); split; congruence. Qed.

  Lemma pr_verify_iff p msg (s : Fr) h : hash_to_curve_bn keccak EVAL_PREFIX msg = Ok h ->
    pr_verify keccak pairing p msg (g2mul g2 s) = Ok tt <-> pr_proof p = g1mul h s /\ pr_value p = prf_value keccak (pr_proof p).
  Proof.
    intros Hh. unfold pr_verify. rewrite Hh. cbn [bind]. pose proof (pairing_check h (pr_proof p) s) as H.
    destruct (pairing _); cbn [negb].
    - pose proof (bytes_eqb_eq (pr_value p) (prf_value keccak (pr_proof p))) as B.
      destruct (bytes_eqb _ _); cbn [negb]; split.
      + intros _. split; [apply H|apply B]; reflexivity.
      + reflexivity.
      + discriminate.
      + intros [_ X]. apply B in X. discriminate.
    - split; [discriminate|]. intros [X _]. apply H in X. discriminate.
  Qed.
End Pairing.

(** * partial evaluations *)
Lemma evaluate_ok keccak key msg r : exists h, hash_to_curve_bn keccak EVAL_PREFIX msg = Ok h /\
  evaluate keccak key msg r = Ok (mkPartialEval (index key) (g1mul h (sk key))
    (challenge keccak (g1mul h (sk key)) (vk key) (g1mul h r) (g1mul g1 r) h g1 * sk key + r)%fld
    (challenge keccak (g1mul h (sk key)) (vk key) (g1mul h r) (g1mul g1 r) h g1)).
Proof.
  unfold hash_to_curve_bn. destruct (hash_to_curve_ok keccak EVAL_PREFIX msg) as [h E]. exists h. split; auto.
  unfold evaluate, hash_to_curve_bn. rewrite E. reflexivity.
Qed.
Lemma schnorr_commit (P : G1) (s r c : Fr) : (g1mul P (c * s + r)%fld ⊕ ⊖ g1mul (g1mul P s) c)%grp = g1mul P r.
Proof.
  rewrite <- g1mul_mul, <- g1mul_sub. f_equal. exact (z_times Fr (c * s + r)%fld c s r eq_refl).
Qed.
Lemma evaluate_verifies keccak key msg r e cfg : vk key = g1mul g1 (sk key) -> 1 <= index key <= number_of_members cfg ->
  evaluate keccak key msg r = Ok e -> pe_verify keccak e cfg msg (vk key) = Ok tt.
Proof.
  intros Hv Hi He. destruct (evaluate_ok keccak key msg r) as (h & Hh & E). rewrite E in He.
  match type of He with Ok ?x = Ok _ => assert (X : e = x) by congruence end. clear He. subst e.
  unfold pe_verify. cbn [pe_index pe_z pe_c pe_value].
  destruct (Z.ltb_spec (number_of_members cfg) (index key)); [lia|]. destruct (Z.ltb_spec (index key) 1); [lia|]. cbn [orb].
  rewrite Hh. cbn [bind]. 
  set (c := challenge keccak (g1mul h (sk key)) (vk key) (g1mul h r) (g1mul g1 r) h g1).
  assert (R1 : (g1mul g1 (c * sk key + r)%fld ⊕ ⊖ g1mul (vk key) c)%grp = g1mul g1 r) by (rewrite Hv; apply schnorr_commit).
  rewrite R1, schnorr_commit. fold c. rewrite feqb_refl. reflexivity.
Qed.

(** * aggregation *)
Lemma global_ok pps n : pps <> [] -> Forall (fun pp => length (public_shares pp) = n) pps ->
  dkg_global_public_params pps = Ok (mkGPP (gsum (map ga pps)) (gsum (map g2a pps))
    (map (fun i => gsum (map (fun pp => nth i (public_shares pp) g0) pps)) (seq 0 n))).
Proof.
  destruct pps as [|p0 rest]; [congruence|]. intros _ F. inversion F as [|? ? F0 Fr']; subst. unfold dkg_global_public_params.
  change (get (p0 :: rest) 0) with (Ok p0). cbn [bind skipn].
  erewrite (mapM_ok _ (fun i => nth i (public_shares p0) g0 ⊕ gsum (map (fun pp => nth i (public_shares pp) g0) rest))%grp).
  - cbn [bind map]. rewrite !gsum_cons. f_equal. f_equal.
    + rewrite <- fold_left_gadd. clear. generalize (ga p0). induction rest as [|p rest IH]; intros a; cbn [fold_left map]; auto.
    + rewrite <- fold_left_gadd. clear. generalize (g2a p0). induction rest as [|p rest IH]; intros a; cbn [fold_left map]; auto.
  - intros i Hi. apply in_seq in Hi. rewrite (get_ok _ (Z.of_nat i) (nth i (public_shares p0) g0)).
    2: lia. 2: { rewrite Nat2Z.id. apply nth_error_nth'. lia. }
    cbn [bind]. rewrite (foldM_ok _ (fun acc pp => acc ⊕ nth i (public_shares pp) g0)%grp).
    + f_equal. rewrite <- fold_left_gadd. clear. generalize (nth i (public_shares p0) g0). induction rest as [|p rest IH]; intros a; cbn [fold_left map]; auto.
    + intros s pp Hpp. rewrite Forall_forall in Fr'. specialize (Fr' pp Hpp).
      rewrite (get_ok _ (Z.of_nat i) (nth i (public_shares pp) g0)); auto; [lia|]. rewrite Nat2Z.id. apply nth_error_nth'. lia.
Qed.

(** * honest dealing *)
Section Honest.
  Variable keccak : bytes -> Z.
  Variable poseidon : Fr -> Fr -> Fr.
  Variable cfg : config.
  Variable members : list member_key.
  Variable dealers : list (list Fr * Fr).
  Hypothesis Ht : 0 < threshold cfg.
  Hypothesis Htn : threshold cfg <= number_of_members cfg.
  Hypothesis Hn : number_of_members cfg < M64.
  Hypothesis HL : zlen members = number_of_members cfg.
  Hypothesis Hk : Forall key_pair members.
  Hypothesis Hd : dealers <> [].
  Hypothesis Hc : Forall (fun d => zlen (fst d) = threshold cfg) dealers.

  Let n := length members.
  Let pks := map mk_pk members.
  Definition pp_of (d : list Fr * Fr) : member_pp :=
    mkPP (map (fun i => g1mul g1 (peval (fst d) (fr i))) (zseq n))
         (map (fun '(i, pk) => pad_of poseidon (gkmul pk (rs_of (snd d))) + peval (fst d) (fr i))%fld (combine (zseq n) pks))
         (gkmul gk (rs_of (snd d))) (g1mul g1 (hd f0 (fst d))) (g2mul g2 (hd f0 (fst d))).
  (** the sum of the dealers' polynomials *)
  Definition total_poly : list Fr := fold_right (fun d acc => padd (fst d) acc) [] dealers.
  Definition total (x : Fr) : Fr := fsum (map (fun d => peval (fst d) x) dealers).

  Lemma n_eq : Z.of_nat n = number_of_members cfg. Proof. exact HL. Qed.
  Lemma coeffs_neq d : In d dealers -> fst d <> [].
  Proof. intros I E. rewrite Forall_forall in Hc. specialize (Hc d I). rewrite E in Hc. unfold zlen in Hc. cbn in Hc. lia. Qed.
  Lemma deal_ok d : In d dealers -> exists mp, member_params_new poseidon cfg pks (fst d) (snd d) = Ok mp /\ mp_public_params mp = pp_of d.
  Proof.
    intros I. rewrite member_params_new_ok; [|lia| |apply coeffs_neq; auto].
    - eexists. split; [reflexivity|]. cbn [mp_public_params]. unfold pp_of, pks. rewrite map_length. reflexivity.
    - unfold pks, zlen. rewrite map_length. exact HL.
  Qed.
  Lemma deal_all_ok : deal_all poseidon cfg members dealers = Ok (map pp_of dealers).
  Proof.
    unfold deal_all. assert (G : forall l, (forall d, In d l -> In d dealers) -> exists mps,
        mapM (fun '(coeffs, r) => member_params_new poseidon cfg (map mk_pk members) coeffs r) l = Ok mps /\ map mp_public_params mps = map pp_of l).
    { induction l as [|d l IH]; intros H; [exists []; auto|]. destruct (IH (fun d' I => H d' (or_intror I))) as (mps & E & M).
      destruct (deal_ok d (H d (or_introl eq_refl))) as (mp & E1 & M1). exists (mp :: mps). cbn [mapM map].
      destruct d as [co r]. cbn [fst snd] in *. unfold pks in E1. rewrite E1. cbn [bind]. rewrite E. cbn [bind]. split; congruence. }
    destruct (G dealers (fun d I => I)) as (mps & E & M). rewrite E. cbn [bind]. rewrite M. reflexivity.
  Qed.
  Lemma pp_of_shares d : length (public_shares (pp_of d)) = n.
  Proof. unfold pp_of. cbn [public_shares]. rewrite map_length, length_zseq. auto. Qed.

  Lemma global_honest : dkg_global_public_params (map pp_of dealers) =
    Ok (mkGPP (g1mul g1 (group_secret dealers)) (g2mul g2 (group_secret dealers)) (map (fun i => g1mul g1 (total (fr i))) (zseq n))).
  Proof.
    rewrite (global_ok _ n).
    - rewrite !map_map. f_equal. f_equal.
      + exact (g1mul_gsum (fun d => hd f0 (fst d)) dealers g1).
      + exact (g2mul_gsum (fun d => hd f0 (fst d)) dealers).
      + unfold zseq. rewrite map_map, <- seq_shift, map_map. apply map_ext_in. intros i Hi. apply in_seq in Hi. rewrite map_map.
        unfold total. rewrite <- g1mul_gsum. f_equal. apply map_ext. intros d. unfold pp_of. cbn [public_shares].
        apply nth_error_nth. unfold zseq. rewrite !map_map, nth_error_map.
        assert (L : (i < length (seq 1 n))%nat) by (rewrite seq_length; lia).
        rewrite (nth_error_nth' _ 0%nat L), seq_nth by lia. reflexivity.
    - destruct dealers; cbn; congruence.
    - apply Forall_forall. intros pp H. apply in_map_iff in H as (d & <- & _). apply pp_of_shares.
  Qed.

  (** the ciphertext for slot i *)
  Lemma cipher_at d i m : get members (i - 1) = Ok m ->
    get (ciphers (pp_of d)) (i - 1) = Ok (pad_of poseidon (gkmul (mk_pk m) (rs_of (snd d))) + peval (fst d) (fr i))%fld.
  Proof.
    intros H. apply get_inv in H as [H0 H]. assert (L : (Z.to_nat (i - 1) < n)%nat) by (unfold n; apply nth_error_Some; congruence).
    apply get_ok; auto. unfold pp_of. cbn [ciphers]. rewrite nth_error_map.
    assert (E : nth_error (combine (zseq n) pks) (Z.to_nat (i - 1)) = Some (i, mk_pk m)).
    { assert (Z : nth_error (zseq n) (Z.to_nat (i - 1)) = Some i).
      { pose proof (get_zseq n i ltac:(lia)) as G. apply get_inv in G as [_ G]. exact G. }
      assert (P : nth_error pks (Z.to_nat (i - 1)) = Some (mk_pk m)) by (unfold pks; rewrite nth_error_map, H; auto).
      revert Z P. generalize (zseq n) pks (Z.to_nat (i - 1)). clear. induction l as [|a l IH]; intros [|b l'] [|k]; cbn; try discriminate; intros; try congruence.
      apply IH; auto. }
    rewrite E. reflexivity.
  Qed.
  Lemma share_key_ok i m : get members (i - 1) = Ok m ->
    dkg_share_key poseidon m cfg i (map pp_of dealers) = Ok (mkShareKey i (total (fr i)) (g1mul g1 (total (fr i)))).
  Proof.
    intros H. pose proof (get_inv _ _ _ H) as [H0 H1]. assert (L : (Z.to_nat (i - 1) < n)%nat) by (unfold n; apply nth_error_Some; congruence).
    pose proof n_eq. assert (Km : key_pair m) by (rewrite Forall_forall in Hk; apply Hk; eapply nth_error_In; eauto).
    unfold dkg_share_key. destruct (Z.ltb_spec i 1); [lia|]. destruct (Z.ltb_spec (number_of_members cfg) i); [lia|]. cbn [orb].
    assert (E : foldM (fun acc pp => let* c := get (ciphers pp) (i - 1) in Ok (acc + decrypt_share poseidon m (gr pp) c)%fld) (f0 : Fr) (map pp_of dealers)
      = Ok (total (fr i))).
    { unfold total. rewrite <- (add_0_l Fr (fsum _)), <- fold_left_fadd. generalize (f0 : Fr). clear -H Km.
      induction dealers as [|d l IH]; intros a; cbn [map foldM fold_left]; auto. rewrite (cipher_at d i m H). cbn [bind].
      rewrite IH. f_equal. f_equal. f_equal. unfold decrypt_share. cbn [gr pp_of]. rewrite (dh_agree m (snd d) Km). apply pad_cancel. }
    rewrite E. reflexivity.
  Qed.
  Lemma vk_at i : 1 <= i <= Z.of_nat n -> get (map (fun i => g1mul g1 (total (fr i))) (zseq n)) (i - 1) = Ok (g1mul g1 (total (fr i))).
  Proof. intros H. rewrite get_map, get_zseq by auto. reflexivity. Qed.

  Lemma total_peval x : total x = peval total_poly x.
  Proof.
    unfold total, total_poly. symmetry. apply (peval_fsum Fr fst dealers x (Z.to_nat (threshold cfg))).
    intros d I. rewrite Forall_forall in Hc. specialize (Hc d I). unfold zlen in Hc. lia.
  Qed.
  Lemma total_poly_length : (length total_poly <= Z.to_nat (threshold cfg))%nat.
  Proof.
    apply (psum_length Fr fst dealers). intros d I. rewrite Forall_forall in Hc. specialize (Hc d I). unfold zlen in Hc. lia.
  Qed.
  Lemma total_0 : total f0 = group_secret dealers.
  Proof. unfold total, group_secret. f_equal. apply map_ext. intros d. apply peval_0. Qed.

  (** Lagrange at zero over t distinct indices *)
  Lemma total_lagrange idxs : zlen idxs = threshold cfg -> NoDup idxs -> Forall (fun i => 1 <= i <= number_of_members cfg) idxs ->
    fsum (map (fun i => total (fr i) * lag (map fr idxs) f0 (fr i))%fld idxs) = group_secret dealers.
  Proof.
    intros L N F. rewrite <- total_0, total_peval.
    rewrite <- (lagrange Fr total_poly (map fr idxs) f0).
    - rewrite map_map. f_equal. apply map_ext. intros i. rewrite total_peval. reflexivity.
    - apply (NoDup_fr _ (number_of_members cfg)); auto.
    - rewrite map_length. pose proof total_poly_length. unfold zlen in L. lia.
  Qed.

  Section Eval.
    Variable nonce : Z -> Fr.
    Variable msg : bytes.
    Let gpp := mkGPP (g1mul g1 (group_secret dealers)) (g2mul g2 (group_secret dealers)) (map (fun i => g1mul g1 (total (fr i))) (zseq n)).

    Lemma member_eval_ok i : 1 <= i <= number_of_members cfg -> exists h e, hash_to_curve_bn keccak EVAL_PREFIX msg = Ok h /\
      member_eval keccak poseidon cfg members (map pp_of dealers) gpp nonce msg i = Ok e /\ pe_index e = i /\ pe_value e = g1mul h (total (fr i)).
    Proof.
      intros Hi. pose proof n_eq as En.
      assert (exists m, get members (i - 1) = Ok m) as [m Hm].
      { destruct (nth_error members (Z.to_nat (i - 1))) as [m|] eqn:E; [exists m; apply get_ok; auto; lia|].
        apply nth_error_None in E. fold n in E. lia. }
      unfold member_eval. rewrite Hm. cbn [bind]. rewrite (share_key_ok i m Hm). cbn [bind].
      set (key := mkShareKey i (total (fr i)) (g1mul g1 (total (fr i)))).
      assert (V : share_key_verify key cfg (verify_keys gpp) = Ok tt).
      { unfold share_key_verify. cbn [index key vk verify_keys gpp]. destruct (Z.ltb_spec i 1); [lia|]. destruct (Z.ltb_spec (number_of_members cfg) i); [lia|]. cbn [orb].
        rewrite vk_at by lia. cbn [bind]. rewrite (proj2 (geqb_eq G1 _ _)); auto. }
      rewrite V. cbn [bind]. destruct (evaluate_ok keccak key msg (nonce i)) as (h & Hh & E).
      match type of E with _ = Ok ?x => set (e := x) in E end.
      exists h, e. split; [exact Hh|]. split; [|split; reflexivity].
      pose proof (evaluate_verifies keccak key msg (nonce i) e cfg eq_refl Hi E) as Q.
      rewrite E. cbn [bind verify_keys gpp]. rewrite vk_at by lia. cbn [bind]. cbn [vk key] in Q. rewrite Q. reflexivity.
    Qed.

    Lemma member_evals_ok h idxs : hash_to_curve_bn keccak EVAL_PREFIX msg = Ok h -> Forall (fun i => 1 <= i <= number_of_members cfg) idxs ->
      exists es, mapM (member_eval keccak poseidon cfg members (map pp_of dealers) gpp nonce msg) idxs = Ok es /\
        map pe_index es = idxs /\ map pe_value es = map (fun i => g1mul h (total (fr i))) idxs.
    Proof.
      intros Hh. induction idxs as [|i l IH]; intros F; [exists []; auto|]. inversion F; subst.
      destruct (IH H2) as (es & E & M1 & M2). destruct (member_eval_ok i H1) as (h' & e & Hh' & E' & M1' & M2').
      rewrite Hh in Hh'. injection Hh' as <-. exists (e :: es). cbn [mapM map]. rewrite E'. cbn [bind]. rewrite E. cbn [bind].
      split; auto. split; congruence.
    Qed.

    Lemma lagrange_sum_ok h es idxs : map pe_index es = idxs -> map pe_value es = map (fun i => g1mul h (total (fr i))) idxs ->
      zlen idxs = threshold cfg -> NoDup idxs -> Forall (fun i => 1 <= i <= number_of_members cfg) idxs ->
      lagrange_sum es = g1mul h (group_secret dealers).
    Proof.
      intros E1 E2 L N F. rewrite <- (total_lagrange idxs L N F), <- g1mul_gsum. unfold lagrange_sum. rewrite E1.
      f_equal. generalize (map fr idxs). intros xs. clear -E1 E2. revert idxs E1 E2. induction es as [|e es IH]; intros [|i idxs] E1 E2; try discriminate; auto.
      cbn [map] in *. injection E1 as -> E1. injection E2 as V E2. f_equal; [|apply IH; auto].
      rewrite V, <- g1mul_mul. f_equal. apply (mul_comm Fr).
    Qed.

    Variable pairing : list (G1 * G2c) -> bool.
    Hypothesis HP : pairing_ok pairing.
    Theorem run_ok h idxs : hash_to_curve_bn keccak EVAL_PREFIX msg = Ok h ->
      zlen idxs = threshold cfg -> increasing idxs -> Forall (fun i => 1 <= i <= number_of_members cfg) idxs ->
      dvrf_run keccak pairing poseidon cfg members dealers idxs nonce msg =
      Ok (gpp, mkPseudoRandom (g1mul h (group_secret dealers)) (prf_value keccak (g1mul h (group_secret dealers)))).
    Proof.
      intros Hh L I F. unfold dvrf_run. rewrite deal_all_ok. cbn [bind]. rewrite global_honest. cbn [bind]. fold gpp.
      destruct (member_evals_ok h idxs Hh F) as (es & E & M1 & M2). rewrite E. cbn [bind].
      assert (Le : zlen es = threshold cfg) by (rewrite <- L, <- M1; unfold zlen; rewrite map_length; auto).
      rewrite combine_ok by auto. rewrite M1, (proj2 (check_indices_ok _ _) (conj I F)). cbn [bind].
      rewrite (lagrange_sum_ok h es idxs M1 M2 L (increasing_NoDup _ I) F).
      set (p := mkPseudoRandom _ _).
      assert (V : pr_verify keccak pairing p msg (g_g2a gpp) = Ok tt).
      { cbn [g_g2a gpp]. apply (pr_verify_iff keccak pairing HP p msg _ h Hh). auto. }
      rewrite V. reflexivity.
    Qed.
  End Eval.
End Honest.
