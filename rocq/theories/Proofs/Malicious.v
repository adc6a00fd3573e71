(** Dealings that the circuit accepted, by whoever made them: what honest members can do with them. *)
From Coq Require Import ZArith String List Bool Lia.
From Verif.Base Require Import Fermat Fld Fp EC Primes Curves Group Poly.
From Verif.Model Require Import Monad Evm HashEvm Points Dkg Lib.
From Verif.Spec Require Import Dvrf CircuitSpec.
From Verif.Proofs Require Import DkgProofs DvrfProofs SvdwProofs CircuitClient.
Import ListNotations.
Open Scope Z_scope.

Lemma combine_at {A B} (l : list A) (l' : list B) k a b : nth_error l k = Some a -> nth_error l' k = Some b -> nth_error (combine l l') k = Some (a, b).
Proof. revert l' k. induction l as [|x l IH]; intros [|y l'] [|k]; cbn; try discriminate; intros; try congruence. apply IH; auto. Qed.
Lemma zseq_at n i : 1 <= i <= Z.of_nat n -> nth_error (zseq n) (Z.to_nat (i - 1)) = Some i.
Proof. intros H. pose proof (get_zseq n i H) as G. apply get_inv in G as [_ G]. exact G. Qed.
Section Unpad.
  Variable K : Fld.
  Add Field Kfield : (flaw K).
  Lemma unpad (s p : K) : (s + p - p)%fld = s. Proof. ring. Qed.
End Unpad.

Section Mal.
  Variable keccak : bytes -> Z.
  Variable poseidon : Fr -> Fr -> Fr.
  Variable cfg : config.
  Variable pks : list Gk.
  Variable dealers : list (list Fr * Fq).
  Hypothesis Ht : 0 < threshold cfg.
  Hypothesis Hn : number_of_members cfg < M64.
  Hypothesis HL : zlen pks = number_of_members cfg.
  Hypothesis Hd : dealers <> [].
  Hypothesis Hc : Forall (fun d => zlen (fst d) = threshold cfg) dealers.

  Let n := length pks.
  Definition mpp (d : list Fr * Fq) : member_pp := dealt_params poseidon (fst d) (snd d) pks.
  (** the same polynomials, in the form of DvrfProofs *)
  Definition polys : list (list Fr * Fr) := map (fun d => (fst d, f0 : Fr)) dealers.
  Definition msecret : Fr := group_secret polys.
  Definition mshare (i : Z) : Fr := total polys (fr i).

  Lemma polys_len : Forall (fun d => zlen (fst d) = threshold cfg) polys.
  Proof. unfold polys. apply Forall_forall. intros d H. apply in_map_iff in H as (d' & <- & H). cbn [fst]. rewrite Forall_forall in Hc. apply Hc. exact H. Qed.

  Lemma index_range i pk : get pks (i - 1) = Ok pk -> 1 <= i <= number_of_members cfg.
  Proof.
    intros H. apply get_inv in H as [H0 H]. assert (L : (Z.to_nat (i - 1) < n)%nat) by (unfold n; apply nth_error_Some; congruence).
    unfold zlen in HL. fold n in HL. lia.
  Qed.
  (** one dealing: the member's ciphertext decrypts to the polynomial's value *)
  Lemma mal_decrypt d k i : key_pair k -> get pks (i - 1) = Ok (mk_pk k) ->
    exists c, get (ciphers (mpp d)) (i - 1) = Ok c /\ decrypt_share poseidon k (gr (mpp d)) c = poly_at (fst d) (fr i).
  Proof.
    intros Hk Hi. pose proof (index_range i _ Hi) as R. apply get_inv in Hi as [H0 Hi]. eexists. split.
    - apply get_ok; [exact H0|]. unfold mpp, dealt_params. cbn [ciphers]. rewrite nth_error_map.
      rewrite (combine_at (zseq (length pks)) pks _ i (mk_pk k)); [reflexivity| |exact Hi].
      apply zseq_at. unfold zlen in HL. lia.
    - unfold decrypt_share, mpp, dealt_params. cbn [gr]. unfold key_pair in Hk. rewrite Hk. rewrite (gkmul_comm gk (mk_sk k) (snd d)).
      apply (unpad Fr).
  Qed.
  Lemma mal_share_pub d i : 1 <= i <= number_of_members cfg -> get (public_shares (mpp d)) (i - 1) = Ok (g1mul g1 (poly_at (fst d) (fr i))).
  Proof. intros R. unfold mpp, dealt_params. cbn [public_shares]. rewrite get_map, get_zseq; [reflexivity|]. unfold zlen in HL. lia. Qed.

  Lemma mal_share_key k i : key_pair k -> get pks (i - 1) = Ok (mk_pk k) ->
    dkg_share_key poseidon k cfg i (map mpp dealers) = Ok (mkShareKey i (mshare i) (g1mul g1 (mshare i))).
  Proof.
    intros Hk Hi. pose proof (index_range i _ Hi) as R.
    unfold dkg_share_key. destruct (Z.ltb_spec i 1); [lia|]. destruct (Z.ltb_spec (number_of_members cfg) i); [lia|]. cbn [orb].
    assert (E : foldM (fun acc pp => let* c := get (ciphers pp) (i - 1) in Ok (acc + decrypt_share poseidon k (gr pp) c)%fld) (f0 : Fr) (map mpp dealers)
      = Ok (mshare i)).
    { unfold mshare, total, polys. rewrite map_map. cbn [fst]. rewrite <- (add_0_l Fr (fsum _)), <- fold_left_fadd. generalize (f0 : Fr). clear -Hk Hi HL n.
      induction dealers as [|d l IH]; intros a; cbn [map foldM fold_left]; [reflexivity|]. destruct (mal_decrypt d k i Hk Hi) as (c & Ec & Ed).
      rewrite Ec. cbn [bind]. rewrite Ed, IH. rewrite poly_at_peval. reflexivity. }
    rewrite E. reflexivity.
  Qed.
  Definition mgpp : global_pp := mkGPP (g1mul g1 msecret) (g2mul g2 msecret) (map (fun i => g1mul g1 (mshare i)) (zseq n)).
  Lemma hd_peval (l : list Fr) : poly_at l f0 = hd f0 l.
  Proof. rewrite poly_at_peval. apply peval_0. Qed.
  Lemma mal_global : dkg_global_public_params (map mpp dealers) = Ok mgpp.
  Proof.
    rewrite (global_ok _ n).
    - rewrite !map_map. unfold mgpp, msecret, group_secret, polys. f_equal. f_equal.
      + transitivity (gsum (map (fun d : list Fr * Fq => g1mul g1 (hd f0 (fst d))) dealers)).
        * f_equal. apply map_ext. intros d. unfold mpp, dealt_params. cbn [ga]. rewrite hd_peval. reflexivity.
        * rewrite map_map. exact (g1mul_gsum (fun d : list Fr * Fq => hd f0 (fst d)) dealers g1).
      + transitivity (gsum (map (fun d : list Fr * Fq => g2mul g2 (hd f0 (fst d))) dealers)).
        * f_equal. apply map_ext. intros d. unfold mpp, dealt_params. cbn [g2a]. rewrite hd_peval. reflexivity.
        * rewrite map_map. exact (g2mul_gsum (fun d : list Fr * Fq => hd f0 (fst d)) dealers).
      + unfold zseq. rewrite map_map, <- seq_shift, map_map. apply map_ext_in. intros i Hi. apply in_seq in Hi. rewrite map_map.
        unfold mshare, total, polys. rewrite map_map. cbn [fst]. rewrite <- (g1mul_gsum (fun d : list Fr * Fq => peval (fst d) (fr (Z.of_nat (S i))))). f_equal. apply map_ext. intros d.
        unfold mpp, dealt_params. cbn [public_shares].
        apply nth_error_nth. unfold zseq. rewrite !map_map, nth_error_map.
        assert (L : (i < length (seq 1 n))%nat) by (rewrite seq_length; lia).
        fold n. rewrite (nth_error_nth' _ 0%nat L), seq_nth by lia. cbn [option_map]. rewrite poly_at_peval. reflexivity.
    - destruct dealers; cbn [map]; congruence.
    - apply Forall_forall. intros pp H. apply in_map_iff in H as (d & <- & _). unfold mpp, dealt_params. cbn [public_shares].
      rewrite map_length, length_zseq. reflexivity.
  Qed.
  Lemma mal_poly : exists coeffs, zlen coeffs <= threshold cfg /\ msecret = poly_at coeffs f0 /\ forall i, mshare i = poly_at coeffs (fr i).
  Proof.
    exists (total_poly polys). pose proof (total_poly_length cfg [] polys Ht polys_len) as T.
    split; [unfold zlen; lia|]. unfold msecret, mshare. split.
    - rewrite poly_at_peval, <- (total_peval cfg [] polys Ht polys_len). symmetry. apply total_0.
    - intros i. rewrite poly_at_peval. apply (total_peval cfg [] polys Ht polys_len).
  Qed.
  Lemma mal_eval k i msg nonce : key_pair k -> get pks (i - 1) = Ok (mk_pk k) ->
    let key := mkShareKey i (mshare i) (g1mul g1 (mshare i)) in
    share_key_verify key cfg (verify_keys mgpp) = Ok tt /\
    exists h e, hash_to_curve_bn keccak EVAL_PREFIX msg = Ok h /\ evaluate keccak key msg nonce = Ok e /\
      pe_verify keccak e cfg msg (g1mul g1 (mshare i)) = Ok tt /\ pe_index e = i /\ pe_value e = g1mul h (mshare i).
  Proof.
    intros Hk Hi key. pose proof (index_range i _ Hi) as R. split.
    - unfold share_key_verify. cbn [index key vk verify_keys mgpp]. destruct (Z.ltb_spec i 1); [lia|]. destruct (Z.ltb_spec (number_of_members cfg) i); [lia|]. cbn [orb].
      rewrite get_map, get_zseq by (unfold n; unfold zlen in HL; lia). cbn [bind]. rewrite (proj2 (geqb_eq G1 _ _)); auto.
    - destruct (evaluate_ok keccak key msg nonce) as (h & Hh & E). match type of E with _ = Ok ?x => set (e := x) in E end.
      exists h, e. split; [exact Hh|]. split; [exact E|]. split; [|split; reflexivity].
      exact (evaluate_verifies keccak key msg nonce e cfg eq_refl R E).
  Qed.
  Variable pairing : list (G1 * G2c) -> bool.
  Hypothesis HP : pairing_ok pairing.
  Lemma mal_combine h msg es : hash_to_curve_bn keccak EVAL_PREFIX msg = Ok h ->
    Forall (fun e => pe_value e = g1mul h (mshare (pe_index e))) es ->
    zlen es = threshold cfg -> increasing (map pe_index es) -> Forall (fun i => 1 <= i <= number_of_members cfg) (map pe_index es) ->
    let p := mkPseudoRandom (g1mul h msecret) (prf_value keccak (g1mul h msecret)) in
    combine_partial_evaluations keccak cfg es = Ok p /\ pr_verify keccak pairing p msg (g2mul g2 msecret) = Ok tt.
  Proof.
    intros Hh Fv L I F p. split.
    - rewrite combine_ok by auto. rewrite (proj2 (check_indices_ok _ _) (conj I F)). cbn [bind].
      rewrite (lagrange_sum_ok cfg [] polys Ht Hn polys_len h es (map pe_index es) eq_refl); [reflexivity| | |exact (increasing_NoDup _ I)|exact F].
      + rewrite map_map. apply map_ext_in. intros e He. rewrite Forall_forall in Fv. exact (Fv e He).
      + unfold zlen in *. rewrite map_length. exact L.
    - apply (pr_verify_iff keccak pairing HP p msg _ h Hh). auto.
  Qed.
End Mal.
