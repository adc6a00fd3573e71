(** An instance the circuit accepts decodes to the parameters of the dealing. *)
From Coq Require Import ZArith List Bool Lia Setoid.
From Verif.Base Require Import Fermat Fld Fp EC Primes Curves Group Order Fq2 Poly.
From Verif.Model Require Import Monad Evm Points Dkg Lib GppSol.
From Verif.Spec Require Import Dvrf CircuitSpec.
From Verif.Proofs Require Import HashProofs BytesProofs HashSolProofs OnchainProofs DkgProofs DvrfProofs InstanceProofs GppProofs.
Import ListNotations.
Open Scope Z_scope.

Lemma encodes_reads (x : Fq) l : coord_encodes x l -> length l = 2%nat /\ public_to_coord l = Ok x.
Proof.
  intros (z & B & <- & ->). split; [reflexivity|]. rewrite public_to_coord_eq. f_equal. f_equal.
  assert (X : 0 <= z / 2 ^ 136 < 2 ^ 136). { assert (E : 2 ^ 254 < 2 ^ 136 * 2 ^ 136) by reflexivity. split; [apply Z.div_pos; lia|apply Z.div_lt_upper_bound; lia]. }
  pose proof (Z.mod_pos_bound z (2 ^ 136) eq_refl) as Y. pose proof B_r. rewrite !vr_fr, !Z.mod_small by lia.
  pose proof (Z.div_mod z (2 ^ 136) ltac:(discriminate)). lia.
Qed.
Lemma g1_encodes_reads (P : G1) l : g1_encodes P l -> length l = 4%nat /\ public_to_point l = Ok P.
Proof.
  intros (_ & lx & ly & -> & Hx & Hy). apply encodes_reads in Hx as [Lx Hx]. apply encodes_reads in Hy as [Ly Hy].
  split; [rewrite app_length, Lx, Ly; reflexivity|]. unfold public_to_point. change Lib.POINT_LEN with 4%nat. change Lib.COORD_LEN with 2%nat.
  rewrite app_length, Lx, Ly. cbn [Nat.eqb Nat.add assert bind]. rewrite (firstn_len _ _ 2 Lx), (skipn_len _ _ 2 Lx), Hx. cbn [bind]. rewrite Hy. cbn [bind].
  unfold g1_from_xy. rewrite (from_xy_xy Fq b1 b1_neq0 P). reflexivity.
Qed.
Lemma len2 {A} (l : list A) : length l = 2%nat -> exists a b, l = [a; b].
Proof. destruct l as [|a [|b [|]]]; cbn [length]; try discriminate. eauto. Qed.
Lemma g2_encodes_reads (P : G2c) l : g2_encodes P l -> length l = 8%nat /\ public_to_point2 l = Ok P.
Proof.
  intros (_ & l0 & l1 & l2 & l3 & -> & H0 & H1 & H2 & H3).
  apply encodes_reads in H0 as [L0 H0]. apply encodes_reads in H1 as [L1 H1]. apply encodes_reads in H2 as [L2 H2]. apply encodes_reads in H3 as [L3 H3].
  pose proof (from_xy_xy Fq2 b2 b2_neq0 P) as FX. destruct (xy P) as [[x0 x1] [y0 y1]]. cbn [fst snd] in *.
  split; [rewrite !app_length, L0, L1, L2, L3; reflexivity|].
  destruct (len2 _ L0) as (? & ? & ->). destruct (len2 _ L1) as (? & ? & ->). destruct (len2 _ L2) as (? & ? & ->). destruct (len2 _ L3) as (? & ? & ->).
  unfold public_to_point2. change (Lib.POINT_LEN * 2)%nat with 8%nat. change Lib.COORD_LEN with 2%nat. cbn [app length Nat.eqb assert bind firstn skipn Nat.mul Nat.add].
  rewrite H0. cbn [bind]. rewrite H1. cbn [bind]. rewrite H2. cbn [bind]. rewrite H3. cbn [bind]. unfold g2_from_xy. rewrite FX. reflexivity.
Qed.
Lemma read_point_enc (P : G1) l rest : g1_encodes P l -> read_point (l ++ rest) = Ok (P, rest).
Proof.
  intros H. apply g1_encodes_reads in H as [L H]. unfold read_point. rewrite take_app by exact L. cbn [bind]. rewrite H. reflexivity.
Qed.
Lemma read_points_enc (f : Z -> G1) is ls rest : Forall2 (fun i l => g1_encodes (f i) l) is ls ->
  read_n read_point (length is) (concat ls ++ rest) = Ok (map f is, rest).
Proof.
  intros H. induction H as [|i l is ls HP _ IH]; cbn [length concat read_n map]; [reflexivity|].
  rewrite <- app_assoc, (read_point_enc _ _ _ HP). cbn [bind]. rewrite IH. reflexivity.
Qed.
Lemma concat_enc_len (f : Z -> G1) is ls : Forall2 (fun i l => g1_encodes (f i) l) is ls -> length (concat ls) = (4 * length is)%nat.
Proof.
  intros H. induction H as [|i l is ls HP _ IH]; cbn [length concat]; [reflexivity|]. apply g1_encodes_reads in HP as [L _]. rewrite app_length, L, IH. lia.
Qed.
Lemma coords_len (l : list Gk) : length (flat_map gk_coords l) = (2 * length l)%nat.
Proof. induction l as [|a l IH]; cbn [flat_map length]; [reflexivity|]. rewrite app_length, IH. cbn [gk_coords length]. lia. Qed.

Theorem dealing_length poseidon cs rs pks inst : dealing_instance poseidon cs rs pks inst -> length inst = (7 * length pks + 14)%nat.
Proof.
  intros (lga & lgs & lg2 & -> & A & B & C & _). apply g1_encodes_reads in A as [LA _]. apply concat_enc_len in B. apply g2_encodes_reads in C as [LC _].
  rewrite !app_length, map_length, combine_length, length_zseq, Nat.min_id, coords_len, LA, LC, B, length_zseq. cbn [gk_coords length]. lia.
Qed.
Theorem dealing_decodes poseidon cfg cs rs pks inst : dealing_instance poseidon cs rs pks inst -> zlen pks = number_of_members cfg ->
  from_instance cfg inst = Ok (dealt_params poseidon cs rs pks, pks).
Proof.
  intros D HL. pose proof (dealing_length _ _ _ _ _ D) as LI. destruct D as (lga & lgs & lg2 & E & A & B & C & _).
  assert (Nn : Z.to_nat (number_of_members cfg) = length pks) by (unfold zlen in HL; lia).
  unfold from_instance. assert (LZ : zlen inst = instance_size cfg). { unfold instance_size, zlen in *. rewrite LI. lia. }
  rewrite LZ, Z.eqb_refl. cbn [assert bind]. rewrite Nn. rewrite E. rewrite (read_point_enc _ _ _ A). cbn [bind].
  pose proof (read_points_enc (fun i => g1mul g1 (poly_at cs (fr i))) _ _
     (lg2 ++ gk_coords (gkmul gk rs) ++ map (fun '(i, pk) => (poly_at cs (fr i) + poseidon (fst (xy (gkmul pk rs))) (snd (xy (gkmul pk rs))))%fld) (combine (zseq (length pks)) pks) ++ flat_map gk_coords pks) B) as R.
  rewrite length_zseq in R. rewrite R. cbn [bind]. clear R.
  apply g2_encodes_reads in C as [LC C]. change POINT2_LEN with 8%nat. rewrite take_app by exact LC. cbn [bind]. rewrite C. cbn [bind].
  unfold gk_coords at 1. cbn [app]. rewrite read_gk_app. cbn [bind].
  set (ci := map _ (combine _ _)). assert (Lci : length ci = length pks) by (unfold ci; rewrite map_length, combine_length, length_zseq; apply Nat.min_id).
  rewrite <- Lci at 1. rewrite <- (flat_map_singles ci) at 2. rewrite (read_n_app read_one (fun x => [x])) by reflexivity. cbn [bind].
  rewrite <- (app_nil_r (flat_map gk_coords pks)). unfold gk_coords. rewrite (read_n_app read_gk (fun pk => [fst (xy pk); snd (xy pk)])) by (intros; apply read_gk_app). cbn [bind].
  reflexivity.
Qed.
