(** createGpp against dkg_global_public_params, and the instance vector. *)
From Coq Require Import ZArith NArith String List Lia Bool Ring Field.
From Verif.Base Require Import Fermat Primes Fld Fp EC Curves Group Fq2.
From Verif.Model Require Import Monad Evm Points HashEvm Dkg Lib Zkdvrf PairingSol GppSol.
From Verif.Spec Require Import Dvrf Onchain.
From Verif.Proofs Require Import DkgProofs DvrfProofs BytesProofs HashSolProofs OnchainProofs InstanceProofs.
Import ListNotations.
Open Scope Z_scope.

(** ** the instance cursor *)
Lemma skipn_skipn {A} a b (l : list A) : skipn a (skipn b l) = skipn (a + b) l.
Proof. revert l. induction b as [|b IH]; intros l; [rewrite Nat.add_0_r; reflexivity|]. destruct l; [rewrite !skipn_nil; reflexivity|]. rewrite Nat.add_succ_r. cbn [skipn]. apply IH. Qed.
Lemma take_app a l n : length a = n -> take n (a ++ l) = Ok (a, l).
Proof.
  intros L. unfold take. rewrite app_length. destruct (Nat.leb_spec n (length a + length l)); [|lia].
  rewrite (firstn_len _ _ n L), (skipn_len _ _ n L). reflexivity.
Qed.
Lemma ptp_len P : length (point_to_public P) = 4%nat. Proof. reflexivity. Qed.
Lemma read_point_app P l : read_point (point_to_public P ++ l) = Ok (P, l).
Proof. unfold read_point. rewrite take_app by apply ptp_len. cbn [bind]. rewrite point_roundtrip. reflexivity. Qed.
Lemma read_gk_app (P : Gk) l : read_gk (fst (xy P) :: snd (xy P) :: l) = Ok (P, l).
Proof. unfold read_gk, gk_from_xy. rewrite (from_xy_xy Fr bk bk_neq0 P). reflexivity. Qed.
Lemma read_n_app {A} (f : list Fr -> res (A * list Fr)) (e : A -> list Fr) : (forall a l, f (e a ++ l) = Ok (a, l)) ->
  forall (as_ : list A) l, read_n f (length as_) (flat_map e as_ ++ l) = Ok (as_, l).
Proof.
  intros H. induction as_ as [|a as_ IH]; intros l; cbn [length flat_map read_n]; auto.
  rewrite <- app_assoc, H. cbn [bind]. rewrite IH. reflexivity.
Qed.
Lemma flat_map_singles (l : list Fr) : flat_map (fun x => [x]) l = l.
Proof. induction l; cbn [flat_map app]; [reflexivity|rewrite IHl; reflexivity]. Qed.
Theorem instance_shares pp (pks : list Gk) : length (public_shares pp) = length pks ->
  instance_of pp pks = Ok (point_to_public (ga pp) ++ flat_map point_to_public (public_shares pp) ++ point2_to_public (g2a pp)
      ++ [fst (xy (gr pp)); snd (xy (gr pp))] ++ ciphers pp ++ flat_map (fun pk => [fst (xy pk); snd (xy pk)]) pks).
Proof.
  intros L. unfold instance_of. rewrite (mapM_ok _ (fun i => point_to_public (nth i (public_shares pp) g0))).
  - cbn [bind]. rewrite <- flat_map_concat_map. do 3 f_equal. rewrite <- L. clear.
    induction (public_shares pp) as [|a l IH]; cbn [length seq flat_map nth]; auto. f_equal. rewrite <- seq_shift, flat_map_concat_map, map_map, <- flat_map_concat_map. exact IH.
  - intros i Hi. apply in_seq in Hi. rewrite (get_ok _ (Z.of_nat i) (nth i (public_shares pp) g0)); auto; [lia|]. rewrite Nat2Z.id. apply nth_error_nth'. change (length pks) with (@length Gk pks) in Hi. lia.
Qed.
Theorem from_instance_of cfg pp pks inst : zlen pks = number_of_members cfg -> length (public_shares pp) = length pks -> length (ciphers pp) = length pks ->
  instance_of pp pks = Ok inst -> zlen inst = instance_size cfg -> from_instance cfg inst = Ok (pp, pks).
Proof.
  intros N S C I L. rewrite instance_shares in I by auto. unfold from_instance. rewrite L, Z.eqb_refl. cbn [assert bind].
  assert (E : inst = point_to_public (ga pp) ++ flat_map point_to_public (public_shares pp) ++ point2_to_public (g2a pp)
      ++ [fst (xy (gr pp)); snd (xy (gr pp))] ++ ciphers pp ++ flat_map (fun pk => [fst (xy pk); snd (xy pk)]) pks) by congruence. clear I. subst inst.
  assert (Nn : Z.to_nat (number_of_members cfg) = length pks) by (unfold zlen in N; lia). rewrite Nn.
  rewrite read_point_app. cbn [bind]. rewrite <- S at 1. rewrite (read_n_app read_point point_to_public read_point_app). cbn [bind].
  change POINT2_LEN with 8%nat. rewrite take_app. 2:{ unfold point2_to_public. destruct (xy (g2a pp)). reflexivity. }
  cbn [bind]. rewrite point2_roundtrip. cbn [bind app]. rewrite read_gk_app. cbn [bind].
  rewrite <- C at 1. rewrite <- (flat_map_singles (ciphers pp)) at 2. rewrite (read_n_app read_one (fun x => [x])) by reflexivity. cbn [bind].
  rewrite <- (app_nil_r (flat_map _ pks)). rewrite (read_n_app read_gk (fun pk => [fst (xy pk); snd (xy pk)])) by (intros; apply read_gk_app). cbn [bind].
  destruct pp. reflexivity.
Qed.

Lemma take_inv n l a l' : take n l = Ok (a, l') -> (n <= length l)%nat /\ a = firstn n l /\ l' = skipn n l.
Proof. unfold take. destruct (Nat.leb_spec n (length l)); [|discriminate]. intros H'. inversion H'. auto. Qed.
Lemma read_n_points n : forall l Ps l', read_n read_point n l = Ok (Ps, l') ->
  length Ps = n /\ forall k, (k < n)%nat -> public_to_point (firstn 4 (skipn (4 * k) l)) = Ok (nth k Ps g0).
Proof.
  induction n as [|n IH]; intros l Ps l' H; cbn [read_n] in H.
  - inversion H. split; auto. intros; lia.
  - unfold read_point at 1 in H. destruct (take Lib.POINT_LEN l) as [[a l1]| |] eqn:T; try discriminate. cbn [bind] in H.
    apply take_inv in T as (T1 & -> & ->). change Lib.POINT_LEN with 4%nat in *. destruct (public_to_point (firstn 4 l)) as [P| |] eqn:EP; try discriminate. cbn [bind] in H.
    destruct (read_n read_point n (skipn 4 l)) as [[r l2]| |] eqn:R; try discriminate. cbn [bind] in H.
    assert (X : Ps = P :: r) by congruence. subst Ps. apply IH in R as [R1 R2]. split; [exact (f_equal S R1)|]. intros [|k] Hk.
    + exact EP.
    + cbn [nth]. rewrite <- (R2 k) by (clear -Hk; lia). rewrite skipn_skipn. replace (4 * S k)%nat with (4 * k + 4)%nat by lia. reflexivity.
Qed.
Lemma from_instance_points cfg inst pp pks : from_instance cfg inst = Ok (pp, pks) ->
  zlen inst = instance_size cfg /\ length (public_shares pp) = Z.to_nat (number_of_members cfg) /\
  forall k, (k <= Z.to_nat (number_of_members cfg))%nat -> public_to_point (firstn 4 (skipn (4 * k) inst)) = Ok (nth k (ga pp :: public_shares pp) g0).
Proof.
  unfold from_instance. destruct (Z.eqb_spec (zlen inst) (instance_size cfg)) as [L|]; [|discriminate]. cbn [assert bind]. intros H.
  unfold read_point at 1 in H. destruct (take Lib.POINT_LEN inst) as [[a l1]| |] eqn:T; try discriminate. cbn [bind] in H.
  apply take_inv in T as (T1 & -> & ->). change Lib.POINT_LEN with 4%nat in *. destruct (public_to_point (firstn 4 inst)) as [P| |] eqn:EP; try discriminate. cbn [bind] in H.
  destruct (read_n read_point _ _) as [[gs l2]| |] eqn:R; try discriminate. cbn [bind] in H.
  destruct (take POINT2_LEN l2) as [[a2 l3]| |]; try discriminate. cbn [bind] in H.
  destruct (public_to_point2 a2) as [Q| |]; try discriminate. cbn [bind] in H.
  destruct (read_gk l3) as [[g l4]| |]; try discriminate. cbn [bind] in H.
  destruct (read_n read_one _ _) as [[cs l5]| |]; try discriminate. cbn [bind] in H.
  destruct (read_n read_gk _ _) as [[pks' l6]| |]; try discriminate. cbn [bind] in H.
  assert (X : pp = mkPP gs cs g P Q) by congruence. subst pp. cbn [public_shares ga]. apply read_n_points in R as [R1 R2].
  split; auto. split; auto. intros [|k] Hk; [exact EP|]. cbn [nth]. rewrite <- (R2 k) by (clear -Hk; lia). rewrite skipn_skipn. replace (4 * S k)%nat with (4 * k + 4)%nat by lia. reflexivity.
Qed.

(** ** reading on chain *)
Lemma chk_inv m x y : chk m x = Ok y -> y = x.
Proof. unfold chk. destruct (_ && _); congruence. Qed.
Lemma readBnG1_inv l p : readBnG1 l = Ok p -> exists a c d e, l = [a; c; d; e] /\ p = (c * 2 ^ 136 + a, e * 2 ^ 136 + d).
Proof.
  unfold readBnG1. intros H. destruct (Z.eqb_spec (Z.of_nat (length l)) GppSol.POINT_LEN) as [L|]; [|discriminate].
  destruct l as [|a [|c [|d [|e [|]]]]]; try discriminate L. 2:{ cbn [length] in L. rewrite !Nat2Z.inj_succ in L. change GppSol.POINT_LEN with 4 in L. lia. }
  exists a, c, d, e. split; auto. cbn [assert bind] in H. change (Z.of_nat (length [a; c; d; e])) with 4 in H.
  change (Z.to_nat (GppSol.COORD_LEN - 1)) with 1%nat in H. change (Z.to_nat (4 - 1 - GppSol.COORD_LEN)) with 1%nat in H.
  change (at_ [a; c; d; e] (GppSol.COORD_LEN - 1)) with (Ok c) in H. change (at_ [a; c; d; e] (4 - 1)) with (Ok e) in H. cbn [bind read_down] in H.
  change (at_ [a; c; d; e] (GppSol.COORD_LEN - 1 - 1)) with (Ok a) in H. change (at_ [a; c; d; e] (4 - 1 - 1)) with (Ok d) in H. cbn [bind] in H.
  destruct (mul256 c BASE) as [m1| |] eqn:M1; try discriminate. cbn [bind] in H. destruct (add256 m1 a) as [s1| |] eqn:S1; try discriminate. cbn [bind] in H.
  destruct (mul256 e BASE) as [m2| |] eqn:M2; try discriminate. cbn [bind] in H. destruct (add256 m2 d) as [s2| |] eqn:S2; try discriminate. cbn [bind] in H.
  apply chk_inv in M1, S1, M2, S2. rewrite BASE_eq in *. subst. congruence.
Qed.
Lemma public_to_point_4 a c d e : public_to_point [a; c; d; e] = unwrap (g1_from_xy (fq (vr c * 2 ^ 136 + vr a)) (fq (vr e * 2 ^ 136 + vr d))).
Proof.
  unfold public_to_point. change Lib.POINT_LEN with 4%nat. change Lib.COORD_LEN with 2%nat. cbn [length Nat.eqb assert bind firstn skipn].
  rewrite !public_to_coord_eq. reflexivity.
Qed.
Lemma read_same l p P Q : readBnG1 (map vr l) = Ok p -> decode p = Some P -> public_to_point l = Ok Q -> P = Q.
Proof.
  intros R D H. apply readBnG1_inv in R as (a & c & d & e & E & ->). destruct l as [|a' [|c' [|d' [|e' [|]]]]]; try discriminate E.
  cbn [map] in E. inversion E. subst. rewrite public_to_point_4 in H. unfold decode in D. cbn [fst snd] in D. destruct (_ && _); [|discriminate].
  rewrite D in H. cbn [unwrap] in H. congruence.
Qed.

Lemma cslice_map l (b : nat) : cslice (map vr l) (Z.of_nat b) (Z.of_nat b + 4) =
  if (b + 4 <=? length l)%nat then Ok (map vr (firstn 4 (skipn b l))) else Panic "slice out of bounds".
Proof.
  unfold cslice. rewrite map_length. destruct (Nat.leb_spec (b + 4) (length l)).
  - assert (E : (0 <=? Z.of_nat b) && (Z.of_nat b <=? Z.of_nat b + 4) && (Z.of_nat b + 4 <=? Z.of_nat (length l)) = true).
    { repeat (apply andb_true_intro; split); apply Z.leb_le; lia. }
    rewrite E. replace (Z.of_nat b + 4 - Z.of_nat b) with 4 by lia. rewrite Nat2Z.id. change (Z.to_nat 4) with 4%nat. rewrite <- firstn_map, <- skipn_map. reflexivity.
  - destruct (Z.leb_spec (Z.of_nat b + 4) (Z.of_nat (length l))); [lia|]. rewrite andb_false_r. reflexivity.
Qed.
Lemma enc_g0 : enc g0 = (0, 0). Proof. reflexivity. Qed.

Section Sum.
  Variable b : nat.
  Definition step (acc : pt) (inst : list Z) : res pt := let* s := cslice inst (Z.of_nat b) (Z.of_nat b + 4) in let* p := readBnG1 s in addition acc p.
  Lemma sum_step_ok insts : forall (pts : list G1) (A : G1),
    Forall2 (fun inst P => readBnG1 (map vr (firstn 4 (skipn b inst))) = Ok (enc P) /\ (b + 4 <= length inst)%nat) insts pts ->
    foldM step (enc A) (map (map vr) insts) = Ok (enc (A ⊕ gsum pts)%grp).
  Proof.
    induction insts as [|i insts IH]; intros pts A F; inversion F as [|? P ? pts' [H1 H2] F' E1 E2]; subst; cbn [map foldM].
    - rewrite gsum_nil, g0_r. reflexivity.
    - unfold step at 1. rewrite cslice_map. destruct (Nat.leb_spec (b + 4) (length i)); [|lia]. cbn [bind]. rewrite H1. cbn [bind]. rewrite addition_enc. cbn [bind].
      rewrite (IH pts' (A ⊕ P)%grp F'). rewrite gsum_cons, (gassoc G1). reflexivity.
  Qed.
  Lemma sum_step_inv insts : forall (pts : list G1) (A : G1) p,
    Forall2 (fun inst P => public_to_point (firstn 4 (skipn b inst)) = Ok P) insts pts ->
    foldM step (enc A) (map (map vr) insts) = Ok p -> p = enc (A ⊕ gsum pts)%grp.
  Proof.
    induction insts as [|i insts IH]; intros pts A p F; inversion F as [|? P ? pts' H1 F' E1 E2]; subst; cbn [map foldM]; intros H.
    - rewrite gsum_nil, g0_r. congruence.
    - unfold step at 1 in H. rewrite cslice_map in H. destruct (Nat.leb_spec (b + 4) (length i)) as [L|]; [|discriminate]. cbn [bind] in H.
      destruct (readBnG1 _) as [p1| |] eqn:R; try discriminate. cbn [bind] in H. unfold addition in H. rewrite decode_enc in H.
      destruct (decode p1) as [P'|] eqn:D; [|discriminate]. cbn [bind] in H. assert (P' = P) by (eapply read_same; eauto). subst P'.
      rewrite (IH pts' (A ⊕ P)%grp p F' H). rewrite gsum_cons, (gassoc G1). reflexivity.
  Qed.
End Sum.

Lemma Forall2_map_l {A B C} (f : A -> B) (R : B -> C -> Prop) l l' : Forall2 R (map f l) l' <-> Forall2 (fun a => R (f a)) l l'.
Proof. revert l'. induction l; intros l'; cbn [map]; split; intros H; inversion H; subst; constructor; auto; apply IHl; auto. Qed.

Section Swap.
  Variable K : Fld.
  Add Field Kswap : (flaw K).
  Lemma swap_sum (a s : K) : (- f1 * s + (a * f1 + f0) = a * f1 + (- f1 * s + f0))%fld. Proof. ring. Qed.
End Swap.
Section Create.
  Variable in_g2 : G2c -> bool.
  Variable pairing : list (G1 * G2c) -> bool.
  Hypothesis HG : in_g2_ok in_g2.
  Hypothesis HP : pairing_ok pairing.

  Lemma sum_points_eq insts (b : nat) : sum_points insts (Z.of_nat b) (Z.of_nat b + 4) = foldM (step b) (enc g0) insts.
  Proof. reflexivity. Qed.
  Lemma vk_loop_inv insts : forall n (b : nat) vks, vk_loop insts n (Z.of_nat b) (Z.of_nat b + 4) = Ok vks ->
    length vks = n /\ forall j, (j < n)%nat -> sum_points insts (Z.of_nat (b + 4 * j)) (Z.of_nat (b + 4 * j) + 4) = Ok (nth j vks (0, 0)).
  Proof.
    induction n as [|n IH]; intros b vks H; cbn [vk_loop] in H.
    - inversion H. split; auto. intros; lia.
    - destruct (sum_points insts (Z.of_nat b) (Z.of_nat b + 4)) as [x| |] eqn:SP; try discriminate. cbn [bind] in H.
      destruct (add32 (Z.of_nat b + 4) GppSol.POINT_LEN) as [e'| |] eqn:A; try discriminate. cbn [bind] in H. apply chk_inv in A. subst e'.
      change GppSol.POINT_LEN with 4 in H. replace (Z.of_nat b + 4) with (Z.of_nat (b + 4)) in H by lia.
      destruct (vk_loop insts n (Z.of_nat (b + 4)) (Z.of_nat (b + 4) + 4)) as [r| |] eqn:V; try discriminate. cbn [bind] in H.
      assert (vks = x :: r) by congruence. subst vks. apply IH in V as [V1 V2]. split; [cbn; lia|]. intros [|j] Hj.
      + rewrite Nat.mul_0_r, Nat.add_0_r. exact SP.
      + cbn [nth]. rewrite <- V2 by lia. replace (b + 4 * S j)%nat with (b + 4 + 4 * j)%nat by lia. reflexivity.
  Qed.
  Lemma vk_loop_ok insts (f : nat -> pt) : forall n (b : nat), Z.of_nat b + 4 * Z.of_nat n + 4 < M32 ->
    (forall j, (j < n)%nat -> sum_points insts (Z.of_nat (b + 4 * j)) (Z.of_nat (b + 4 * j) + 4) = Ok (f j)) ->
    vk_loop insts n (Z.of_nat b) (Z.of_nat b + 4) = Ok (map f (seq 0 n)).
  Proof.
    intros n. revert f. induction n as [|n IH]; intros f b B H; cbn [vk_loop]; auto.
    pose proof (H 0%nat ltac:(lia)) as H0. rewrite Nat.mul_0_r, Nat.add_0_r in H0. rewrite H0. cbn [bind].
    change GppSol.POINT_LEN with 4. replace (add32 (Z.of_nat b + 4) 4) with (Ok (Z.of_nat (b + 4) + 4)).
    2:{ unfold add32, chk. destruct (Z.leb_spec 0 (Z.of_nat b + 4 + 4)), (Z.ltb_spec (Z.of_nat b + 4 + 4) M32); cbn [andb]; try lia. f_equal. lia. }
    cbn [bind]. replace (Z.of_nat b + 4) with (Z.of_nat (b + 4)) by lia. rewrite (IH (fun j => f (S j))).
    - cbn [bind seq map]. rewrite <- seq_shift, map_map. reflexivity.
    - lia.
    - intros j Hj. rewrite <- H by lia. replace (b + 4 * S j)%nat with (b + 4 + 4 * j)%nat by lia. reflexivity.
  Qed.

  (** *** G2 words *)
  Definition words2 (g : g2pt) : option G2c := decode2 (gx0 g) (gx1 g) (gy0 g) (gy1 g).
  Lemma words2_enc2 (Q : G2c) : words2 (enc2 Q) = Some Q.
  Proof.
    pose proof (from_xy_xy Fq2 b2 b2_neq0 Q) as H. unfold words2, enc2. destruct (xy Q) as [[x0 x1] [y0 y1]]. cbn [fst snd gx0 gx1 gy0 gy1] in *.
    unfold decode2. change (fval (x0 : Fp q_mod)) with (v x0). change (fval (x1 : Fp q_mod)) with (v x1). change (fval (y0 : Fp q_mod)) with (v y0). change (fval (y1 : Fp q_mod)) with (v y1).
    rewrite !canon_v. cbn [andb]. unfold fq2, g2_from_xy. rewrite !fq_v. exact H.
  Qed.
  Lemma enc2_words2 g Q : words2 g = Some Q -> enc2 Q = g.
  Proof.
    unfold words2, decode2. destruct (_ && _) eqn:C; [|discriminate]. intros H. apply (xy_from_xy Fq2 b2) in H. unfold enc2. rewrite H.
    apply andb_prop in C as [C C4]. apply andb_prop in C as [C C3]. apply andb_prop in C as [C1 C2]. apply canon_iff in C1, C2, C3, C4.
    unfold fq2. cbn [fst snd]. change (fval (fq (gx0 g) : Fp q_mod)) with (gx0 g mod q_mod). change (fval (fq (gx1 g) : Fp q_mod)) with (gx1 g mod q_mod).
    change (fval (fq (gy0 g) : Fp q_mod)) with (gy0 g mod q_mod). change (fval (fq (gy1 g) : Fp q_mod)) with (gy1 g mod q_mod).
    rewrite !Z.mod_small by auto. destruct g; reflexivity.
  Qed.
  Lemma P2_enc2 : P2 = enc2 g2. Proof. reflexivity. Qed.
  Lemma in_g2_g2 : in_g2 g2 = true. Proof. apply HG. exists (f1 : Fr). reflexivity. Qed.

  Definition mem2 (g : g2pt) : option G2c := match words2 g with Some Q => if in_g2 Q then Some Q else None | None => None end.
  Lemma mem2_iff g Q : mem2 g = Some Q <-> g = enc2 Q /\ exists s : Fr, Q = g2mul g2 s.
  Proof.
    unfold mem2. split.
    - destruct (words2 g) as [Q'|] eqn:W; [|discriminate]. destruct (in_g2 Q') eqn:I; [|discriminate]. intros E. assert (Q' = Q) by congruence. subst Q'.
      split; [symmetry; apply enc2_words2; auto|]. apply HG. auto.
    - intros [-> S]. rewrite words2_enc2. apply HG in S. rewrite S. reflexivity.
  Qed.
  Lemma prod2_ok P1 (Q1 : g2pt) P2 (Q2 : g2pt) : pairingProd2 in_g2 pairing P1 Q1 P2 Q2 =
    match decode P1, mem2 Q1, decode P2, mem2 Q2 with
    | Some A, Some B, Some C, Some D => Ok (pairing [(A, B); (C, D)])
    | _, _, _, _ => invalid
    end.
  Proof.
    unfold pairingProd2, pairing_sol. cbn [length Nat.eqb require bind]. unfold pairing_input. cbn [combine flat_map app]. unfold ecpairing. cbn [decode_pairs].
    unfold mem2, words2. destruct P1 as [p1x p1y], P2 as [p2x p2y]. cbn [fst snd].
    destruct (decode (p1x, p1y)); auto. destruct (decode2 (gx0 Q1) _ _ _) as [B|]; auto. 
    destruct (decode (p2x, p2y)); [|destruct (in_g2 B); auto]. destruct (decode2 (gx0 Q2) _ _ _) as [D|]; [|destruct (in_g2 B); auto].
    destruct (in_g2 D); [|destruct (in_g2 B); auto]. destruct (in_g2 B); auto. cbn [bind]. destruct (pairing _); reflexivity.
  Qed.
  (** e(ga, P2) e(-P1, gpk) = 1 *)
  Lemma mem2_g2 : mem2 P2 = Some g2.
  Proof. rewrite P2_enc2. apply mem2_iff. split; auto. exists (f1 : Fr). reflexivity. Qed.
  Lemma gpk_check (A : G1) gpk b : pairingProd2 in_g2 pairing (enc A) P2 (enc (⊖ g1)%grp) gpk = Ok b ->
    (b = true <-> exists s : Fr, A = g1mul g1 s /\ gpk = enc2 (g2mul g2 s)).
  Proof.
    rewrite prod2_ok, !decode_enc, mem2_g2.
    destruct (mem2 gpk) as [Q|] eqn:M; [|discriminate]. intros E. assert (Eb : b = pairing [(A, g2); ((⊖ g1)%grp, Q)]) by congruence. clear E. subst b.
    apply mem2_iff in M as [-> [s ->]]. destruct (G1_dlog A) as [a ->].
    assert (EP : [(g1mul g1 a, g2); ((⊖ g1)%grp, g2mul g2 s)] = map (fun '(a, b) => (g1mul g1 a, g2mul g2 b)) [(a, f1 : Fr); ((- f1)%fld : Fr, s)]).
    { cbn [map]. rewrite g1mul_opp. reflexivity. }
    rewrite EP, HP, feqb_eq. cbn [map]. rewrite !fsum_cons, fsum_nil.
    assert (ID : (a * f1 + (- f1 * s + f0) = f0)%fld <-> a = s).
    { pose proof (pairing_id Fr f1 a s) as I. split; intros X.
      - assert (Y : (a = f1 * s)%fld) by (apply I; exact (eq_trans (swap_sum Fr a s) X)). rewrite Y. exact (mul_1_l Fr s).
      - refine (eq_trans (eq_sym (swap_sum Fr a s)) _). apply I. rewrite X. symmetry. exact (mul_1_l Fr s). }
    rewrite ID. split.
    - intros ->. exists s. split; reflexivity.
    - intros (s' & E1 & E2). apply g1mul_inj in E1; [|exact g1_neq0]. subst s'. assert (E3 : g2mul g2 s = g2mul g2 a).
      { pose proof (words2_enc2 (g2mul g2 s)) as W. rewrite E2, words2_enc2 in W. congruence. }
      apply g2mul_inj in E3. auto.
  Qed.
  Lemma gpk_check_ok (s : Fr) : pairingProd2 in_g2 pairing (enc (g1mul g1 s)) P2 (enc (⊖ g1)%grp) (enc2 (g2mul g2 s)) = Ok true.
  Proof.
    pose proof (gpk_check (g1mul g1 s) (enc2 (g2mul g2 s))) as C. revert C. rewrite prod2_ok, !decode_enc, mem2_g2.
    rewrite (proj2 (mem2_iff (enc2 (g2mul g2 s)) (g2mul g2 s))) by eauto. intros C. f_equal. apply (C _ eq_refl). eauto.
  Qed.

  (** *** createGpp *)
  Theorem createGpp_inv cfg insts pps gpk g' vks : insts <> [] ->
    Forall2 (fun inst pp => exists pks, from_instance cfg inst = Ok (pp, pks)) insts pps ->
    createGpp in_g2 pairing (number_of_members cfg) gpk (map (map vr) insts) = Ok (g', vks) ->
    exists gpp s, dkg_global_public_params pps = Ok gpp /\ vks = map enc (verify_keys gpp) /\ g' = gpk /\
      g_ga gpp = g1mul g1 s /\ gpk = enc2 (g2mul g2 s).
  Proof.
    intros NE F H. set (n := Z.to_nat (number_of_members cfg)).
    assert (FP : forall k, (k <= n)%nat -> Forall2 (fun inst P => public_to_point (firstn 4 (skipn (4 * k) inst)) = Ok P) insts (map (fun pp => nth k (ga pp :: public_shares pp) g0) pps)).
    { intros k Hk. clear NE H. induction F as [|i pp insts pps [pks E] F IH]; cbn [map]; constructor; auto. apply from_instance_points in E as (_ & _ & E). apply E. exact Hk. }
    assert (SH : Forall (fun pp => length (public_shares pp) = n) pps).
    { clear NE H FP. induction F as [|i pp insts pps [pks E] F IH]; constructor; auto. apply from_instance_points in E as (_ & E & _). exact E. }
    assert (NP : pps <> []) by (destruct F; congruence).
    unfold createGpp in H. rewrite P1_enc, negate_enc in H. destruct (require _ "too many instances") in H; try discriminate. cbn [bind] in H. destruct (mul32 4 _) in H; try discriminate. cbn [bind] in H.
    destruct (add32 _ 4) in H; try discriminate. cbn [bind] in H. destruct (foldM _ tt _) in H; try discriminate. cbn [bind] in H.
    destruct (sum_points _ 0 GppSol.POINT_LEN) as [pa| |] eqn:SA in H; try discriminate. cbn [bind] in H.
    destruct (vk_loop _ _ _ _) as [vs| |] eqn:VL in H; try discriminate. cbn [bind] in H.
    change (sum_points (map (map vr) insts) 0 GppSol.POINT_LEN) with (foldM (step 0) (enc g0) (map (map vr) insts)) in SA.
    apply (sum_step_inv 0 insts _ g0 pa (FP 0%nat ltac:(lia))) in SA.
    assert (GA : (g0 ⊕ gsum (map (fun pp => nth 0 (ga pp :: public_shares pp) g0) pps))%grp = gsum (map ga pps)) by (rewrite (g0_l G1); reflexivity).
    rewrite GA in SA. subst pa.
    destruct (pairingProd2 _ _ _ _ _ _) as [b| |] eqn:PC in H; try discriminate. cbn [bind] in H.
    destruct b; cbn [require bind] in H; [|discriminate]. assert (g' = gpk /\ vks = vs) as [-> ->] by (split; congruence). clear H.
    destruct (proj1 (gpk_check _ _ _ PC) eq_refl) as (sec & Es & Eg). 
    rewrite (global_ok pps n) by auto. do 2 eexists. split; [reflexivity|]. cbn [verify_keys g_ga]. split; [|eauto].
    change GppSol.POINT_LEN with (Z.of_nat 4) in VL at 1. change (GppSol.POINT_LEN + GppSol.POINT_LEN) with (Z.of_nat 4 + 4) in VL. apply vk_loop_inv in VL as [VL VS]. fold n in VL, VS.
    apply (nth_ext _ _ (0, 0) (0, 0)).
    - rewrite !map_length, seq_length. exact VL.
    - intros j Hj0. assert (Hj : (j < n)%nat) by (rewrite <- VL; exact Hj0). clear Hj0. specialize (VS j Hj). rewrite sum_points_eq in VS.
      apply (sum_step_inv (4 + 4 * j) insts (map (fun pp => nth j (public_shares pp) g0) pps) g0) in VS.
      + refine (eq_trans VS _). rewrite (g0_l G1). rewrite map_map.
        pose (f := fun i : nat => enc (gsum (map (fun pp => nth i (public_shares pp) g0) pps))).
        change (f j = nth j (map f (seq 0 n)) (0, 0)). rewrite (nth_indep (map f (seq 0 n)) (0, 0) (f 0%nat)) by (rewrite map_length, seq_length; auto).
        rewrite (map_nth f), seq_nth by auto. reflexivity.
      + pose proof (FP (S j) ltac:(lia)) as X. replace (4 * S j)%nat with (4 + 4 * j)%nat in X by lia. exact X.
  Qed.

  (** for the instance vectors of well-formed parameters the contract stores exactly the client's verification keys, and it
      accepts a global key iff it has the discrete logarithm of the sum of the dealers' ga *)
  Theorem createGpp_ok cfg pps (pkss : list (list Gk)) insts gpk : pps <> [] -> zlen pps <= number_of_members cfg -> 4 * number_of_members cfg + 8 < M32 ->
    Forall2 (fun pp pks => zlen pks = number_of_members cfg /\ length (public_shares pp) = length pks /\ length (ciphers pp) = length pks) pps pkss ->
    Forall2 (fun '(pp, pks) inst => instance_of pp pks = Ok inst) (combine pps pkss) insts ->
    exists gpp, dkg_global_public_params pps = Ok gpp /\
      (forall s : Fr, g_ga gpp = g1mul g1 s -> gpk = enc2 (g2mul g2 s) ->
        createGpp in_g2 pairing (number_of_members cfg) gpk (map (map vr) insts) = Ok (gpk, map enc (verify_keys gpp))).
  Proof.
    intros NE HL HB FW FI. set (n := Z.to_nat (number_of_members cfg)).
    assert (SH : Forall (fun pp => length (public_shares pp) = n) pps).
    { clear - FW. induction FW as [|pp pks pps pkss (A & B & _) F IH]; constructor; auto. unfold zlen in A. change (@length Gk pks) with (length pks) in *. unfold n. lia. }
    rewrite (global_ok pps n) by auto. eexists. split; [reflexivity|]. cbn [g_ga verify_keys]. intros sec Es ->.
    assert (LI : length insts = length pps).
    { assert (X : length (combine pps pkss) = length insts) by (clear -FI; induction FI; cbn [length]; auto).
      assert (Y : length pps = length pkss) by (clear -FW; induction FW; cbn [length]; auto). rewrite combine_length in X. lia. }
    assert (RD : forall k, (k <= n)%nat -> Forall2 (fun inst P => readBnG1 (map vr (firstn 4 (skipn (4 * k) inst))) = Ok (enc P) /\ (4 * k + 4 <= length inst)%nat) insts (map (fun pp => nth k (ga pp :: public_shares pp) g0) pps)).
    { intros k Hk. clear NE HL Es LI. revert insts FI. induction FW as [|pp pks pps pkss (A & B & C) F IH]; cbn [combine map]; intros insts FI; inversion FI as [|? inst ? insts' E FI' X Y]; subst; constructor.
      - rewrite instance_shares in E by auto. inversion SH; subst.
        match type of E with Ok ?x = _ => assert (Z : inst = x) by congruence end. rewrite Z. clear E Z.
        set (rest := (point2_to_public (g2a pp) ++ _)%list).
        assert (G : forall (l : list G1) k, (k < length l)%nat -> exists a b, flat_map point_to_public l ++ rest = a ++ point_to_public (nth k l g0) ++ b /\ length a = (4 * k)%nat).
        { clear. induction l as [|P l IH]; cbn [length]; [lia|]. intros [|k] Hk.
          - exists [], (flat_map point_to_public l ++ rest). cbn [flat_map app nth length]. rewrite <- app_assoc. split; [reflexivity|lia].
          - destruct (IH k ltac:(lia)) as (a & b & E & L). exists (point_to_public P ++ a), b. cbn [flat_map nth]. rewrite <- !app_assoc, E. split; auto.
            rewrite app_length, ptp_len, L. lia. }
        destruct (G (ga pp :: public_shares pp) k) as (a & b & E & L); [cbn [length]; lia|]. cbn [flat_map] in E. rewrite <- app_assoc in E. rewrite E.
        rewrite (skipn_len a _ _ L), (firstn_len _ _ 4 (ptp_len _)), readBnG1_enc. split; auto. rewrite !app_length, ptp_len, L. lia.
      - inversion SH; subst. apply IH; auto. }
    unfold createGpp. rewrite map_length, LI. destruct (Z.leb_spec (Z.of_nat (length pps)) (number_of_members cfg)); [|unfold zlen in HL; lia]. cbn [require bind].
    assert (HN : 0 <= number_of_members cfg) by (unfold zlen in HL; lia).
    replace (mul32 4 (number_of_members cfg)) with (Ok (4 * number_of_members cfg)).
    2:{ unfold mul32, chk. destruct (Z.leb_spec 0 (4 * number_of_members cfg)), (Z.ltb_spec (4 * number_of_members cfg) M32); cbn [andb]; auto; lia. }
    cbn [bind]. replace (add32 (4 * number_of_members cfg) 4) with (Ok (4 * number_of_members cfg + 4)).
    2:{ unfold add32, chk. destruct (Z.leb_spec 0 (4 * number_of_members cfg + 4)), (Z.ltb_spec (4 * number_of_members cfg + 4) M32); cbn [andb]; auto; lia. }
    cbn [bind].
    replace (foldM (fun _ inst => require (4 * number_of_members cfg + 4 <=? Z.of_nat (length inst)) "not enough elements") tt (map (map vr) insts)) with (Ok tt).
    2:{ pose proof (RD n ltac:(lia)) as X. clear - X HN. revert X. generalize (map (fun pp => nth n (ga pp :: public_shares pp) g0) pps). induction insts as [|i insts IH]; intros pts X; inversion X as [|? P ? pts' [_ L] X']; subst; cbn [map foldM]; auto.
        rewrite map_length. destruct (Z.leb_spec (4 * number_of_members cfg + 4) (Z.of_nat (length i))); [|unfold n in L; lia]. cbn [require bind]. apply (IH pts'). exact X'. }
    cbn [bind]. change (sum_points (map (map vr) insts) 0 GppSol.POINT_LEN) with (foldM (step 0) (enc g0) (map (map vr) insts)).
    rewrite (sum_step_ok 0 insts _ g0 (RD 0%nat ltac:(lia))). cbn [bind].
    assert (GA : (g0 ⊕ gsum (map (fun pp => nth 0 (ga pp :: public_shares pp) g0) pps))%grp = gsum (map ga pps)) by (rewrite (g0_l G1); reflexivity).
    rewrite GA. change GppSol.POINT_LEN with (Z.of_nat 4) at 1. change (GppSol.POINT_LEN + GppSol.POINT_LEN) with (Z.of_nat 4 + 4).
    rewrite (vk_loop_ok _ (fun i => enc (gsum (map (fun pp => nth i (public_shares pp) g0) pps)))).
    - fold n. cbn [bind]. rewrite P1_enc, negate_enc. cbn [bind]. rewrite Es, gpk_check_ok. cbn [bind require]. rewrite map_map. reflexivity.
    - fold n. unfold n. lia.
    - fold n. intros j Hj. rewrite sum_points_eq. replace (4 + 4 * j)%nat with (4 * S j)%nat by lia. rewrite (sum_step_ok _ insts _ g0 (RD (S j) ltac:(lia))). rewrite (g0_l G1). reflexivity.
  Qed.
End Create.
