(** C21, C22: files written and read by the client (bin/serialise.rs). *)
From Coq Require Import ZArith List Bool Lia.
From Verif.Base Require Import Fld Fp EC Primes Curves Group.
From Verif.Model Require Import Monad Evm Strings Points HashEvm Dkg Lib Serialise.
From Verif.Spec Require Import Serial Dvrf.
From Verif.Proofs Require Import BytesProofs OnchainProofs SerialProofs.
From Verif.Props Require Import P_Dvrf.
Import ListNotations.
Open Scope Z_scope.

(** every 32 bytes survive *)
Theorem C21_bytes b : length b = 32%nat -> Forall (fun x => 0 <= x < 256) b -> hex_to_le_bytes (le_bytes_to_hex b) = Ok b.
Proof. exact (hex_round b). Qed.
(** a scalar or a coordinate is read exactly from the texts that denote its canonical value: upper or lower case digits,
    an even number of them, at most 64, optionally after 0x *)
Theorem C21_scalar_text s (a : Fr) : read_fr s = Ok a <-> denotes s (fval (a : Fp r_mod)).
Proof. exact (read_field_spec r_mod s a r0). Qed.
Theorem C21_coordinate_text s (a : Fq) : read_fq s = Ok a <-> denotes s (fval (a : Fp q_mod)).
Proof. exact (read_field_spec q_mod s a q0). Qed.
(** anything else stops the program: no text is read as a different value, and a number that is not reduced is refused *)
Theorem C21_scalar_reject s : fails (read_fr s) -> exists m, read_fr s = Panic m.
Proof. intros F. destruct (read_field_total r_mod s) as [[a E]|E]; [destruct (F a E)|exact E]. Qed.
Theorem C21_not_reduced s n : denotes s n -> (r_mod <= n -> fails (read_fr s)) /\ (q_mod <= n -> fails (read_fq s)).
Proof.
  intros D. split; intros H a E.
  - apply C21_scalar_text in E. pose proof (denotes_fun _ _ _ D E). pose proof (fval_range r_mod a r0). lia.
  - apply C21_coordinate_text in E. pose proof (denotes_fun _ _ _ D E). pose proof (fval_range q_mod a q0). lia.
Qed.
Theorem C21_prefix_optional t : (forall r, t <> [48; 120] ++ r) -> read_fr ([48; 120] ++ t) = read_fr t /\ read_fq ([48; 120] ++ t) = read_fq t.
Proof.
  intros H. destruct (trim_cases t) as [E|E]; [|destruct (H _ E)].
  assert (X : hex_to_le_bytes ([48; 120] ++ t) = hex_to_le_bytes t) by (unfold hex_to_le_bytes; rewrite trim_prefix, E; reflexivity).
  unfold read_fr, read_fq, read_field. rewrite X. auto.
Qed.

(** a point is read exactly from the canonical coordinates of a point of the curve ((0,0) being the identity) *)
Theorem C21_g1_text p (P : G1) : to_g1 p = Ok P <-> denotes (s_x p) (px P) /\ denotes (s_y p) (py P).
Proof.
  unfold to_g1, px, py. split.
  - intros H. apply bind_ok in H as (x & Ex & H). apply bind_ok in H as (y & Ey & H). unfold g1_from_xy in H. destruct (from_xy Fq b1 x y) as [Q|] eqn:E; [|discriminate].
    cbn [expect] in H. assert (X : Q = P) by congruence. subst Q. rewrite (xy_from_xy _ _ _ _ _ E). cbn [fst snd]. split; apply C21_coordinate_text; assumption.
  - intros [Hx Hy]. apply C21_coordinate_text in Hx, Hy. rewrite Hx. cbn [bind]. rewrite Hy. cbn [bind]. unfold g1_from_xy. rewrite (from_xy_xy Fq b1 b1_neq0 P). reflexivity.
Qed.
Theorem C21_gk_text p (P : Gk) : to_gk p = Ok P <->
  denotes (s_x p) (fval (fst (xy P) : Fp r_mod)) /\ denotes (s_y p) (fval (snd (xy P) : Fp r_mod)).
Proof.
  unfold to_gk. split.
  - intros H. apply bind_ok in H as (x & Ex & H). apply bind_ok in H as (y & Ey & H). unfold gk_from_xy in H. destruct (from_xy Fr bk x y) as [Q|] eqn:E; [|discriminate].
    cbn [expect] in H. assert (X : Q = P) by congruence. subst Q. rewrite (xy_from_xy _ _ _ _ _ E). cbn [fst snd]. split; apply C21_scalar_text; assumption.
  - intros [Hx Hy]. apply C21_scalar_text in Hx, Hy. rewrite Hx. cbn [bind]. rewrite Hy. cbn [bind]. unfold gk_from_xy. rewrite (from_xy_xy Fr bk bk_neq0 P). reflexivity.
Qed.
Theorem C21_g2_text p (P : G2c) : to_g2 p = Ok P <->
  denotes (s_x0 p) (fval (fst (fst (xy P)) : Fp q_mod)) /\ denotes (s_x1 p) (fval (snd (fst (xy P)) : Fp q_mod)) /\
  denotes (s_y0 p) (fval (fst (snd (xy P)) : Fp q_mod)) /\ denotes (s_y1 p) (fval (snd (snd (xy P)) : Fp q_mod)).
Proof.
  unfold to_g2. split.
  - intros H. apply bind_ok in H as (x0 & E1 & H). apply bind_ok in H as (x1 & E2 & H). apply bind_ok in H as (y0 & E3 & H). apply bind_ok in H as (y1 & E4 & H).
    unfold g2_from_xy in H. destruct (from_xy Fq2 b2 (x0, x1) (y0, y1)) as [Q|] eqn:E; [|discriminate].
    cbn [expect] in H. assert (X : Q = P) by congruence. subst Q. rewrite (xy_from_xy _ _ _ _ _ E). cbn [fst snd]. repeat split; apply C21_coordinate_text; assumption.
  - intros (H1 & H2 & H3 & H4). apply C21_coordinate_text in H1, H2, H3, H4. rewrite H1. cbn [bind]. rewrite H2. cbn [bind]. rewrite H3. cbn [bind]. rewrite H4. cbn [bind].
    unfold g2_from_xy. pose proof (from_xy_xy Fq2 b2 b2_neq0 P) as X. destruct (xy P) as [[x0 x1] [y0 y1]]. cbn [fst snd] in *. rewrite X. reflexivity.
Qed.

(** every kind of record comes back unchanged *)
Theorem C21_round_trip :
  (forall x : Fr, read_fr (write_fr x) = Ok x) /\ (forall x : Fq, read_fq (write_fq x) = Ok x) /\
  (forall P : Gk, to_gk (of_gk P) = Ok P) /\ (forall P : G1, to_g1 (of_g1 P) = Ok P) /\ (forall P : G2c, to_g2 (of_g2 P) = Ok P) /\
  (forall pp, to_pp (of_pp pp) = Ok pp) /\ (forall mp, to_params (of_params mp) = Ok mp) /\ (forall g, to_gpp (of_gpp g) = Ok g) /\
  (forall e, to_eval (of_eval e) = Ok e) /\ (forall p, to_random (of_random p) = Ok p) /\
  (forall s, to_member (of_member (member_random s)) = Ok (member_random s)) /\
  (forall i s, to_share (of_share (mkShareKey i s (g1mul g1 s))) = Ok (mkShareKey i s (g1mul g1 s))).
Proof.
  split; [exact fr_round|]. split; [exact fq_round|]. split; [exact gk_round|]. split; [exact g1_round|]. split; [exact g2_round|].
  split; [exact pp_round|]. split; [exact params_round|]. split; [exact gpp_round|]. split; [exact eval_round|]. split; [exact random_round|].
  split; [intros s; apply member_round; reflexivity|intros i s; apply share_round; reflexivity].
Qed.

(** C22: a loaded key is always a key pair; it is the one of the file; a file whose two halves disagree is refused *)
Theorem C22_member s k : to_member s = Ok k -> mk_pk k = gkmul gk (mk_sk k) /\ read_fq (sm_sk s) = Ok (mk_sk k) /\ to_gk (sm_pk s) = Ok (mk_pk k).
Proof. exact (member_load s k). Qed.
Theorem C22_share s k : to_share s = Ok k ->
  vk k = g1mul g1 (sk k) /\ index k = ss_index s /\ read_fr (ss_sk s) = Ok (sk k) /\ to_g1 (ss_vk s) = Ok (vk k).
Proof. exact (share_load s k). Qed.
Theorem C22_member_mismatch s a P : read_fq (sm_sk s) = Ok a -> to_gk (sm_pk s) = Ok P -> P <> gkmul gk a -> fails (to_member s).
Proof. intros Ea Ep N k H. destruct (C22_member s k H) as (K1 & K2 & K3). apply N. congruence. Qed.
Theorem C22_share_mismatch s a P : read_fr (ss_sk s) = Ok a -> to_g1 (ss_vk s) = Ok P -> P <> g1mul g1 a -> fails (to_share s).
Proof. intros Ea Ep N k H. destruct (C22_share s k H) as (K1 & _ & K2 & K3). apply N. congruence. Qed.
(** and loading succeeds on every file whose halves parse and agree *)
Theorem C22_member_loads s a : read_fq (sm_sk s) = Ok a -> to_gk (sm_pk s) = Ok (gkmul gk a) -> to_member s = Ok (mkMemberKey a (gkmul gk a)).
Proof.
  intros E1 E2. unfold to_member. rewrite E1. cbn [bind]. rewrite E2. cbn [bind]. rewrite (proj2 (assert_ok _ _ tt)); [reflexivity|]. apply geqb_eq. reflexivity.
Qed.

(** examples: "0x0A", "0a" and "000a" are all ten; "a", "0xg0" and r itself are refused *)
Example C21_texts : read_fr [48; 120; 48; 65] = Ok (fr 10) /\ read_fr [48; 97] = Ok (fr 10) /\ read_fr [48; 48; 48; 97] = Ok (fr 10) /\
  fails (read_fr [97]) /\ fails (read_fr [48; 120; 103; 48]) /\ fails (read_fr (le_bytes_to_hex (le_bytes 32 r_mod))).
Proof.
  split; [apply (proj2 (C21_scalar_text _ _)); exists [48; 65]; split; [auto|]; split; [exists 1%nat; reflexivity|]; split; [cbn; lia|]; exists [0; 10]; split; [|reflexivity]; repeat constructor; unfold digit_of; lia|].
  split; [apply (proj2 (C21_scalar_text _ _)); exists [48; 97]; split; [auto|]; split; [exists 1%nat; reflexivity|]; split; [cbn; lia|]; exists [0; 10]; split; [|reflexivity]; repeat constructor; unfold digit_of; lia|].
  split; [apply (proj2 (C21_scalar_text _ _)); exists [48; 48; 48; 97]; split; [auto|]; split; [exists 2%nat; reflexivity|]; split; [cbn; lia|]; exists [0; 0; 0; 10]; split; [|reflexivity]; repeat constructor; unfold digit_of; lia|].
  split; [intros a; discriminate|]. split; [intros a; discriminate|].
  apply (C21_not_reduced _ r_mod); [|lia]. apply hex_to_le_spec. exists (le_bytes 32 r_mod). split; [apply hex_round; [apply length_le|apply le_bytes_range]|].
  split; [reflexivity|apply length_le].
Qed.
Example C22_meets : exists s k, to_member s = Ok k /\ mk_sk k = fq 5 /\ fails (to_member (SMember (write_fq (fq 5)) (of_gk g0))).
Proof.
  exists (of_member (member_random (fq 5))), (member_random (fq 5)). split; [apply member_round; reflexivity|]. split; [reflexivity|].
  apply (C22_member_mismatch _ (fq 5) g0); [apply fq_round|apply gk_round|].
  intros X. symmetry in X. revert X.
  change (gkmul gk (fq 5)) with (zmul (fval (fq 5 : Fp q_mod)) gk). rewrite fval_of_Z. intros X.
  apply (zmul_order Gk q_mod gk _ q_prime gk_neq0 (Gk_exponent gk)) in X. apply Z.divide_pos_le in X; [apply (Zlt_not_le _ _) in X; [exact X|]; reflexivity|reflexivity].
Qed.
Print Assumptions C21_scalar_text.
Print Assumptions C21_g1_text.
Print Assumptions C21_g2_text.
Print Assumptions C21_round_trip.
Print Assumptions C22_member.
Print Assumptions C22_share.
