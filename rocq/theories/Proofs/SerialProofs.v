From Coq Require Import ZArith List Bool Lia Arith.
From Verif.Base Require Import Fld Fp EC Primes Curves Group.
From Verif.Model Require Import Monad Evm Strings Points HashEvm Dkg Lib Serialise.
From Verif.Spec Require Import Serial Dvrf.
From Verif.Proofs Require Import BytesProofs OnchainProofs.
Import ListNotations.
Open Scope Z_scope.

(** ** digits *)
Lemma hex_val_spec c d : hex_val c = Some d <-> digit_of c d.
Proof.
  unfold hex_val, digit_of. split.
  - destruct (Z.leb_spec 48 c), (Z.leb_spec c 57); cbn [andb]; try (intros H1; inversion H1; lia);
    destruct (Z.leb_spec 97 c), (Z.leb_spec c 102); cbn [andb]; try (intros H3; inversion H3; lia);
    destruct (Z.leb_spec 65 c), (Z.leb_spec c 70); cbn [andb]; intros H5; inversion H5; lia.
  - intros [[? ->]|[[? ->]|[? ->]]];
    repeat match goal with |- context [?a <=? ?b] => destruct (Z.leb_spec a b); try lia end; cbn [andb]; f_equal; lia.
Qed.
Lemma digit_range c d : digit_of c d -> 0 <= d < 16. Proof. unfold digit_of. lia. Qed.
Lemma hex_digit_of d : 0 <= d < 16 -> digit_of (hex_digit d) d.
Proof. unfold hex_digit, digit_of. destruct (Z.ltb_spec d 10); lia. Qed.
Lemma digit_fun c d d' : digit_of c d -> digit_of c d' -> d = d'. Proof. unfold digit_of. lia. Qed.

Lemma number_acc b ds a : fold_left (fun a d => b * a + d) ds a = a * b ^ Z.of_nat (length ds) + number b ds.
Proof.
  unfold number. revert a. induction ds as [|d ds IH]; intros a; [cbn; lia|].
  cbn [fold_left length]. rewrite IH, (IH (b * 0 + d)), Nat2Z.inj_succ, Z.pow_succ_r by lia. ring.
Qed.
Lemma number_cons b d ds : number b (d :: ds) = d * b ^ Z.of_nat (length ds) + number b ds.
Proof. unfold number at 1. cbn [fold_left]. rewrite number_acc. f_equal. ring. Qed.
Lemma of_be_number l : of_be l = number 256 l.
Proof. unfold of_be, number. generalize 0. induction l as [|x l IH]; intros a; [reflexivity|]. cbn [fold_left]. rewrite IH. f_equal. ring. Qed.

(** ** decoding *)
Lemma decode_ind (P : bytes -> Prop) : P [] -> (forall a, P [a]) -> (forall a b r, P r -> P (a :: b :: r)) -> forall s, P s.
Proof. intros H0 H1 H2. fix IH 1. intros [|a [|b r]]; [exact H0|apply H1|apply H2, IH]. Qed.
Lemma hex_decode_sound (s : bytes) : forall b, hex_decode s = Some b ->
  exists ds, Forall2 digit_of s ds /\ length s = (2 * length b)%nat /\ number 16 ds = of_be b /\ Forall (fun x => 0 <= x < 256) b.
Proof.
  induction s as [|a|a c r IH] using decode_ind; intros b; cbn [hex_decode].
  - intros H. inversion H. exists []. repeat constructor.
  - discriminate.
  - destruct (hex_val a) as [x|] eqn:Ea; [|discriminate]. destruct (hex_val c) as [y|] eqn:Ec; [|discriminate].
    destruct (hex_decode r) as [l|] eqn:El; [|discriminate]. intros H. assert (b = 16 * x + y :: l) by congruence. subst b. clear H.
    destruct (IH l eq_refl) as (ds & F & L & N & R). apply hex_val_spec in Ea, Ec. pose proof (digit_range _ _ Ea). pose proof (digit_range _ _ Ec).
    exists (x :: y :: ds). repeat split.
    + constructor; auto.
    + cbn [length]. lia.
    + assert (LD : length ds = (2 * length l)%nat) by (rewrite <- L; symmetry; clear - F; induction F; cbn; congruence).
      rewrite !number_cons, N. rewrite (of_be_number (_ :: _)), number_cons, <- of_be_number. cbn [length]. rewrite LD.
      replace (Z.of_nat (S (2 * length l))) with (Z.succ (2 * Z.of_nat (length l))) by lia. replace (Z.of_nat (2 * length l)) with (2 * Z.of_nat (length l)) by lia.
      rewrite Z.pow_succ_r by lia. rewrite Z.pow_mul_r by lia. change (16 ^ 2) with 256. ring.
    + constructor; [lia|auto].
Qed.
Lemma hex_decode_complete (s : bytes) : forall ds, Forall2 digit_of s ds -> Nat.Even (length s) -> exists b, hex_decode s = Some b.
Proof.
  induction s as [|a|a c r IH] using decode_ind; intros ds F E.
  - exists []. reflexivity.
  - destruct E as [k E]. cbn in E. lia.
  - inversion F as [|? x ? ds1 Da F1]. subst. inversion F1 as [|? y ? ds2 Dc F2]. subst.
    destruct (IH ds2 F2) as [b Eb]. { destruct E as [k E]. cbn [length] in E. exists (k - 1)%nat. lia. }
    cbn [hex_decode]. apply hex_val_spec in Da, Dc. rewrite Da, Dc, Eb. eauto.
Qed.
Lemma digits_fun s ds ds' : Forall2 digit_of s ds -> Forall2 digit_of s ds' -> ds = ds'.
Proof.
  intros F. revert ds'. induction F as [|c d s ds D F IH]; intros ds' F'; inversion F' as [|? d' ? ds2 D' F2]; subst; [reflexivity|].
  f_equal; [eapply digit_fun; eauto|auto].
Qed.
Lemma hexadecimal_fun s n n' : hexadecimal s n -> hexadecimal s n' -> n = n'.
Proof. intros (ds & F & ->) (ds' & F' & ->). rewrite (digits_fun _ _ _ F F'). reflexivity. Qed.

Lemma match48 {A} (a : Z) (x y : A) : a <> 48 -> match a with 48 => x | _ => y end = y.
Proof. intros N. destruct a as [|p|p]; auto. do 6 (destruct p as [p|p|]; auto). contradiction. Qed.
Lemma match120 {A} (a : Z) (x y : A) : a <> 120 -> match a with 120 => x | _ => y end = y.
Proof. intros N. destruct a as [|p|p]; auto. do 7 (destruct p as [p|p|]; auto). contradiction. Qed.
Lemma trim_cases s : trim_0x s = s \/ s = [48; 120] ++ trim_0x s.
Proof.
  destruct s as [|a [|b r]]; [auto| |]; (destruct (Z.eq_dec a 48) as [->|N]; [|left; apply (match48 a); exact N]).
  - left. reflexivity.
  - destruct (Z.eq_dec b 120) as [->|N]; [right; reflexivity|left; apply (match120 b); exact N].
Qed.
Lemma trim_prefix t : trim_0x ([48; 120] ++ t) = t. Proof. reflexivity. Qed.
Lemma trim_hex t n : hexadecimal t n -> trim_0x t = t.
Proof.
  intros (ds & F & _). destruct (trim_cases t) as [E|E]; auto. exfalso. rewrite E in F.
  inversion F as [|? d ? ds1 D F1]; subst. inversion F1 as [|? d' ? ds2 D' F2]; subst. unfold digit_of in D'. lia.
Qed.
Lemma of_be_zeros k b : of_be (repeat 0 k ++ b) = of_be b.
Proof. induction k as [|k IH]; [reflexivity|]. cbn [repeat app]. rewrite <- IH, !of_be_number, number_cons. lia. Qed.

Lemma hex_to_le_spec s n : denotes s n <-> exists b, hex_to_le_bytes s = Ok b /\ of_le b = n /\ length b = 32%nat.
Proof.
  unfold hex_to_le_bytes, of_le. split.
  - intros (t & S & E & L & H). assert (T : trim_0x s = t) by (destruct S as [->| ->]; [eapply trim_hex; eauto|reflexivity]). rewrite T.
    destruct H as (ds & F & ->). destruct (hex_decode_complete t ds F E) as [b Eb]. rewrite Eb. cbn [expect bind].
    destruct (hex_decode_sound t b Eb) as (ds' & F' & L' & N & _). rewrite (proj2 (assert_ok _ _ tt)) by (apply Nat.leb_le; lia). cbn [bind].
    eexists. split; [reflexivity|]. rewrite rev_involutive, of_be_zeros, rev_length, app_length, repeat_length. split; [|lia].
    rewrite <- N. f_equal. eapply digits_fun; eauto.
  - intros (b & H & <- & _). destruct (hex_decode (trim_0x s)) as [d|] eqn:E; [|discriminate]. cbn [expect bind] in H.
    destruct (Nat.leb_spec (length d) 32) as [Ld|]; [|discriminate]. cbn [assert bind] in H. inversion H as [H']. clear H H'.
    destruct (hex_decode_sound _ _ E) as (ds & F & L & N & _). exists (trim_0x s). split; [destruct (trim_cases s) as [->|X]; auto|].
    split; [exists (length d); lia|]. split; [lia|]. exists ds. split; auto. rewrite N, rev_involutive, of_be_zeros. reflexivity.
Qed.

Lemma denotes_fun s n n' : denotes s n -> denotes s n' -> n = n'.
Proof. rewrite !hex_to_le_spec. intros (b & E & <- & _) (b' & E' & <- & _). congruence. Qed.
Theorem read_field_spec p s (a : Fp p) : 0 < p -> (read_field p s = Ok a <-> denotes s (fval a)).
Proof.
  intros Hp. unfold read_field. rewrite hex_to_le_spec, bind_ok. split.
  - intros (b & E & H). assert (L : length b = 32%nat).
    { unfold hex_to_le_bytes in E. apply bind_ok in E as (d & _ & E). apply bind_ok in E as (u & A & E). apply assert_ok, Nat.leb_le in A. assert (X : b = rev (repeat 0 (32 - length d) ++ d)) by congruence. rewrite X, rev_length, app_length, repeat_length. lia. }
    exists b. split; [exact E|]. split; [|exact L]. unfold from_bytes in H. destruct (Z.ltb_spec (of_le b) p) as [Lt|]; [|discriminate]. cbn [expect] in H.
    assert (X : a = of_Z p (of_le b)) by congruence. rewrite X, fval_of_Z. symmetry. apply Z.mod_small. split; [|exact Lt].
    assert (D : denotes s (of_le b)) by (apply hex_to_le_spec; eauto). destruct D as (t & _ & _ & _ & ds & F & N). rewrite N.
    clear - F. assert (R : Forall (fun d => 0 <= d) ds) by (induction F; constructor; auto; apply digit_range in H; lia). clear F.
    induction R; [reflexivity|]. rewrite number_cons. assert (0 <= 16 ^ Z.of_nat (length l)) by (apply Z.pow_nonneg; lia). nia.
  - intros (b & E & V & _). exists b. split; [exact E|]. unfold from_bytes. pose proof (fval_range p a Hp). rewrite V. destruct (Z.ltb_spec (fval a) p); [|lia].
    cbn [expect]. rewrite of_Z_fval. reflexivity.
Qed.
Lemma read_field_total p s : (exists a, read_field p s = Ok a) \/ exists m, read_field p s = Panic m.
Proof.
  unfold read_field, hex_to_le_bytes. destruct (hex_decode (trim_0x s)) as [d|]; cbn [expect bind]; [|eauto].
  destruct (Nat.leb (length d) 32); cbn [assert bind]; [|eauto]. destruct (from_bytes _ _); cbn [expect]; eauto.
Qed.

(** ** encoding *)
Lemma lower_digit d : 0 <= d < 16 -> to_lowercase [hex_digit d] = [hex_digit d].
Proof. intros H. unfold to_lowercase, hex_digit. cbn [map]. destruct (Z.ltb_spec d 10); repeat match goal with |- context [?a <=? ?b] => destruct (Z.leb_spec a b); try lia end; reflexivity. Qed.
Lemma lower_hex b : Forall (fun x => 0 <= x < 256) b -> to_lowercase (hex_encode b) = hex_encode b.
Proof.
  induction 1 as [|x b Hx F IH]; [reflexivity|]. unfold hex_encode in *. cbn [flat_map app].
  change (?f [] ) with (f (@nil Z)).
  pose proof (lower_digit (x / 16)) as A. pose proof (lower_digit (x mod 16)) as B.
  assert (0 <= x / 16 < 16) by (split; [apply Z.div_pos; lia|apply Z.div_lt_upper_bound; lia]). pose proof (Z.mod_pos_bound x 16 eq_refl).
  specialize (A H). specialize (B H0). unfold to_lowercase in *. cbn [map] in A, B |- *. rewrite IH. congruence.
Qed.
Lemma hex_encode_decode b : Forall (fun x => 0 <= x < 256) b -> hex_decode (hex_encode b) = Some b.
Proof.
  induction 1 as [|x b Hx F IH]; [reflexivity|]. unfold hex_encode in *. cbn [flat_map app hex_decode].
  assert (0 <= x / 16 < 16) by (split; [apply Z.div_pos; lia|apply Z.div_lt_upper_bound; lia]). pose proof (Z.mod_pos_bound x 16 eq_refl).
  rewrite (proj2 (hex_val_spec _ _) (hex_digit_of (x / 16) H)), (proj2 (hex_val_spec _ _) (hex_digit_of (x mod 16) H0)), IH.
  f_equal. f_equal. symmetry. apply Z.div_mod. lia.
Qed.
Lemma le_bytes_range n x : Forall (fun x => 0 <= x < 256) (le_bytes n x).
Proof. revert x. induction n as [|n IH]; intros x; cbn [le_bytes]; constructor; auto. apply Z.mod_pos_bound. reflexivity. Qed.
Theorem hex_round b : length b = 32%nat -> Forall (fun x => 0 <= x < 256) b -> hex_to_le_bytes (le_bytes_to_hex b) = Ok b.
Proof.
  intros L F. unfold hex_to_le_bytes, le_bytes_to_hex. rewrite trim_prefix. assert (R : Forall (fun x => 0 <= x < 256) (rev b)) by (apply Forall_rev; exact F).
  rewrite lower_hex, hex_encode_decode by exact R. cbn [expect bind]. rewrite (proj2 (assert_ok _ _ tt)) by (apply Nat.leb_le; rewrite rev_length; lia).
  cbn [bind]. rewrite rev_length, L. cbn [Nat.sub repeat app]. rewrite rev_involutive. reflexivity.
Qed.
Lemma field_bytes p (x : Fp p) : 0 < p -> p <= 2 ^ 256 -> of_le (to_bytes x) = fval x.
Proof.
  intros H0 H. unfold of_le. rewrite rev_to_bytes. unfold word. pose proof (fval_range p x H0). rewrite of_be_be by lia. apply Z.mod_small.
  change (256 ^ Z.of_nat 32) with (2 ^ 256). lia.
Qed.
Theorem field_round p (x : Fp p) : 0 < p -> p <= 2 ^ 256 -> read_field p (write_field x) = Ok x.
Proof.
  intros H0 H. apply read_field_spec; [exact H0|]. apply hex_to_le_spec. exists (to_bytes x). unfold write_field, to_bytes.
  rewrite hex_round by (try apply length_le; apply le_bytes_range). split; [reflexivity|]. split; [apply (field_bytes p x H0 H)|apply length_le].
Qed.
Lemma r256 : r_mod <= 2 ^ 256. Proof. apply Z.leb_le. reflexivity. Qed.
Lemma q256 : q_mod <= 2 ^ 256. Proof. apply Z.leb_le. reflexivity. Qed.
Lemma r0 : 0 < r_mod. Proof. reflexivity. Qed.
Lemma q0 : 0 < q_mod. Proof. reflexivity. Qed.
Lemma fr_round x : read_fr (write_fr x) = Ok x. Proof. exact (field_round r_mod x r0 r256). Qed.
Lemma fq_round x : read_fq (write_fq x) = Ok x. Proof. exact (field_round q_mod x q0 q256). Qed.

(** ** points *)
Lemma gk_round P : to_gk (of_gk P) = Ok P.
Proof. unfold to_gk, of_gk. cbn [s_x s_y]. rewrite fr_round. cbn [bind]. rewrite fr_round. cbn [bind]. unfold gk_from_xy. rewrite (from_xy_xy Fr bk bk_neq0 P). reflexivity. Qed.
Lemma g1_round P : to_g1 (of_g1 P) = Ok P.
Proof. unfold to_g1, of_g1. cbn [s_x s_y]. rewrite fq_round. cbn [bind]. rewrite fq_round. cbn [bind]. unfold g1_from_xy. rewrite (from_xy_xy Fq b1 b1_neq0 P). reflexivity. Qed.
Lemma g2_round P : to_g2 (of_g2 P) = Ok P.
Proof.
  unfold to_g2, of_g2. pose proof (from_xy_xy Fq2 b2 b2_neq0 P) as X. destruct (xy P) as [[x0 x1] [y0 y1]]. cbn [s_x0 s_x1 s_y0 s_y1 fst snd] in *.
  rewrite fq_round. cbn [bind]. rewrite fq_round. cbn [bind]. rewrite fq_round. cbn [bind]. rewrite fq_round. cbn [bind]. unfold g2_from_xy. rewrite X. reflexivity.
Qed.
Lemma map_round {A B} (f : A -> B) (g : B -> res A) l : (forall a, g (f a) = Ok a) -> mapM g (map f l) = Ok l.
Proof. intros H. induction l as [|a l IH]; [reflexivity|]. cbn [map mapM]. rewrite H. cbn [bind]. rewrite IH. reflexivity. Qed.
Lemma pp_round p : to_pp (of_pp p) = Ok p.
Proof.
  unfold to_pp, of_pp. cbn [sp_shares sp_ciphers sp_gr sp_ga sp_g2a]. rewrite (map_round of_g1 to_g1 _ g1_round). cbn [bind]. rewrite (map_round write_fr read_fr _ fr_round). cbn [bind].
  rewrite gk_round. cbn [bind]. rewrite g1_round. cbn [bind]. rewrite g2_round. cbn [bind]. destruct p. reflexivity.
Qed.
Lemma params_round p : to_params (of_params p) = Ok p.
Proof.
  unfold to_params, of_params. cbn [sd_coeffs sd_shares sd_r sd_public_keys sd_public_params sd_config]. rewrite (map_round write_fr read_fr _ fr_round). cbn [bind]. rewrite (map_round write_fr read_fr _ fr_round). cbn [bind].
  rewrite fr_round. cbn [bind]. rewrite (map_round of_gk to_gk _ gk_round). cbn [bind]. rewrite pp_round. cbn [bind]. destruct p. reflexivity.
Qed.
Lemma gpp_round g : to_gpp (of_gpp g) = Ok g.
Proof.
  unfold to_gpp, of_gpp. cbn [sg_vks sg_ga sg_g2a]. rewrite (map_round of_g1 to_g1 _ g1_round). cbn [bind]. rewrite g1_round. cbn [bind]. rewrite g2_round. cbn [bind]. destruct g. reflexivity.
Qed.
Lemma eval_round e : to_eval (of_eval e) = Ok e.
Proof. unfold to_eval, of_eval. cbn [se_value se_z se_c se_index]. rewrite g1_round. cbn [bind]. rewrite fr_round. cbn [bind]. rewrite fr_round. cbn [bind]. destruct e. reflexivity. Qed.
Lemma random_round p : to_random (of_random p) = Ok p.
Proof. unfold to_random, of_random. cbn [sr_proof sr_value]. rewrite g1_round. cbn [bind]. destruct p. reflexivity. Qed.

Lemma member_round k : key_pair k -> to_member (of_member k) = Ok k.
Proof.
  intros H. unfold to_member, of_member. cbn [sm_sk sm_pk]. rewrite fq_round. cbn [bind]. rewrite gk_round. cbn [bind].
  rewrite (proj2 (assert_ok _ _ tt)); [cbn [bind]; destruct k; reflexivity|]. apply geqb_eq. exact H.
Qed.
Lemma share_round k : vk k = g1mul g1 (sk k) -> to_share (of_share k) = Ok k.
Proof.
  intros H. unfold to_share, of_share. cbn [ss_sk ss_vk ss_index]. rewrite fr_round. cbn [bind]. rewrite g1_round. cbn [bind].
  rewrite (proj2 (assert_ok _ _ tt)); [cbn [bind]; destruct k; reflexivity|]. apply geqb_eq. exact H.
Qed.
Lemma member_load s k : to_member s = Ok k -> key_pair k /\ read_fq (sm_sk s) = Ok (mk_sk k) /\ to_gk (sm_pk s) = Ok (mk_pk k).
Proof.
  unfold to_member. intros H. apply bind_ok in H as (a & E1 & H). apply bind_ok in H as (P & E2 & H). apply bind_ok in H as (u & A & H).
  apply assert_ok in A. assert (X : mkMemberKey a P = k) by congruence. subst k. cbn [mk_sk mk_pk]. split; [|auto]. unfold key_pair. cbn [mk_sk mk_pk]. apply (proj1 (geqb_eq _ _ _)) in A. exact A.
Qed.
Lemma share_load s k : to_share s = Ok k -> vk k = g1mul g1 (sk k) /\ index k = ss_index s /\ read_fr (ss_sk s) = Ok (sk k) /\ to_g1 (ss_vk s) = Ok (vk k).
Proof.
  unfold to_share. intros H. apply bind_ok in H as (a & E1 & H). apply bind_ok in H as (P & E2 & H). apply bind_ok in H as (u & A & H).
  apply assert_ok in A. assert (X : mkShareKey (ss_index s) a P = k) by congruence. subst k. cbn [sk vk index]. split; [|auto]. apply (proj1 (geqb_eq _ _ _)) in A. exact A.
Qed.
