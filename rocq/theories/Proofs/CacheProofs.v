From Coq Require Import ZArith String List Bool Lia Arith.
From Verif.Model Require Import Monad Evm Strings Points Dkg Files Cache.
From Verif.Spec Require Import CacheSpec.
From Verif.Proofs Require Import DecimalProofs BytesProofs.
Import ListNotations.
Open Scope Z_scope.

(** ** file systems *)
Lemma path_eqb_refl p : path_eqb p p = true.
Proof. unfold path_eqb. destruct (list_eq_dec Z.eq_dec p p); congruence. Qed.
Lemma path_eqb_neq p q : p <> q -> path_eqb p q = false.
Proof. unfold path_eqb. destruct (list_eq_dec Z.eq_dec p q); congruence. Qed.
Lemma set_same s p n : set s p n p = Some n. Proof. unfold set. rewrite path_eqb_refl. reflexivity. Qed.
Lemma set_other s p n q : q <> p -> set s p n q = s q. Proof. intros H. unfold set. rewrite path_eqb_neq by exact H. reflexivity. Qed.
Lemma effects_app s a b : effects s (a ++ b) = effects (effects s a) b.
Proof. unfold effects. rewrite fold_left_app. reflexivity. Qed.

Lemma parent_of dir name : ~ In 47 name -> parent (dir ++ [47] ++ name) = dir.
Proof.
  intros H. unfold parent. rewrite app_assoc, rev_app_distr, rev_app_distr. cbn [rev app].
  assert (X : forall l r, ~ In 47 l -> drop_to_slash (l ++ 47 :: r) = r).
  { induction l as [|c l IH]; intros r N; cbn [app drop_to_slash]; [reflexivity|]. destruct (Z.eqb_spec c 47); [exfalso; apply N; left; auto|]. apply IH. intros I. apply N. right. exact I. }
  rewrite X; [apply rev_involutive|]. rewrite <- in_rev. exact H.
Qed.

(** ** names *)
Lemma digits_chars f : forall v acc, 0 <= v -> Forall (fun c => 48 <= c <= 57) acc -> Forall (fun c => 48 <= c <= 57) (digits f v acc).
Proof.
  induction f as [|f IH]; intros v acc Hv F; [exact F|]. cbn [digits]. pose proof (Z.mod_pos_bound v 10 eq_refl).
  assert (Forall (fun c => 48 <= c <= 57) (48 + v mod 10 :: acc)) by (constructor; [lia|exact F]).
  destruct (v / 10 =? 0); [assumption|]. apply IH; [apply Z.div_pos; lia|assumption].
Qed.
Lemma to_dec_chars v : 0 <= v -> Forall (fun c => 48 <= c <= 57) (to_dec v).
Proof. intros H. apply digits_chars; [exact H|constructor]. Qed.
Lemma digits_nonnil f v acc : (f <> 0)%nat -> digits f v acc <> [].
Proof.
  revert v acc. induction f as [|f IH]; intros v acc H; [congruence|]. cbn [digits]. destruct (v / 10 =? 0); [discriminate|].
  destruct f; [discriminate|]. apply IH. discriminate.
Qed.
Lemma to_dec_nonnil v : to_dec v <> []. Proof. apply digits_nonnil. discriminate. Qed.
Lemma split_at (c : Z) a a' b b' : ~ In c a -> ~ In c a' -> a ++ c :: b = a' ++ c :: b' -> a = a' /\ b = b'.
Proof.
  revert a'. induction a as [|x a IH]; intros [|x' a'] N N' E; cbn [app] in E; inversion E; subst.
  - auto.
  - exfalso. apply N'. left. reflexivity.
  - exfalso. apply N. left. reflexivity.
  - destruct (IH a') as [-> ->]; auto; intros I; [apply N|apply N']; right; exact I.
Qed.
Lemma chars_no c v : 0 <= v -> ~ (48 <= c <= 57) -> ~ In c (to_dec v).
Proof. intros H N I. pose proof (to_dec_chars v H) as F. rewrite Forall_forall in F. apply F in I. lia. Qed.

Definition params_name (d : Z) : bytes := str "params" ++ to_dec d.
Definition key_name (g2 : bool) (kind : bytes) (cfg : config) (d : Z) : bytes :=
  kind ++ (if g2 then str "-g2-" else str "-") ++ to_dec (threshold cfg) ++ [45] ++ to_dec (number_of_members cfg) ++ [45] ++ to_dec d.
Lemma params_file_name dir d : params_file dir d = dir ++ [47] ++ params_name d.
Proof. unfold params_file, join, params_name. cbn [concat]. rewrite app_nil_r. reflexivity. Qed.
Lemma key_file_name g2 kind dir cfg d : key_file g2 kind dir cfg d = dir ++ [47] ++ key_name g2 kind cfg d.
Proof. unfold key_file, join, key_name. cbn [concat]. rewrite app_nil_r. reflexivity. Qed.
Lemma in_app47 (a b : bytes) c : ~ In c a -> ~ In c b -> ~ In c (a ++ b).
Proof. intros A B I. apply in_app_or in I. tauto. Qed.
Lemma params_name_ok d : 0 <= d -> ~ In 47 (params_name d).
Proof. intros H. unfold params_name. apply in_app47; [cbn; intuition lia|apply chars_no; lia]. Qed.
Lemma key_name_ok g2 kind cfg d : ~ In 47 kind -> 0 <= threshold cfg -> 0 <= number_of_members cfg -> 0 <= d -> ~ In 47 (key_name g2 kind cfg d).
Proof.
  intros K A B C. unfold key_name. repeat (apply in_app47); try exact K; try (apply chars_no; lia); try (cbn; intuition lia).
  destruct g2; cbn; intuition lia.
Qed.
Lemma str_vk : str "vk" = [118; 107]. Proof. reflexivity. Qed.
Lemma str_pk : str "pk" = [112; 107]. Proof. reflexivity. Qed.
Lemma params_not_key g2 kind cfg d d' : kind = str "vk" \/ kind = str "pk" -> params_name d <> key_name g2 kind cfg d'.
Proof.
  intros K E. unfold params_name, key_name in E. generalize dependent (to_dec d). intros l E.
  apply (f_equal (fun l => nth 1 l 0)) in E. change (str "params") with [112; 97; 114; 97; 109; 115] in E.
  destruct K as [-> | ->]; [rewrite str_vk in E|rewrite str_pk in E]; cbn [app nth] in E; lia.
Qed.
Lemma str_g2 : str "-g2-" = [45; 103; 50; 45]. Proof. reflexivity. Qed.
Lemma str_dash : str "-" = [45]. Proof. reflexivity. Qed.
Lemma key_name_inj g g' kind kind' cfg cfg' d d' :
  kind = str "vk" \/ kind = str "pk" -> kind' = str "vk" \/ kind' = str "pk" ->
  0 <= threshold cfg < 2 ^ 64 -> 0 <= number_of_members cfg < 2 ^ 64 -> 0 <= threshold cfg' < 2 ^ 64 -> 0 <= number_of_members cfg' < 2 ^ 64 ->
  0 <= d < 2 ^ 32 -> 0 <= d' < 2 ^ 32 -> key_name g kind cfg d = key_name g' kind' cfg' d' -> g = g' /\ kind = kind' /\ cfg = cfg' /\ d = d'.
Proof.
  intros K K' T N T' N' D D' E. assert (LK : length kind = 2%nat) by (destruct K as [-> | ->]; reflexivity). assert (LK' : length kind' = 2%nat) by (destruct K' as [-> | ->]; reflexivity).
  unfold key_name in E.
  assert (X : kind = kind') by (apply (f_equal (firstn 2)) in E; rewrite !firstn_len in E by assumption; exact E). subst kind'. apply app_inv_head in E.
  assert (B : 2 ^ 64 < M256) by reflexivity. assert (B' : 2 ^ 32 < M256) by reflexivity.
  assert (G : g = g').
  { pose proof (to_dec_nonnil (threshold cfg)) as Z1. pose proof (to_dec_nonnil (threshold cfg')) as Z2.
    pose proof (to_dec_chars (threshold cfg) ltac:(lia)) as F1. pose proof (to_dec_chars (threshold cfg') ltac:(lia)) as F2.
    destruct (to_dec (threshold cfg)) as [|c1 l1]; [congruence|]. destruct (to_dec (threshold cfg')) as [|c2 l2]; [congruence|].
    inversion F1 as [|? ? A1 _]; subst. inversion F2 as [|? ? A2 _]; subst.
    apply (f_equal (fun l => nth 1 l 0)) in E. rewrite str_g2, str_dash in E. destruct g, g'; auto; cbn [app nth] in E; lia. }
  subst g'. split; [reflexivity|]. split; [reflexivity|]. apply app_inv_head in E.
  cbn [app] in E. apply split_at in E as [E1 E]; try (apply chars_no; lia).
  apply split_at in E as [E2 E3]; try (apply chars_no; lia).
  apply to_dec_inj in E1, E2, E3; try lia. destruct cfg as [t n], cfg' as [t' n']. split; [|exact E3]. f_equal; [exact E1|exact E2].
Qed.
Lemma params_name_inj d d' : 0 <= d < 2 ^ 32 -> 0 <= d' < 2 ^ 32 -> params_name d = params_name d' -> d = d'.
Proof. intros D D' E. unfold params_name in E. apply app_inv_head in E. assert (B : 2 ^ 32 < M256) by reflexivity. apply to_dec_inj in E; lia. Qed.
Lemma in_dir_inj (dir a b : bytes) : dir ++ [47] ++ a = dir ++ [47] ++ b -> a = b.
Proof. intros E. apply app_inv_head in E. cbn in E. inversion E. reflexivity. Qed.
Lemma in_dir_neq (dir a : bytes) : dir ++ [47] ++ a <> dir.
Proof. intros E. apply (f_equal (@length Z)) in E. rewrite app_length in E. cbn in E. lia. Qed.

(** ** parameter files *)
Lemma concat_len n (l : list bytes) : Forall (fun x => length x = n) l -> length (concat l) = (length l * n)%nat.
Proof. induction 1 as [|x l H F IH]; [reflexivity|]. cbn [concat length]. rewrite app_length, IH, H. lia. Qed.
Lemma read_raw_app n a r : length a = n -> read_raw n (a ++ r) = Ok (a, r).
Proof.
  intros L. unfold read_raw. rewrite (proj2 (Nat.leb_le _ _)) by (rewrite app_length; lia). rewrite (firstn_len a r n L), (skipn_len a r n L). reflexivity.
Qed.
Lemma read_raws_app n l r : Forall (fun x => length x = n) l -> read_raws (length l) n (concat l ++ r) = Ok (l, r).
Proof.
  induction 1 as [|x l H F IH]; [reflexivity|]. cbn [length read_raws concat]. rewrite <- app_assoc, (read_raw_app n x _ H). cbn [bind]. rewrite IH. reflexivity.
Qed.
Lemma zlen_nat {A} (l : list A) d : zlen l = 2 ^ d -> length l = Z.to_nat (2 ^ d). Proof. unfold zlen. lia. Qed.
Lemma read_write d p : 0 <= d < 2 ^ 32 -> kzg_of_degree d p -> read_custom (write_custom p) = Ok p.
Proof.
  intros D (K & G & L & FG & FL & A & B). unfold read_custom, write_custom.
  destruct (Nat.ltb_spec (length (le_bytes 4 (kzg_k p) ++ concat (kzg_g p) ++ concat (kzg_lagrange p) ++ kzg_g2 p ++ kzg_s_g2 p)) 4) as [X|_]; [rewrite app_length, length_le in X; lia|].
  rewrite (firstn_len (le_bytes 4 (kzg_k p)) _ 4 (length_le _ _)), (skipn_len (le_bytes 4 (kzg_k p)) _ 4 (length_le _ _)), rev_le, of_be_be by lia.
  change (256 ^ Z.of_nat 4) with (2 ^ 32). rewrite K, (Z.mod_small d) by lia.
  rewrite <- (zlen_nat (kzg_g p) d G), (read_raws_app 64 (kzg_g p) _ FG). cbn [bind].
  rewrite (zlen_nat (kzg_g p) d G), <- (zlen_nat (kzg_lagrange p) d L), (read_raws_app 64 (kzg_lagrange p) _ FL). cbn [bind].
  rewrite (read_raw_app 128 _ _ A). cbn [bind]. rewrite <- (app_nil_r (kzg_s_g2 p)) at 1. rewrite (read_raw_app 128 _ _ B). cbn [bind]. rewrite <- K. destruct p. reflexivity.
Qed.
Lemma write_len d p : 0 <= d -> kzg_of_degree d p -> zlen (write_custom p) = 4 + 2 * 2 ^ d * 64 + 256.
Proof.
  intros D (K & G & L & FG & FL & A & B). unfold write_custom, zlen in *. rewrite !app_length, length_le, (concat_len 64 _ FG), (concat_len 64 _ FL). lia.
Qed.
Lemma pow_le_22 d : 0 <= d <= 22 -> 1 <= 2 ^ d <= 2 ^ 22.
Proof. intros H. split; [change 1 with (2 ^ 0); apply Z.pow_le_mono_r; lia|apply Z.pow_le_mono_r; lia]. Qed.
Lemma expected_small d : 0 <= d <= 22 -> expected_len d = 4 + 2 * 2 ^ d * 64 + 256.
Proof.
  intros H. unfold expected_len. rewrite (Z.mod_small d 64) by lia. pose proof (pow_le_22 d H) as P. change (2 ^ 22) with 4194304 in P.
  assert (M : 2 ^ 64 = 18446744073709551616) by reflexivity. rewrite (Z.mod_small (2 * 2 ^ d)) by lia. rewrite Z.mod_small by lia. lia.
Qed.

Section Cache.
  Variable lag : list bytes -> Z -> list bytes.
  Hypothesis HL : lagrange_ok lag.
  Variables vkey pkey : Type.
  Variable vk_write : vkey -> bytes.
  Variable vk_read : bytes -> res vkey.
  Variable pk_write : pkey -> bytes.
  Variable pk_read : bytes -> res pkey.
  Variable keygen_vk : kzg -> config -> res vkey.
  Variable keygen_pk : kzg -> vkey -> config -> res pkey.
  Variable g2chip : bool.
  Hypothesis HV : serial_ok vk_write vk_read.
  Hypothesis HP : serial_ok pk_write pk_read.
  Variable dir : path.
  Variable srs : kzg.
  Hypothesis HS : kzg_of_degree 22 srs.
  Notation pfor := (params_for lag srs).
  Notation vkf := (vk_file g2chip dir).
  Notation pkf := (pk_file g2chip dir).

  Lemma pfor_ok d : 0 <= d <= 22 -> kzg_of_degree d (pfor d).
  Proof.
    intros D. unfold params_for. destruct (Z.ltb_spec d 22) as [L|L]; [|assert (d = 22) by lia; subst d; exact HS].
    destruct HS as (K & G & Lg & FG & FL & A & B). set (g := firstn (Z.to_nat (2 ^ d)) (kzg_g srs)).
    assert (Hg : zlen g = 2 ^ d).
    { unfold g, zlen. rewrite firstn_length. unfold zlen in G. pose proof (pow_le_22 d D). lia. }
    assert (Fg : Forall (fun x => length x = 64%nat) g).
    { rewrite <- (firstn_skipn (Z.to_nat (2 ^ d)) (kzg_g srs)), Forall_app in FG. exact (proj1 FG). }
    destruct (HL d g ltac:(lia) Hg Fg) as [X Y]. unfold kzg_of_degree. cbn [kzg_k kzg_g kzg_lagrange kzg_g2 kzg_s_g2]. auto 10.
  Qed.
  Lemma pfor_22 : pfor 22 = srs. Proof. reflexivity. Qed.

  Definition range (cfg : config) (d : Z) : Prop := 0 <= d < 2 ^ 32 /\ 0 <= threshold cfg < 2 ^ 64 /\ 0 <= number_of_members cfg < 2 ^ 64.
  Definition vk_is cfg d v : Prop := keygen_vk (pfor d) cfg = Ok v.
  Definition pk_is cfg d k : Prop := exists v, vk_is cfg d v /\ keygen_pk (pfor d) v cfg = Ok k.

  Record inv (s : fs) : Prop := {
    i_dir : s dir = Some Dir;
    i_max : s (params_file dir 22) = Some (File (write_custom srs));
    i_par : forall d, 0 <= d < 2 ^ 32 -> d <> 22 ->
      s (params_file dir d) = None \/ (d < 22 /\ exists j, s (params_file dir d) = Some (File (firstn j (write_custom (pfor d)))));
    i_vk : forall cfg d, range cfg d -> s (vkf cfg d) = None \/ exists v j, vk_is cfg d v /\ s (vkf cfg d) = Some (File (firstn j (vk_write v)));
    i_pk : forall cfg d, range cfg d -> s (pkf cfg d) = None \/ exists k j, pk_is cfg d k /\ s (pkf cfg d) = Some (File (firstn j (pk_write k)))
  }.
  Definition good (w : path * bytes) : Prop :=
    (exists d, 0 <= d < 22 /\ w = (params_file dir d, write_custom (pfor d))) \/
    (exists cfg d v, range cfg d /\ vk_is cfg d v /\ w = (vkf cfg d, vk_write v)) \/
    (exists cfg d k, range cfg d /\ pk_is cfg d k /\ w = (pkf cfg d, pk_write k)).

  Lemma dir_neq_params d : dir <> params_file dir d. Proof. rewrite params_file_name. intros E. symmetry in E. exact (in_dir_neq _ _ E). Qed.
  Lemma dir_neq_key k cfg d : dir <> key_file g2chip k dir cfg d. Proof. rewrite key_file_name. intros E. symmetry in E. exact (in_dir_neq _ _ E). Qed.
  Lemma params_inj d d' : 0 <= d < 2 ^ 32 -> 0 <= d' < 2 ^ 32 -> params_file dir d = params_file dir d' -> d = d'.
  Proof. rewrite !params_file_name. intros D D' E. apply in_dir_inj in E. apply params_name_inj; auto. Qed.
  Lemma params_key k cfg d d' : k = str "vk" \/ k = str "pk" -> params_file dir d <> key_file g2chip k dir cfg d'.
  Proof. rewrite params_file_name, key_file_name. intros K E. apply in_dir_inj in E. exact (params_not_key _ _ _ _ _ K E). Qed.
  Lemma key_inj k k' cfg cfg' d d' : k = str "vk" \/ k = str "pk" -> k' = str "vk" \/ k' = str "pk" -> range cfg d -> range cfg' d' ->
    key_file g2chip k dir cfg d = key_file g2chip k' dir cfg' d' -> k = k' /\ cfg = cfg' /\ d = d'.
  Proof.
    rewrite !key_file_name. intros K K' (D & T & N) (D' & T' & N') E. apply in_dir_inj in E. apply key_name_inj in E; auto. tauto.
  Qed.
  Lemma vk_pk_neq : str "vk" <> str "pk". Proof. discriminate. Qed.

  Lemma inv_set s p b j : inv s -> good (p, b) -> inv (set s p (File (firstn j b))).
  Proof.
    intros I G. assert (K1 : str "vk" = str "vk" \/ str "vk" = str "pk") by auto. assert (K2 : str "pk" = str "vk" \/ str "pk" = str "pk") by auto.
    assert (R22 : 0 <= 22 < 2 ^ 32) by lia.
    destruct G as [(d & D & E)|[(cfg & d & v & R & Hv & E)|(cfg & d & k & R & Hk & E)]]; assert (Ep : p = fst (p, b)) by reflexivity; assert (Eb : b = snd (p, b)) by reflexivity; rewrite E in Ep, Eb; cbn [fst snd] in Ep, Eb; subst p b; clear E.
    - assert (Rd : 0 <= d < 2 ^ 32) by lia. constructor.
      + rewrite set_other by apply dir_neq_params. apply (i_dir s I).
      + rewrite set_other by (intros E; apply params_inj in E; lia). apply (i_max s I).
      + intros d' D' N. destruct (Z.eq_dec d' d) as [->|Nd].
        * right. split; [lia|]. exists j. apply set_same.
        * rewrite set_other by (intros E; apply params_inj in E; lia). apply (i_par s I); auto.
      + intros cfg' d' R'. rewrite set_other by (intros E; symmetry in E; revert E; apply params_key; auto). apply (i_vk s I); auto.
      + intros cfg' d' R'. rewrite set_other by (intros E; symmetry in E; revert E; apply params_key; auto). apply (i_pk s I); auto.
    - constructor.
      + rewrite set_other by apply dir_neq_key. apply (i_dir s I).
      + rewrite set_other by (apply params_key; auto). apply (i_max s I).
      + intros d' D' N. rewrite set_other by (apply params_key; auto). apply (i_par s I); auto.
      + intros cfg' d' R'. destruct (list_eq_dec Z.eq_dec (vkf cfg' d') (vkf cfg d)) as [E|N].
        * apply key_inj in E as (_ & -> & ->); auto. right. exists v, j. split; [exact Hv|apply set_same].
        * rewrite set_other by exact N. apply (i_vk s I); auto.
      + intros cfg' d' R'. rewrite set_other by (intros E; apply key_inj in E as (E & _); auto; discriminate). apply (i_pk s I); auto.
    - constructor.
      + rewrite set_other by apply dir_neq_key. apply (i_dir s I).
      + rewrite set_other by (apply params_key; auto). apply (i_max s I).
      + intros d' D' N. rewrite set_other by (apply params_key; auto). apply (i_par s I); auto.
      + intros cfg' d' R'. rewrite set_other by (intros E; apply key_inj in E as (E & _); auto; discriminate). apply (i_vk s I); auto.
      + intros cfg' d' R'. destruct (list_eq_dec Z.eq_dec (pkf cfg' d') (pkf cfg d)) as [E|N].
        * apply key_inj in E as (_ & -> & ->); auto. right. exists k, j. split; [exact Hk|apply set_same].
        * rewrite set_other by exact N. apply (i_pk s I); auto.
  Qed.
  Lemma inv_effects w : Forall good w -> forall s, inv s -> inv (effects s w).
  Proof.
    induction 1 as [|[p b] w G F IH]; intros s I; [exact I|]. unfold effects in *. cbn [fold_left]. apply IH.
    rewrite <- (firstn_all b). apply inv_set; auto.
  Qed.
  Lemma inv_crashed w s s' : Forall good w -> inv s -> crashed s w s' -> inv s'.
  Proof.
    intros F I [(k & ->)|(w1 & p & b & w2 & j & -> & ->)].
    - apply inv_effects; auto. rewrite <- (firstn_skipn k w), Forall_app in F. exact (proj1 F).
    - rewrite effects_app. apply Forall_app in F as [F1 F2]. inversion F2 as [|? ? G F3]. subst.
      pose proof (inv_effects _ F1 _ I) as I1. exact (inv_set _ p b j I1 G).
  Qed.

  (** Hoare triples: from a good directory, all writes are good and the result, if any, satisfies P *)
  Definition triple {A} (m : cmd A) (P : A -> Prop) : Prop :=
    forall s, inv s -> Forall good (fst (m s)) /\ forall a, snd (m s) = Ok a -> P a.
  Lemma t_bind {A B} (m : cmd A) (f : A -> cmd B) P Q : triple m P -> (forall a, P a -> triple (f a) Q) -> triple (cbind m f) Q.
  Proof.
    intros Hm Hf s I. destruct (Hm s I) as [F R]. unfold cbind. destruct (m s) as [w r]. cbn [fst snd] in *. destruct r as [a| |]; cbn [fst snd]; [|split; [exact F|discriminate]..].
    specialize (Hf a (R a eq_refl) _ (inv_effects _ F _ I)). destruct (f a (effects s w)) as [w' r']. cbn [fst snd] in *. destruct Hf as [F' R']. split; [apply Forall_app; auto|exact R'].
  Qed.
  Lemma t_ret {A} (a : A) (P : A -> Prop) : P a -> triple (cret a) P.
  Proof. intros H s _. cbn. split; [constructor|]. intros x E. congruence. Qed.
  Lemma t_lift {A} (r : res A) (P : A -> Prop) : (forall a, r = Ok a -> P a) -> triple (lift r) P.
  Proof. intros H s _. cbn. split; [constructor|exact H]. Qed.
  Lemma t_true {A} (m : cmd A) : (forall s, fst (m s) = []) -> triple m (fun _ => True).
  Proof. intros H s _. rewrite H. split; [constructor|auto]. Qed.
  Lemma t_try {A} (m : cmd A) (P : A -> Prop) : triple m P -> triple (try_ok m) (fun o => match o with Some a => P a | None => True end).
  Proof.
    intros H s I. destruct (H s I) as [F R]. unfold try_ok. destruct (m s) as [w r]. cbn [fst snd] in *. split; [exact F|].
    intros o E. destruct r; [assert (o = Some a) by congruence; subst; auto|assert (o = None) by congruence; subst; auto|discriminate].
  Qed.
  Lemma t_write p b : good (p, b) -> triple (write_file p b) (fun _ => True).
  Proof.
    intros G s _. unfold write_file. split; [|auto]. destruct (s p) as [[|]|]; destruct (s (parent p)) as [[|]|]; cbn [fst]; first [apply Forall_nil|apply Forall_cons; [exact G|apply Forall_nil]].
  Qed.

  Lemma firstn_torn {A} (l : list A) j : firstn j l = l \/ (length (firstn j l) < length l)%nat /\ (j < length l)%nat.
  Proof. destruct (le_lt_dec (length l) j); [left; apply firstn_all2; auto|right; rewrite firstn_length; lia]. Qed.

  Lemma load_params_ok s d : inv s -> 0 <= d < 2 ^ 32 ->
    (d = 22 /\ load_params (params_file dir d) d s = ([], Ok srs)) \/
    (d < 22 /\ load_params (params_file dir d) d s = ([], Ok (pfor d))) \/
    (d <> 22 /\ exists m, load_params (params_file dir d) d s = ([], Err m)).
  Proof.
    intros I D. unfold load_params, cbind, is_dir, read_file, lift. destruct (Z.eq_dec d 22) as [->|N].
    - left. split; [reflexivity|]. rewrite (i_max s I). cbn [effects fold_left]. rewrite (i_max s I). cbn [app].
      rewrite (write_len 22 srs) by (lia || exact HS). rewrite expected_small by lia. rewrite Z.eqb_refl. cbn [require bind]. rewrite (read_write 22) by (lia || exact HS). reflexivity.
    - right. destruct (i_par s I d D N) as [E|(L & j & E)].
      + right. split; [exact N|]. rewrite E. eauto.
      + rewrite E. cbn [effects fold_left]. rewrite E. cbn [app]. assert (D22 : 0 <= d <= 22) by lia. pose proof (pfor_ok d D22) as W.
        pose proof (write_len d _ (proj1 D22) W) as WL.
        destruct (firstn_torn (write_custom (pfor d)) j) as [->|[T _]].
        * left. split; [exact L|]. rewrite WL, expected_small by exact D22. rewrite Z.eqb_refl. cbn [require bind]. rewrite (read_write d) by (lia || exact W). reflexivity.
        * right. split; [exact N|]. rewrite expected_small by exact D22. unfold zlen in *. destruct (Z.eqb_spec (Z.of_nat (length (firstn j (write_custom (pfor d))))) (4 + 2 * 2 ^ d * 64 + 256)) as [X|_]; [lia|].
          cbn [require bind]. eauto.
  Qed.
  (** whatever happened before, the parameters are delivered *)
  Theorem params_ok s d : inv s -> 0 <= d < 2 ^ 32 ->
    exists w, load_or_create_params lag dir d s = (w, Ok (pfor d)) /\ Forall good w.
  Proof.
    intros I D. unfold load_or_create_params. unfold cbind at 1. unfold try_ok at 1.
    destruct (load_params_ok s d I D) as [(-> & E)|[(L & E)|(N & m & E)]]; rewrite E.
    - cbn [cret app effects fold_left]. exists []. split; [rewrite pfor_22; reflexivity|constructor].
    - cbn [cret app effects fold_left]. exists []. split; [reflexivity|constructor].
    - cbn [effects fold_left]. unfold cbind at 1. unfold try_ok at 1. change MAX_DEGREE with 22.
      destruct (load_params_ok s 22 I ltac:(lia)) as [(_ & E')|[(L & _)|(N' & _)]]; [|lia|congruence]. rewrite E'. cbn [effects fold_left app].
      unfold params_for. destruct (Z.ltb_spec d 22) as [L|L]; [|cbn [cret]; exists []; split; [reflexivity|constructor]].
      unfold cbind at 1. unfold lift at 1, downsize. pose proof HS as (K & _). rewrite K. rewrite (proj2 (assert_ok _ _ tt)) by (apply Z.leb_le; lia). cbn [bind effects fold_left app].
      unfold cbind at 1. unfold write_file.
      assert (PD : parent (params_file dir d) = dir) by (rewrite params_file_name; apply parent_of, params_name_ok; lia). rewrite PD, (i_dir s I).
      assert (X : match s (params_file dir d) with Some Dir => False | _ => True end).
      { destruct (i_par s I d D N) as [->|(_ & j & ->)]; exact Logic.I. }
      exists [(params_file dir d, write_custom (pfor d))]. split.
      + unfold params_for. rewrite (proj2 (Z.ltb_lt _ _) L). destruct (s (params_file dir d)) as [[|]|]; [reflexivity|contradiction|reflexivity].
      + apply Forall_cons; [|apply Forall_nil]. left. exists d. split; [lia|reflexivity].
  Qed.
  Lemma create_params s d : inv s -> 0 <= d < 22 -> s (params_file dir d) = None ->
    load_or_create_params lag dir d s = ([(params_file dir d, write_custom (pfor d))], Ok (pfor d)).
  Proof.
    intros I D E0. unfold load_or_create_params. unfold cbind at 1. unfold try_ok at 1.
    assert (E : exists m, load_params (params_file dir d) d s = ([], Err m)) by (unfold load_params, cbind, is_dir; rewrite E0; eauto). destruct E as [m E]. rewrite E.
    cbn [effects fold_left]. unfold cbind at 1. unfold try_ok at 1. change MAX_DEGREE with 22.
    destruct (load_params_ok s 22 I ltac:(lia)) as [(_ & E')|[(L & _)|(N' & _)]]; [|lia|congruence]. rewrite E'. cbn [effects fold_left app].
    unfold params_for. rewrite (proj2 (Z.ltb_lt d 22)) by lia.
    unfold cbind at 1. unfold lift at 1, downsize. pose proof HS as (K & _). rewrite K. rewrite (proj2 (assert_ok _ _ tt)) by (apply Z.leb_le; lia). cbn [bind effects fold_left app].
    unfold cbind at 1. unfold write_file.
    assert (PD : parent (params_file dir d) = dir) by (rewrite params_file_name; apply parent_of, params_name_ok; lia). rewrite PD, (i_dir s I), E0. reflexivity.
  Qed.
  Lemma t_params d : 0 <= d < 2 ^ 32 -> triple (load_or_create_params lag dir d) (fun p => p = pfor d).
  Proof. intros D s I. destruct (params_ok s d I D) as (w & E & F). rewrite E. cbn [fst snd]. split; [exact F|]. intros a X. congruence. Qed.

  Lemma t_load_vk cfg d : range cfg d -> triple (load_vk vkey vk_read g2chip cfg dir d) (vk_is cfg d).
  Proof.
    intros R s I. unfold load_vk, cbind, is_dir, read_file, lift. rewrite (i_dir s I). cbn [effects fold_left].
    destruct (i_vk s I cfg d R) as [E|(v & j & Hv & E)]; rewrite E; cbn [fst snd app]; (split; [constructor|]); [discriminate|].
    intros a X. destruct (firstn_torn (vk_write v) j) as [T|[_ T]]; [rewrite T, (proj1 HV) in X; congruence|]. destruct (proj2 HV v j a T X).
  Qed.
  Lemma t_load_pk cfg d : range cfg d -> triple (load_pk pkey pk_read g2chip cfg dir d) (pk_is cfg d).
  Proof.
    intros R s I. unfold load_pk, cbind, is_dir, read_file, lift. rewrite (i_dir s I). cbn [effects fold_left].
    destruct (i_pk s I cfg d R) as [E|(v & j & Hv & E)]; rewrite E; cbn [fst snd app]; (split; [constructor|]); [discriminate|].
    intros a X. destruct (firstn_torn (pk_write v) j) as [T|[_ T]]; [rewrite T, (proj1 HP) in X; assert (v = a) by congruence; subst; exact Hv|]. destruct (proj2 HP v j a T X).
  Qed.
  Lemma t_vk cfg d : range cfg d -> triple (load_or_create_vk vkey vk_write vk_read keygen_vk g2chip cfg dir (pfor d) d) (vk_is cfg d).
  Proof.
    intros R. unfold load_or_create_vk. apply t_bind with (P := fun _ => True); [apply t_true; reflexivity|intros b _].
    apply t_bind with (P := fun _ => True); [apply t_true; reflexivity|intros _ _].
    apply t_bind with (P := fun o => match o with Some a => vk_is cfg d a | None => True end); [apply t_try, t_load_vk; exact R|]. intros [v|] Hv; [apply t_ret; exact Hv|].
    apply t_bind with (P := vk_is cfg d); [apply t_lift; intros v E; unfold vk_is; destruct (keygen_vk (pfor d) cfg); congruence|]. intros v Hv'.
    apply t_bind with (P := fun _ => True); [apply t_write; right; left; exists cfg, d, v; auto|]. intros _ _. apply t_ret. exact Hv'.
  Qed.
  Lemma t_pk cfg d : range cfg d -> triple (load_or_create_pk vkey pkey vk_write vk_read pk_write pk_read keygen_vk keygen_pk g2chip cfg dir (pfor d) d) (pk_is cfg d).
  Proof.
    intros R. unfold load_or_create_pk. apply t_bind with (P := fun _ => True); [apply t_true; reflexivity|intros b _].
    apply t_bind with (P := fun _ => True); [apply t_true; reflexivity|intros _ _].
    apply t_bind with (P := fun o => match o with Some a => pk_is cfg d a | None => True end); [apply t_try, t_load_pk; exact R|]. intros [v|] Hv; [apply t_ret; exact Hv|].
    apply t_bind with (P := vk_is cfg d); [apply t_vk; exact R|]. intros v Hv'.
    apply t_bind with (P := pk_is cfg d); [apply t_lift; intros k E; exists v; split; [exact Hv'|]; destruct (keygen_pk (pfor d) v cfg); congruence|]. intros k Hk.
    apply t_bind with (P := fun _ => True); [apply t_write; right; right; exists cfg, d, k; auto|]. intros _ _. apply t_ret. exact Hk.
  Qed.

  Definition expected (u : use) (g : got vkey pkey) : Prop :=
    match u, g with
    | UseParams d, GotParams _ _ p => p = pfor d
    | UseVk cfg d, GotVk _ _ v => vk_is cfg d v
    | UsePk cfg d, GotPk _ _ k => pk_is cfg d k
    | _, _ => False
    end.
  Lemma usize_range x : is_usize x = true -> 0 <= x < 2 ^ 64.
  Proof. unfold is_usize, M64. intros H. apply andb_prop in H as [A B]. apply Z.leb_le in A. apply Z.ltb_lt in B. lia. Qed.
  Notation run := (run_use lag vkey pkey vk_write vk_read pk_write pk_read keygen_vk keygen_pk g2chip dir).
  Lemma t_use u : in_range u -> triple (run u) (expected u).
  Proof.
    destruct u as [d|cfg d|cfg d]; cbn [in_range run_use].
    - intros D. apply t_bind with (P := fun p => p = pfor d); [apply t_params; exact D|]. intros p ->. apply t_ret. reflexivity.
    - intros (D & T & N). assert (R : range cfg d) by (split; [exact D|split; apply usize_range; assumption]).
      apply t_bind with (P := fun p => p = pfor d); [apply t_params; exact D|]. intros p ->.
      apply t_bind with (P := vk_is cfg d); [apply t_vk; exact R|]. intros v Hv. apply t_ret. exact Hv.
    - intros (D & T & N). assert (R : range cfg d) by (split; [exact D|split; apply usize_range; assumption]).
      apply t_bind with (P := fun p => p = pfor d); [apply t_params; exact D|]. intros p ->.
      apply t_bind with (P := pk_is cfg d); [apply t_pk; exact R|]. intros v Hv. apply t_ret. exact Hv.
  Qed.
  Theorem reached_inv s : reached lag vkey pkey vk_write vk_read pk_write pk_read keygen_vk keygen_pk g2chip dir srs s -> inv s.
  Proof.
    induction 1 as [s D M O|s u s' R IH U C|s s' R IH D O].
    - assert (R22 : 0 <= 22 < 2 ^ 32) by lia. constructor; auto.
      + intros d Rd N. left. rewrite params_file_name. apply O; [apply params_name_ok; lia|]. rewrite <- params_file_name. intros E. apply params_inj in E; lia.
      + intros cfg d (A & B & C). left. unfold vk_file. rewrite key_file_name. apply O; [apply key_name_ok; cbn; intuition lia|]. rewrite <- key_file_name. intros E. symmetry in E. revert E. apply params_key. auto.
      + intros cfg d (A & B & C). left. unfold pk_file. rewrite key_file_name. apply O; [apply key_name_ok; cbn; intuition lia|]. rewrite <- key_file_name. intros E. symmetry in E. revert E. apply params_key. auto.
    - apply (inv_crashed (fst (run u s)) s s'); auto. apply (t_use u U s IH).
    - destruct IH as [I1 I2 I3 I4 I5]. constructor.
      + congruence.
      + rewrite params_file_name, O, <- params_file_name. exact I2.
      + intros d Rd N. rewrite params_file_name, O, <- params_file_name. auto.
      + intros cfg d Rd. unfold vk_file. rewrite key_file_name, O, <- key_file_name. apply I4. exact Rd.
      + intros cfg d Rd. unfold pk_file. rewrite key_file_name, O, <- key_file_name. apply I5. exact Rd.
  Qed.
End Cache.

(** ** any directory contents *)
Lemma read_raw_len n b x r : read_raw n b = Ok (x, r) -> (length b = n + length r)%nat.
Proof. unfold read_raw. destruct (Nat.leb_spec n (length b)) as [L|L]; [|discriminate]. intros E. assert (skipn n b = r) by congruence. subst r. rewrite skipn_length. lia. Qed.
Lemma read_raws_len c n : forall b l r, read_raws c n b = Ok (l, r) -> (length b = c * n + length r)%nat.
Proof.
  induction c as [|c IH]; intros b l r E; cbn [read_raws] in E; [assert (b = r) by congruence; subst; lia|].
  destruct (read_raw n b) as [[x r1]| |] eqn:E1; cbn [bind] in E; try discriminate. destruct (read_raws c n r1) as [[l' r2]| |] eqn:E2; cbn [bind] in E; try discriminate.
  apply read_raw_len in E1. apply IH in E2. assert (r2 = r) by congruence. subst. lia.
Qed.
Lemma read_custom_len b p : read_custom b = Ok p -> 0 <= kzg_k p /\ 4 + 2 * 2 ^ kzg_k p * 64 + 256 <= zlen b \/ kzg_k p < 0.
Proof.
  unfold read_custom. destruct (Nat.ltb_spec (length b) 4) as [|L]; [discriminate|]. set (k := of_be (rev (firstn 4 b))). intros E.
  destruct (read_raws _ _ (skipn 4 b)) as [[g b1]| |] eqn:E1; cbn [bind] in E; try discriminate.
  destruct (read_raws _ _ b1) as [[gl b2]| |] eqn:E2; cbn [bind] in E; try discriminate.
  destruct (read_raw _ b2) as [[x b3]| |] eqn:E3; cbn [bind] in E; try discriminate.
  destruct (read_raw _ b3) as [[y b4]| |] eqn:E4; cbn [bind] in E; try discriminate.
  apply read_raws_len in E1, E2. apply read_raw_len in E3, E4. rewrite skipn_length in E1.
  assert (kzg_k p = k) by (assert (p = mkKzg k g gl x y) by congruence; subst p; reflexivity). rewrite H. clear E. clearbody k.
  destruct (Z_lt_le_dec k 0); [right; lia|left]. split; [lia|]. unfold zlen. pose proof (Z.pow_pos_nonneg 2 k). lia.
Qed.
Lemma load_tail_any (s : fs) q d x : 0 <= d <= 22 ->
  snd ((do b := read_file q in lift (let* _ := require (zlen b =? expected_len d) "invalid params file len" in read_custom b)) s) = Ok x -> kzg_k x <= d.
Proof.
  intros D. unfold cbind, read_file, lift. destruct (s q) as [[c'|]|]; cbn [snd]; try discriminate.
  rewrite expected_small by exact D. destruct (Z.eqb_spec (zlen c') (4 + 2 * 2 ^ d * 64 + 256)) as [L|]; cbn [require bind]; [|discriminate].
  intros E; apply read_custom_len in E as [[K E]|K]; [|lia]; rewrite L in E; apply (Z.pow_le_mono_r_iff 2); lia.
Qed.
Lemma load_params_any s p d x : 0 <= d <= 22 -> snd (load_params p d s) = Ok x -> kzg_k x <= d.
Proof.
  intros D. unfold load_params. unfold cbind at 1. unfold is_dir. destruct (s p) as [[c|]|]; cbn [effects fold_left].
  - pose proof (load_tail_any s p d x D) as H. destruct ((do b := read_file p in lift (let* _ := require (zlen b =? expected_len d) "invalid params file len" in read_custom b)) s). exact H.
  - pose proof (load_tail_any s (params_file p d) d x D) as H. destruct ((do b := read_file (params_file p d) in lift (let* _ := require (zlen b =? expected_len d) "invalid params file len" in read_custom b)) s). exact H.
  - discriminate.
Qed.
Theorem params_any lag s dir d x : 0 <= d <= 22 -> snd (load_or_create_params lag dir d s) = Ok x -> kzg_k x <= d.
Proof.
  intros D. unfold load_or_create_params. unfold cbind at 1. unfold try_ok at 1.
  pose proof (fun x => load_params_any s (params_file dir d) d x D) as P1. destruct (load_params (params_file dir d) d s) as [w1 [p| |]]; cbn [snd] in *; [| |discriminate].
  - cbn [cret snd]. intros E. apply P1. congruence.
  - unfold cbind at 1. unfold try_ok at 1. change MAX_DEGREE with 22.
    pose proof (fun x => load_params_any (effects s w1) (params_file dir 22) 22 x ltac:(lia)) as P2. destruct (load_params (params_file dir 22) 22 (effects s w1)) as [w2 [p| |]]; cbn [snd] in *; [|discriminate..].
    destruct (Z.ltb_spec d 22) as [L|L].
    + unfold cbind, lift, downsize. destruct (d <=? kzg_k p); cbn [assert bind snd]; [|discriminate].
      match goal with |- context [write_file ?a ?b ?c] => destruct (write_file a b c) as [w3 [u| |]] end; cbn [snd cret]; try discriminate.
      intros E. match type of E with Ok ?a = _ => assert (x = a) by congruence end. subst x. cbn [kzg_k]. lia.
    + cbn [cret snd]. intros E. specialize (P2 p eq_refl). assert (p = x) by congruence. subst. lia.
Qed.
