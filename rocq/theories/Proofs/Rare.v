(** How rare the exceptional inputs of the circuit are. *)
From Coq Require Import Field ZArith List Bool Lia Znumtheory.
From Verif.Base Require Import Fermat Fld Fp EC Primes Curves Group Order Poly.
From Verif.Model Require Import Points.
From Verif.Spec Require Import Dvrf CircuitSpec.
From Verif.Proofs Require Import DkgProofs.
Import ListNotations.
Open Scope Z_scope.

Lemma pigeon {A} (code : A -> nat) (n : nat) (l : list A) : NoDup l -> (forall a, In a l -> (code a < n)%nat) ->
  (forall a b, In a l -> In b l -> code a = code b -> a = b) -> (length l <= n)%nat.
Proof.
  intros N B I. assert (N' : NoDup (map code l)).
  { clear B. induction N as [|a l Ha N IH]; cbn [map]; constructor.
    - intros H. apply in_map_iff in H as (b & E & Hb). assert (b = a) by (apply I; [right; auto|left; auto|auto]). subst. contradiction.
    - apply IH. intros a' b' Ha' Hb'. apply I; right; auto. }
  rewrite <- (map_length code l), <- (seq_length n 0). apply NoDup_incl_length; auto.
  intros x H. apply in_map_iff in H as (a & <- & Ha). apply in_seq. specialize (B a Ha). lia.
Qed.
Lemma small_div r a : 0 < r -> (r | a) -> - r < a < r -> a = 0.
Proof. intros R [k ->] B. assert (k = 0) by nia. subst. reflexivity. Qed.

Section Fixed.
  Variable G : Grp.
  Variables P aux : G.
  Hypothesis ord_P : zmul r_mod P = g0.
  Hypothesis P_neq0 : P <> g0.
  Lemma zinj a b : zmul a P = zmul b P -> (r_mod | a - b).
  Proof. intros E. apply (zmul_order G r_mod P); auto using r_prime. rewrite zmul_sub, E, gopp_r. reflexivity. Qed.

  Definition ecode (s : Z) : nat :=
    let t := Z.to_nat (s / 2 ^ 252) in
    if geqb (zmul (lo_part s - hi_part s) P) aux then t
    else if geqb (zmul (lo_part s + hi_part s) P) (⊖ aux)%grp then (4 + t)%nat
    else if geqb (zmul (s - 2 * (lo_part s + hi_part s)) P) (aux ⊕ aux)%grp then (8 + t)%nat else 12%nat.

  Lemma top_range s : 0 <= s < r_mod -> 0 <= s / 2 ^ 252 < 4.
  Proof. intros H. split; [apply Z.div_pos; lia|]. apply Z.div_lt_upper_bound; [reflexivity|]. assert (r_mod < 2 ^ 252 * 4) by reflexivity. lia. Qed.

  Lemma split_s s : 0 <= s -> exists u h t, 0 <= u < 2 ^ 249 /\ 0 <= h < 8 /\ s / 2 ^ 252 = t /\ s = u + 2 ^ 249 * h + 8 * 2 ^ 249 * t /\
    lo_part s = u + 2 * ((2 ^ 249 - 1) / 7) /\ hi_part s = (h + 2) * 2 ^ 249.
  Proof.
    intros H. exists (s mod 2 ^ 249), ((s / 2 ^ 249) mod 8), (s / 2 ^ 252).
    split; [apply Z.mod_pos_bound; reflexivity|]. split; [apply Z.mod_pos_bound; reflexivity|]. split; [reflexivity|]. split; [|split; reflexivity].
    change (2 ^ 252) with (2 ^ 249 * 8). rewrite <- Z.div_div by (try reflexivity; discriminate).
    pose proof (Z.div_mod s (2 ^ 249) ltac:(discriminate)). pose proof (Z.div_mod (s / 2 ^ 249) 8 ltac:(discriminate)).
    revert H0 H1. generalize ((s / 2 ^ 249) mod 8) (s mod 2 ^ 249) (s / 2 ^ 249 / 8) (s / 2 ^ 249) (2 ^ 249). intros. subst. nia.
  Qed.
  Lemma K_r : 8 * 2 ^ 249 < r_mod. Proof. reflexivity. Qed.

  Theorem exceptional_rare l : NoDup l -> (forall s, In s l -> 0 <= s < r_mod /\ exceptional P aux s) -> (length l <= 13)%nat.
  Proof.
    intros N H. apply (pigeon ecode); auto.
    - intros s Hs. destruct (H s Hs) as [B _]. apply top_range in B. unfold ecode. destruct (geqb _ _); [lia|]. destruct (geqb _ _); [lia|]. destruct (geqb _ _); lia.
    - intros a b Ha Hb E. destruct (H a Ha) as [Ba Xa]. destruct (H b Hb) as [Bb Xb].
      pose proof (top_range a Ba) as Ta. pose proof (top_range b Bb) as Tb. unfold ecode in E.
      destruct (split_s a ltac:(lia)) as (u & h & t & Hu & Hh & Et & Es & El & Eh).
      destruct (split_s b ltac:(lia)) as (u' & h' & t' & Hu' & Hh' & Et' & Es' & El' & Eh').
      rewrite Et in *. rewrite Et' in *. pose proof K_r as KR.
      assert (Z0 : forall s, 0 <= s < r_mod -> zmul s P = g0 -> s = 0).
      { intros s B X. pose proof (zmul_order G r_mod P s r_prime P_neq0 ord_P X) as D. apply (small_div r_mod); auto; lia. }
      unfold exceptional in Xa, Xb.
      destruct (geqb (zmul (lo_part a - hi_part a) P) aux) eqn:A1; [apply geqb_eq in A1|].
      { destruct (geqb (zmul (lo_part b - hi_part b) P) aux) eqn:B1; [apply geqb_eq in B1|repeat (destruct (geqb _ _) in E; try lia)].
        rewrite <- B1 in A1. apply zinj in A1. rewrite El, Eh, El', Eh' in A1. clear - A1 E Es Es' Hu Hu' Hh Hh' Ta Tb KR.
        revert Es Es' Hu Hu' A1 KR. generalize (2 ^ 249). generalize (2 * ((2 ^ 249 - 1) / 7)). intros c K Es Es' Hu Hu' A1 KR.
        assert (t = t') by lia. subst t'. apply small_div in A1; [|reflexivity|nia]. assert (h = h') by nia. subst. lia. }
      destruct (geqb (zmul (lo_part b - hi_part b) P) aux) eqn:B1; [repeat (destruct (geqb _ _) in E; try lia)|].
      destruct (geqb (zmul (lo_part a + hi_part a) P) (⊖ aux)%grp) eqn:A2; [apply geqb_eq in A2|].
      { destruct (geqb (zmul (lo_part b + hi_part b) P) (⊖ aux)%grp) eqn:B2; [apply geqb_eq in B2|repeat (destruct (geqb _ _) in E; try lia)].
        rewrite <- B2 in A2. apply zinj in A2. rewrite El, Eh, El', Eh' in A2. clear - A2 E Es Es' Hu Hu' Hh Hh' Ta Tb KR.
        revert Es Es' Hu Hu' A2 KR. generalize (2 ^ 249). generalize (2 * ((2 ^ 249 - 1) / 7)). intros c K Es Es' Hu Hu' A1 KR.
        assert (t = t') by lia. subst t'. apply small_div in A1; [|reflexivity|nia]. assert (h = h') by nia. subst. lia. }
      destruct (geqb (zmul (lo_part b + hi_part b) P) (⊖ aux)%grp) eqn:B2; [repeat (destruct (geqb _ _) in E; try lia)|].
      destruct (geqb (zmul (a - 2 * (lo_part a + hi_part a)) P) (aux ⊕ aux)%grp) eqn:A3; [apply geqb_eq in A3|].
      { destruct (geqb (zmul (b - 2 * (lo_part b + hi_part b)) P) (aux ⊕ aux)%grp) eqn:B3; [apply geqb_eq in B3|lia].
        rewrite <- B3 in A3. apply zinj in A3. rewrite El, Eh, El', Eh' in A3. clear - A3 E Es Es' Hu Hu' Hh Hh' Ta Tb KR.
        revert Es Es' Hu Hu' A3 KR. generalize (2 ^ 249). generalize (2 * ((2 ^ 249 - 1) / 7)). intros c K Es Es' Hu Hu' A1 KR.
        assert (t = t') by lia. subst t' a b. apply small_div in A1; [|reflexivity|nia]. assert (h = h') by nia. subst. lia. }
      destruct (geqb (zmul (b - 2 * (lo_part b + hi_part b)) P) (aux ⊕ aux)%grp) eqn:B3; [lia|].
      assert (Qa : zmul a P = g0). { destruct Xa as [X|[X|[X|X]]]; auto; apply geqb_eq in X; congruence. }
      assert (Qb : zmul b P = g0). { destruct Xb as [X|[X|[X|X]]]; auto; apply geqb_eq in X; congruence. }
      rewrite (Z0 a Ba Qa), (Z0 b Bb Qb). reflexivity.
  Qed.

  (** the auxiliary points that cannot be put in the table *)
  Definition bad_aux : list G :=
    map (fun k => ⊖ zmul ((k + 2) * 2 ^ 249) P)%grp [0;1;2;3;4;5;6;7] ++ map (fun k => zmul ((k + 2) * 2 ^ 252 - 2 * ((2 ^ 255 - 1) / 7)) P) [0;1;2;3].
  Lemma bad_aux_iff : zmul r_mod aux = g0 -> (table_assignable P aux <-> ~ In aux bad_aux).
  Proof.
    intros O. unfold table_assignable, bad_aux. rewrite in_app_iff, !in_map_iff. split.
    - intros (T1 & T2 & _) [(k & E & I)|(k & E & I)].
      + apply (T1 k); [cbn in I; lia|]. rewrite <- E, gopp_inv. reflexivity.
      + apply (T2 k); [cbn in I; lia|exact E].
    - intros H. split; [|split; auto].
      + intros k B E. apply H. left. exists k. split; [rewrite E, gopp_inv; reflexivity|]. assert (k = 0 \/ k = 1 \/ k = 2 \/ k = 3 \/ k = 4 \/ k = 5 \/ k = 6 \/ k = 7) by lia. cbn. intuition.
      + intros k B E. apply H. right. exists k. split; [exact E|]. assert (k = 0 \/ k = 1 \/ k = 2 \/ k = 3) by lia. cbn. intuition.
  Qed.
End Fixed.

(** a union of [length Bs] sets of at most [c] elements each *)
Lemma union_bound {A I} (c : nat) (B : I -> A -> Prop) : (forall i a, {B i a} + {~ B i a}) ->
  (forall i l, NoDup l -> (forall a, In a l -> B i a) -> (length l <= c)%nat) ->
  forall is l, NoDup l -> (forall a, In a l -> exists i, In i is /\ B i a) -> (length l <= c * length is)%nat.
Proof.
  intros D C. induction is as [|i is IH]; intros l N H.
  - destruct l as [|a l]; [cbn; lia|]. destruct (H a (or_introl eq_refl)) as (i & [] & _).
  - pose (f := fun a => if D i a then true else false).
    assert (L : (length l = length (filter f l) + length (filter (fun a => negb (f a)) l))%nat).
    { clear. induction l as [|a l IH]; cbn [filter length]; auto. destruct (f a); cbn [negb length]; lia. }
    assert (L1 : (length (filter f l) <= c)%nat).
    { apply (C i); [apply NoDup_filter; auto|]. intros a Ha. apply filter_In in Ha as [_ Ha]. unfold f in Ha. destruct (D i a); [auto|discriminate]. }
    assert (L2 : (length (filter (fun a => negb (f a)) l) <= c * length is)%nat).
    { apply IH.
      - apply NoDup_filter; auto.
      - intros a Ha. apply filter_In in Ha as [Ha Hf]. destruct (H a Ha) as (j & [<-|Hj] & X); [|eauto].
        unfold f in Hf. destruct (D i a); [discriminate|contradiction]. }
    cbn [length]. lia.
Qed.

Lemma exceptional_dec {G : Grp} (P aux : G) s : {exceptional P aux s} + {~ exceptional P aux s}.
Proof.
  unfold exceptional. destruct (geq_dec (zmul (lo_part s - hi_part s) P) aux); [left; tauto|].
  destruct (geq_dec (zmul (lo_part s + hi_part s) P) (⊖ aux)%grp); [left; tauto|].
  destruct (geq_dec (zmul (s - 2 * (lo_part s + hi_part s)) P) (aux ⊕ aux)%grp); [left; tauto|].
  destruct (geq_dec (zmul s P) g0); [left; tauto|right; tauto].
Qed.

(** ** the Grumpkin auxiliary point *)
Definition gk_bad (P : Gk) (s : Z) : list Gk :=
  flat_map (fun i => [zmul (2 ^ i - s mod 2 ^ i) P; zmul (- 2 ^ i - s mod 2 ^ i) P]) (map Z.of_nat (seq 0 254)) ++ [zmul (- s * ((q_mod + 1) / 2)) P].
Lemma gk_bad_length P s : length (gk_bad P s) = 509%nat.
Proof. unfold gk_bad. rewrite app_length, flat_map_concat_map. reflexivity. Qed.
Lemma gk_half (A B : Gk) : (A ⊕ A)%grp = B -> A = zmul ((q_mod + 1) / 2) B.
Proof.
  intros <-. rewrite zmul_gadd, <- zmul_add. replace ((q_mod + 1) / 2 + (q_mod + 1) / 2) with (q_mod + 1) by reflexivity.
  rewrite zmul_add, Gk_exponent, g0_l, zmul_1. reflexivity.
Qed.
Lemma shift_eq {G : Grp} (A B C : G) : (A ⊕ B)%grp = C <-> A = (C ⊕ ⊖ B)%grp.
Proof. split; intros E; [rewrite <- E, gassoc, gopp_r, g0_r; reflexivity|rewrite E, gassoc, gopp_l, g0_r; reflexivity]. Qed.
Theorem gk_exceptional_iff (A P : Gk) s : P <> g0 -> 0 < s < q_mod -> (gk_exceptional A P s <-> In A (gk_bad P s)).
Proof.
  intros NP Bs.
  assert (NS : zmul s P <> g0).
  { intros X. pose proof (zmul_order Gk q_mod P s q_prime NP (Gk_exponent P) X) as D. apply (small_div q_mod) in D; lia. }
  unfold gk_exceptional, gk_bad. rewrite in_app_iff, in_flat_map. cbn [In]. split.
  - intros [(i & Bi & E)|[E|E]]; [left|contradiction|right; left].
    + exists i. split; [apply in_map_iff; exists (Z.to_nat i); split; [lia|apply in_seq; lia]|]. rewrite !zmul_sub, zmul_opp.
      destruct E as [E|E]; apply shift_eq in E; [left|right; left]; symmetry; exact E.
    + assert (E' : (A ⊕ A)%grp = (⊖ zmul s P)%grp) by (rewrite E, gopp_inv; reflexivity). apply gk_half in E'.
      rewrite E', <- zmul_opp, <- zmul_mul, Z.mul_comm. reflexivity.
  - intros [(i & Hi & E)|[E|[]]].
    + apply in_map_iff in Hi as (j & <- & Hj). apply in_seq in Hj. left. exists (Z.of_nat j). split; [lia|].
      rewrite !zmul_sub, zmul_opp in E. destruct E as [E|[E|[]]]; [left|right]; apply shift_eq; symmetry; exact E.
    + right. right. rewrite <- E, <- zmul_add. replace (- s * ((q_mod + 1) / 2) + - s * ((q_mod + 1) / 2)) with (- s * q_mod + - s).
      2:{ assert (X : (q_mod + 1) / 2 + (q_mod + 1) / 2 = q_mod + 1) by reflexivity. revert X. generalize ((q_mod + 1) / 2). intros. nia. }
      rewrite zmul_add, zmul_mul, Gk_exponent, zmul_g0, g0_l, zmul_opp, gopp_inv. reflexivity.
Qed.

(** a list longer than the list of bad points has a good one *)
Lemma avoid {G : Grp} (bad l : list G) : NoDup l -> (length bad < length l)%nat -> exists A, In A l /\ ~ In A bad.
Proof.
  intros N L. destruct (Exists_dec (fun A => ~ In A bad) l) as [E|E].
  - intros A. destruct (in_dec geq_dec A bad); [right; tauto|left; auto].
  - apply Exists_exists in E as (A & H1 & H2). eauto.
  - exfalso. assert (I : incl l bad).
    { intros A HA. destruct (in_dec geq_dec A bad); auto. exfalso. apply E, Exists_exists. eauto. }
    apply NoDup_incl_length in I; auto. lia.
Qed.
Definition bad_auxes (pks : list Gk) (s : Z) : list Gk := g0 :: flat_map (fun pk => gk_bad pk s) (gk :: pks).
Lemma bad_auxes_length pks s : length (bad_auxes pks s) = (1 + 509 * (1 + length pks))%nat.
Proof.
  unfold bad_auxes. cbn [length]. assert (E : forall l, length (flat_map (fun pk => gk_bad pk s) l) = (509 * length l)%nat).
  { induction l as [|a l IH]; [reflexivity|]. cbn [flat_map]. rewrite app_length, gk_bad_length, IH. cbn [length]. lia. }
  rewrite E. cbn [length]. lia.
Qed.
Lemma bad_auxes_ok (pks : list Gk) s A : 0 < s < q_mod -> Forall (fun pk => pk <> g0) pks -> ~ In A (bad_auxes pks s) ->
  A <> g0 /\ ~ gk_exceptional A gk s /\ Forall (fun pk : Gk => pk <> g0 /\ ~ gk_exceptional A pk s) pks.
Proof.
  intros B F H. unfold bad_auxes in H. cbn [In] in H. split; [intros ->; apply H; auto|]. split.
  - intros X. apply gk_exceptional_iff in X; auto using gk_neq0. apply H. right. apply in_flat_map. exists gk. split; [left; auto|exact X].
  - rewrite Forall_forall in *. intros pk Hp. split; [auto|]. intros X. apply gk_exceptional_iff in X; auto. apply H. right.
    apply in_flat_map. exists pk. split; [right; auto|exact X].
Qed.

(** many different points: the multiples of a point of prime order *)
Lemma multiples_NoDup {G : Grp} (P : G) p n : prime p -> P <> g0 -> zmul p P = g0 -> Z.of_nat n < p -> NoDup (map (fun i => zmul i P) (zseq n)).
Proof.
  intros Hp NP O B. assert (I : forall i, In i (zseq n) -> 1 <= i <= Z.of_nat n) by (intros i Hi; apply in_zseq in Hi; lia).
  pose proof (NoDup_zseq n) as N. revert I N. generalize (zseq n). induction l as [|a l IH]; intros I N; cbn [map]; constructor.
  - intros H. apply in_map_iff in H as (b & E & Hb). inversion N; subst. assert (D : (p | a - b)).
    { apply (zmul_order G p P); auto. rewrite zmul_sub, E, gopp_r. reflexivity. }
    pose proof (I a (or_introl eq_refl)). pose proof (I b (or_intror Hb)). apply small_div in D; try lia. assert (a = b) by lia. subst. contradiction.
  - inversion N; subst. apply IH; auto. intros i Hi. apply I. right; auto.
Qed.

(** ** the secrets *)
Lemma poly_cons (a : Fr) t x : poly_at (a :: t) x = (a + x * peval t x)%fld.
Proof. rewrite poly_at_peval. reflexivity. Qed.
Lemma fadd_inj_r (K : Fld) (a b c : K) : (a + c)%fld = (b + c)%fld -> a = b.
Proof. intros H. transitivity (a + c - c)%fld; [|rewrite H]; rewrite (Rsub_def (F_R (flaw K))), <- (Radd_assoc (F_R (flaw K))), (Ropp_def (F_R (flaw K))), (Radd_comm (F_R (flaw K))); [symmetry|]; apply (Radd_0_l (F_R (flaw K))). Qed.
Definition val_at (t : list Fr) (x : Fr) (a : Fr) : Z := fval (poly_at (a :: t) x : Fp r_mod).
Lemma val_at_inj t x a b : val_at t x a = val_at t x b -> a = b.
Proof.
  unfold val_at. intros H. apply (Fp_ext r_mod) in H. rewrite !poly_cons in H. exact (fadd_inj_r Fr a b _ H).
Qed.
Lemma map_NoDup {A B} (f : A -> B) l : (forall a b, f a = f b -> a = b) -> NoDup l -> NoDup (map f l).
Proof. intros I N. induction N as [|a l Ha N IH]; cbn [map]; constructor; auto. intros H. apply in_map_iff in H as (b & E & Hb). apply I in E. subst. contradiction. Qed.
Lemma one_rare (G : Grp) (P aux : G) t x l : zmul r_mod P = g0 -> P <> g0 -> NoDup l ->
  (forall a, In a l -> exceptional P aux (val_at t x a)) -> (length l <= 13)%nat.
Proof.
  intros O N ND H. rewrite <- (map_length (val_at t x) l). apply (exceptional_rare G P aux O N).
  - apply map_NoDup; auto. apply val_at_inj.
  - intros s Hs. apply in_map_iff in Hs as (a & <- & Ha). split; [exact (fval_range r_mod _ eq_refl)|auto].
Qed.
Theorem secrets_rare aux1 aux2 tail n (l : list Fr) : NoDup l -> (forall a0, In a0 l -> dealing_exceptional aux1 aux2 (a0 :: tail) (Z.of_nat n)) ->
  (length l <= 13 * (n + 2))%nat.
Proof.
  intros ND H.
  pose (B := fun (i : option Z) a => match i with None => exceptional (g2 : G2c) aux2 (val_at tail (fr 0) a) | Some i => exceptional (g1 : G1) aux1 (val_at tail (fr i) a) end).
  assert (L : length (None :: Some 0 :: map Some (zseq n)) = (n + 2)%nat) by (cbn [length]; rewrite map_length, length_zseq; lia). rewrite <- L.
  apply (union_bound 13 B); auto.
  - intros [i|] a; apply exceptional_dec.
  - intros [i|] l'.
    + exact (one_rare G1 g1 aux1 tail (fr i) l' g1_order g1_neq0).
    + exact (one_rare G2c g2 aux2 tail (fr 0) l' g2_order g2_neq0).
  - intros a Ha. destruct (H a Ha) as [X|[X|(i & Bi & X)]].
    + exists (Some 0). split; [right; left; auto|exact X].
    + exists None. split; [left; auto|exact X].
    + exists (Some i). split; [right; right; apply in_map, in_zseq; lia|exact X].
Qed.
Lemma dealing_exceptional_dec aux1 aux2 cs n : {dealing_exceptional aux1 aux2 cs (Z.of_nat n)} + {~ dealing_exceptional aux1 aux2 cs (Z.of_nat n)}.
Proof.
  unfold dealing_exceptional. destruct (exceptional_dec (g1 : G1) aux1 (fval (poly_at cs (fr 0) : Fp r_mod))) as [X|X]; [left; left; exact X|].
  destruct (exceptional_dec (g2 : G2c) aux2 (fval (poly_at cs (fr 0) : Fp r_mod))) as [Y|Y]; [left; right; left; exact Y|].
  destruct (Exists_dec (fun i => exceptional (g1 : G1) aux1 (fval (poly_at cs (fr i) : Fp r_mod))) (zseq n)) as [E|E].
  - intros i. apply exceptional_dec.
  - left. right. right. apply Exists_exists in E as (i & Hi & E). exists i. split; [apply in_zseq in Hi; lia|exact E].
  - right. intros [E'|[E'|(i & Hi & E')]]; [exact (X E')|exact (Y E')|]. apply E, Exists_exists. exists i. split; [apply in_zseq; lia|exact E'].
Qed.
(** among more than 13 (n + 2) different secrets one works *)
Theorem secret_exists aux1 aux2 tail n (l : list Fr) : NoDup l -> (13 * (n + 2) < length l)%nat ->
  exists a0, In a0 l /\ ~ dealing_exceptional aux1 aux2 (a0 :: tail) (Z.of_nat n).
Proof.
  intros N L. destruct (Exists_dec (fun a0 => ~ dealing_exceptional aux1 aux2 (a0 :: tail) (Z.of_nat n)) l) as [E|E].
  - intros a. destruct (dealing_exceptional_dec aux1 aux2 (a :: tail) n); [right; tauto|left; auto].
  - apply Exists_exists in E. exact E.
  - exfalso. assert (X : (length l <= 13 * (n + 2))%nat); [|lia]. apply (secrets_rare aux1 aux2 tail n l N). intros a Ha.
    destruct (dealing_exceptional_dec aux1 aux2 (a :: tail) n); auto. exfalso. apply E, Exists_exists. eauto.
Qed.
