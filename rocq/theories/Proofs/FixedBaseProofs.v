(** Windowed fixed-base multiplication: the table, the windows, the selection, the accumulation. *)
From Coq Require Import ZArith Znumtheory List Lia Bool.
From Verif.Base Require Import Fld Group.
From Verif.Model Require Import Circ MainGate FixedBase.
From Verif.Proofs Require Import CircProofs GrumpkinProofs.
Import ListNotations.

Lemma bval_range bs : (0 <= bval bs < 2 ^ Z.of_nat (length bs))%Z.
Proof.
  induction bs as [|c bs IH]; [cbn; lia|]. cbn [bval length]. rewrite Nat2Z.inj_succ, Z.pow_succ_r by lia.
  destruct c; cbn [Z.b2z]; lia.
Qed.
Lemma bval_cat bs bs' : bval (bs ++ bs') = (bval bs + 2 ^ Z.of_nat (length bs) * bval bs')%Z.
Proof.
  induction bs as [|c bs IH]; [cbn [app bval length]; rewrite Z.mul_1_l; lia|].
  cbn [app bval length]. rewrite IH, Nat2Z.inj_succ, Z.pow_succ_r by lia. lia.
Qed.
Lemma Zpow2_nat n : (2 ^ Z.of_nat n)%Z = Z.of_nat (2 ^ n).
Proof. rewrite Nat2Z.inj_pow. reflexivity. Qed.
Lemma bval_nat bs : (Z.to_nat (bval bs) < 2 ^ length bs)%nat.
Proof. pose proof (bval_range bs) as H. rewrite Zpow2_nat in H. lia. Qed.

Lemma nth_error_upd {A} (f : A -> A) : forall (l : list A) i j,
  nth_error (upd i f l) j = if Nat.eqb i j then option_map f (nth_error l j) else nth_error l j.
Proof.
  induction l as [|a l IH]; intros [|i] [|j]; cbn [upd nth_error Nat.eqb]; auto; try (destruct (Nat.eqb i j); reflexivity).
Qed.
Lemma upd_length {A} (f : A -> A) : forall (l : list A) i, length (upd i f l) = length l.
Proof. induction l as [|a l IH]; intros [|i]; cbn [upd length]; auto. Qed.

Section Fixed.
  Variable G : Grp.
  Variable F : Fld.
  Variable PT : Type.
  Variable acst : G -> circ PT.
  Variable sel : F -> PT -> PT -> circ PT.
  Variable addi addc : PT -> PT -> circ PT.
  Variable num_bits : nat.
  Variable repr : PT -> G -> Prop.

  Notation nw := (number_of_windows num_bits).
  Notation lastb := (last_bits num_bits).

  (** *** sizes *)
  Variable w : nat.
  Hypothesis w_ge2 : (2 <= w)%nat.
  Hypothesis n_ge3 : (3 <= nw w)%nat.
  Lemma last_pos : (1 <= lastb w <= w)%nat.
  Proof.
    unfold last_bits. pose proof (Nat.mod_upper_bound num_bits w ltac:(lia)). destruct (Nat.eqb_spec (num_bits mod w) 0); lia.
  Qed.
  Lemma num_bits_eq : num_bits = ((nw w - 1) * w + lastb w)%nat.
  Proof.
    unfold number_of_windows in *. unfold last_bits. pose proof (Nat.div_mod num_bits w ltac:(lia)) as D.
    pose proof (Nat.mod_upper_bound num_bits w ltac:(lia)) as U.
    destruct (Nat.eqb_spec (num_bits mod w) 0) as [E|E].
    - assert (Q : ((num_bits + w - 1) / w = num_bits / w)%nat).
      { symmetry. apply (Nat.div_unique _ _ _ (w - 1)); lia. }
      rewrite Q in *. nia.
    - assert (Q : ((num_bits + w - 1) / w = num_bits / w + 1)%nat).
      { symmetry. apply (Nat.div_unique _ _ _ (num_bits mod w - 1)); lia. }
      rewrite Q in *. nia.
  Qed.

  (** *** the table *)
  Lemma dbl_times_eq n : forall p : G, dbl_times G n p = zmul (2 ^ Z.of_nat n) p.
  Proof.
    induction n as [|n IH]; intros p; cbn [dbl_times]; [reflexivity|].
    rewrite IH, Nat2Z.inj_succ, Z.pow_succ_r by lia.
    rewrite zmul_gadd, <- zmul_add. f_equal. lia.
  Qed.
  Definition rowlen (i : nat) : nat := if Nat.eqb i (nw w - 1) then 2 ^ lastb w else 2 ^ w.
  Lemma rowlen_le i : (rowlen i <= 2 ^ w)%nat.
  Proof. unfold rowlen. destruct (Nat.eqb _ _); auto. apply Nat.pow_le_mono_r; [lia|]. apply last_pos. Qed.
  Lemma rows_nth : forall left i prev j, (i + left = nw w)%nat -> length prev = (2 ^ w)%nat -> (j < left)%nat ->
    nth j (rows G num_bits i (nw w) w prev left) [] = map (fun p => zmul (2 ^ (Z.of_nat w * Z.of_nat (S j))) p) (firstn (rowlen (i + j)) prev).
  Proof.
    induction left as [|left IH]; intros i prev j Hi Hl Hj; [lia|]. cbn [rows]. destruct j as [|j].
    - cbn [nth]. rewrite Nat.add_0_r. apply map_ext. intros p. rewrite dbl_times_eq. f_equal. f_equal. lia.
    - cbn [nth]. fold (rowlen i).
      assert (Ri : rowlen i = (2 ^ w)%nat) by (unfold rowlen; destruct (Nat.eqb_spec i (nw w - 1)); auto; lia).
      rewrite Ri. rewrite <- Hl, firstn_all.
      rewrite IH by (try rewrite map_length; lia). rewrite firstn_map, map_map. replace (S i + j)%nat with (i + S j)%nat by lia.
      apply map_ext. intros p. rewrite dbl_times_eq, <- zmul_mul, <- Z.pow_add_r by lia. f_equal. f_equal. lia.
  Qed.
  Lemma rows_length : forall left i n w' prev, length (rows G num_bits i n w' prev left) = left.
  Proof. induction left; intros; cbn [rows length]; auto. Qed.
  Definition T (P : G) (i k : nat) : G := zmul (Z.of_nat (k + 2) * 2 ^ (Z.of_nat w * Z.of_nat i)) P.
  Lemma first_row_length P : length (first_row G w P) = (2 ^ w)%nat.
  Proof. unfold first_row. rewrite map_length, seq_length. reflexivity. Qed.
  Lemma base_table_length P : length (base_table G num_bits w P) = nw w.
  Proof. unfold base_table. cbn [length]. rewrite rows_length. lia. Qed.
  Lemma firstn_seq n m : (n <= m)%nat -> forall a, firstn n (seq a m) = seq a n.
  Proof. revert m. induction n as [|n IH]; intros m L a; [reflexivity|]. destruct m as [|m]; [lia|]. cbn [seq firstn]. rewrite IH by lia. reflexivity. Qed.
  Lemma base_row P i : (i < nw w)%nat -> nth i (base_table G num_bits w P) [] = map (T P i) (seq 0 (rowlen i)).
  Proof.
    intros Hi. unfold base_table. destruct i as [|i]; cbn [nth].
    - assert (R0 : rowlen 0 = (2 ^ w)%nat) by (unfold rowlen; destruct (Nat.eqb_spec 0 (nw w - 1)); auto; lia).
      rewrite R0. unfold first_row. apply map_ext. intros k. unfold T. f_equal. rewrite Z.mul_0_r. rewrite Z.mul_1_r. reflexivity.
    - rewrite rows_nth by (rewrite ?first_row_length; lia). cbn [Nat.add].
      pose proof (rowlen_le (S i)). unfold first_row. rewrite firstn_map, firstn_seq, map_map by auto. apply map_ext. intros k. unfold T.
      rewrite <- zmul_mul. f_equal. rewrite Z.mul_comm. reflexivity.
  Qed.
  Lemma rowlen_pos i : (0 < rowlen i)%nat.
  Proof. unfold rowlen. destruct (Nat.eqb _ _); pose proof (Nat.pow_nonzero 2 (lastb w) ltac:(lia)); pose proof (Nat.pow_nonzero 2 w ltac:(lia)); lia. Qed.
  Lemma nth_map_seq {A} (f : nat -> A) n k d : (k < n)%nat -> nth k (map f (seq 0 n)) d = f k.
  Proof.
    intros H. rewrite (nth_indep _ d (f 0%nat)) by (rewrite map_length, seq_length; auto).
    rewrite map_nth, seq_nth by auto. reflexivity.
  Qed.
  (** sum of the first entries *)
  Fixpoint geo (m : nat) : Z := match m with O => 0 | S m' => geo m' + 2 ^ (Z.of_nat w * Z.of_nat m') end.
  Lemma correction_eq P aux : correction G (base_table G num_bits w P) aux = (⊖ (zmul (2 * geo (nw w)) P ⊕ aux))%grp.
  Proof.
    unfold correction. f_equal. f_equal.
    pose proof (base_row P) as B. set (t := base_table G num_bits w P) in *. pose proof (base_table_length P : length t = _) as L.
    assert (X : forall m, (S m <= nw w)%nat -> fold_left (fun acc r => acc ⊕ nth 0 r g0)%grp (firstn m (tl t)) (nth 0 (nth 0 t []) g0) = zmul (2 * geo (S m)) P).
    { induction m as [|m IH]; intros Hm.
      - cbn [firstn fold_left]. rewrite (B 0%nat) by lia. rewrite nth_map_seq by apply rowlen_pos. unfold T. f_equal.
      - assert (E : firstn (S m) (tl t) = firstn m (tl t) ++ [nth (S m) t []]).
        { destruct t as [|t0 t1]; [cbn in L; lia|]. cbn [tl nth]. cbn [length] in L. clear -L Hm. revert m Hm L. generalize (nw w). intros n.
          revert n. induction t1 as [|a l IH]; intros n [|m] Hm L; cbn [length] in L; try lia.
          - reflexivity.
          - cbn [firstn nth app]. f_equal. apply (IH (n - 1)%nat); lia. }
        rewrite E, fold_left_app, IH by lia. cbn [fold_left]. rewrite (B (S m)) by lia. rewrite nth_map_seq by apply rowlen_pos.
        unfold T. rewrite <- zmul_add. f_equal. cbn [geo]. change (Z.of_nat (0 + 2)) with 2%Z. lia. }
    specialize (X (nw w - 1)%nat). replace (S (nw w - 1)) with (nw w) in X by lia. rewrite <- X by lia.
    rewrite firstn_all2; auto. destruct t; cbn [tl length] in *; lia.
  Qed.
  Definition extra (P aux : G) (i : nat) : G :=
    if Nat.eqb i (nw w - 1) then (⊖ (zmul (2 * geo (nw w)) P ⊕ aux))%grp else if Nat.eqb i (nw w - 2) then aux else g0.
  Lemma table_entry P aux i : (i < nw w)%nat ->
    nth_error (prepare_fixed_point_table G num_bits w P aux) i = Some (map (fun k => T P i k ⊕ extra P aux i)%grp (seq 0 (rowlen i))).
  Proof.
    intros Hi. unfold prepare_fixed_point_table. rewrite correction_eq, !nth_error_upd.
    assert (E : nth_error (base_table G num_bits w P) i = Some (map (T P i) (seq 0 (rowlen i)))).
    { rewrite <- base_row by auto. apply nth_error_nth'. rewrite base_table_length. auto. }
    rewrite E. unfold extra.
    destruct (Nat.eqb_spec (nw w - 1) i) as [<-|N1].
    - rewrite Nat.eqb_refl. destruct (Nat.eqb_spec (nw w - 2) (nw w - 1)); [lia|]. cbn [option_map]. rewrite map_map. reflexivity.
    - destruct (Nat.eqb_spec i (nw w - 1)); [lia|]. destruct (Nat.eqb_spec (nw w - 2) i) as [<-|N2].
      + rewrite Nat.eqb_refl. cbn [option_map]. rewrite map_map. reflexivity.
      + destruct (Nat.eqb_spec i (nw w - 2)); [lia|]. f_equal. apply map_ext. intros k. rewrite g0_r. reflexivity.
  Qed.
  Lemma table_length P aux : length (prepare_fixed_point_table G num_bits w P aux) = nw w.
  Proof. unfold prepare_fixed_point_table. rewrite !upd_length. apply base_table_length. Qed.

  (** *** windows *)
  Definition wbits {A} (i : nat) (l : list A) : list A := firstn w (skipn (i * w) l).
  Lemma window_nth (bits : list F) i : length bits = num_bits -> (i < nw w)%nat -> nth i (window F bits w) [] = wbits i bits.
  Proof.
    intros L Hi. pose proof num_bits_eq as NB. pose proof last_pos as LP. unfold window. rewrite L.
    pose proof (Nat.div_mod num_bits w ltac:(lia)) as D. pose proof (Nat.mod_upper_bound num_bits w ltac:(lia)) as U.
    unfold last_bits in NB, LP. destruct (Nat.eqb_spec (num_bits mod w) 0) as [E|E].
    - rewrite app_nil_r. assert (Q : (num_bits / w = nw w)%nat) by nia. rewrite Q. rewrite nth_map_seq by auto. reflexivity.
    - assert (Q : (num_bits / w = nw w - 1)%nat) by nia. rewrite Q.
      destruct (Nat.eq_dec i (nw w - 1)) as [->|N].
      + rewrite app_nth2 by (rewrite map_length, seq_length; lia). rewrite map_length, seq_length, Nat.sub_diag. cbn [nth].
        unfold wbits. rewrite firstn_all2 by (rewrite skipn_length; nia). f_equal. nia.
      + rewrite app_nth1 by (rewrite map_length, seq_length; lia). rewrite nth_map_seq by lia. reflexivity.
  Qed.
  Lemma wbits_map {A B} (f : A -> B) i l : wbits i (map f l) = map f (wbits i l).
  Proof. unfold wbits. rewrite <- firstn_map. f_equal. apply skipn_map. Qed.
  Lemma wbits_length {A} (l : list A) i : length l = num_bits -> (i < nw w)%nat -> (2 ^ length (wbits i l))%nat = rowlen i.
  Proof.
    intros L Hi. pose proof num_bits_eq as NB. pose proof last_pos as LP. unfold wbits, rowlen. rewrite firstn_length, skipn_length, L.
    destruct (Nat.eqb_spec i (nw w - 1)) as [->|N]; f_equal; nia.
  Qed.
  Lemma bval_step bs i : length bs = num_bits -> (i < nw w)%nat ->
    bval (firstn (S i * w) bs) = (bval (firstn (i * w) bs) + 2 ^ (Z.of_nat w * Z.of_nat i) * bval (wbits i bs))%Z.
  Proof.
    intros L Hi. pose proof num_bits_eq as NB. pose proof last_pos as LP.
    assert (E : firstn (S i * w) bs = firstn (i * w) bs ++ wbits i bs).
    { unfold wbits. replace (S i * w)%nat with (i * w + w)%nat by lia. clear. generalize (i * w)%nat as a. intros a. revert bs.
      induction a as [|a IH]; intros [|c bs]; cbn [firstn skipn app Nat.add]; try reflexivity.
      - rewrite firstn_nil. reflexivity.
      - rewrite IH. reflexivity. }
    rewrite E, bval_cat. rewrite firstn_length, Nat.min_l by nia. do 3 f_equal. lia.
  Qed.
  Lemma bval_all bs : length bs = num_bits -> bval (firstn (nw w * w) bs) = bval bs.
  Proof. intros L. f_equal. apply firstn_all2. pose proof num_bits_eq. pose proof last_pos. nia. Qed.

  (** *** selection *)
  Hypothesis sem_sel : forall c p q x, sem (sel (bit F c) p q) x -> x = if c then p else q.
  Hypothesis hon_sel : forall c p q, honest (sel (bit F c) p q) (if c then p else q).

  Definition halved (c : bool) (red : list PT) (j : nat) (st : list PT) : Prop :=
    length st = length red /\
    (forall i, (i < j)%nat -> nth_error st i = nth_error red (2 * i + Nat.b2n c)) /\
    (forall i, (j <= i)%nat -> nth_error st i = nth_error red i).
  Notation rstep c := (fun red j => match nth_error red (2 * j + 1), nth_error red (2 * j) with
                        | Some a, Some d => let! x := sel (bit F c) a d in Ret (upd j (fun _ => x) red)
                        | _, _ => Abort end).
  Lemma halved_step c red j st a d : halved c red j st -> nth_error st (2 * j + 1) = Some a -> nth_error st (2 * j) = Some d ->
    halved c red (S j) (upd j (fun _ => if c then a else d) st).
  Proof.
    intros (L & H1 & H2) Ea Ed. split; [rewrite upd_length; auto|]. split.
    - intros i Hi. rewrite nth_error_upd. destruct (Nat.eqb_spec j i) as [<-|N].
      + assert (X : exists y, nth_error st j = Some y).
        { destruct (nth_error st j) eqn:E; eauto. apply nth_error_None in E.
          assert (2 * j + 1 < length st)%nat by (apply nth_error_Some; congruence). lia. }
        destruct X as [y Y]. rewrite Y. cbn [option_map]. rewrite H2 in Ea, Ed by lia.
        destruct c; cbn [Nat.b2n]; [rewrite Ea|rewrite Nat.add_0_r, Ed]; reflexivity.
      + apply H1. lia.
    - intros i Hi. rewrite nth_error_upd. destruct (Nat.eqb_spec j i); [lia|]. apply H2. lia.
  Qed.
  Lemma sem_rloop c red : forall m j st r, halved c red j st -> sem (cfold (rstep c) (seq j m) st) r -> halved c red (j + m) r.
  Proof.
    induction m as [|m IH]; cbn [seq cfold]; intros j st r H S0.
    - cbn in S0. subst. rewrite Nat.add_0_r. auto.
    - apply sem_bind in S0 as (st1 & S1 & S2).
      destruct (nth_error st (2 * j + 1)) as [a|] eqn:Ea; [|destruct S1]. destruct (nth_error st (2 * j)) as [d|] eqn:Ed; [|destruct S1].
      apply sem_bind in S1 as (x & Hx & S1). apply sem_sel in Hx. cbn in S1. subst.
      replace (j + S m)%nat with (S j + m)%nat by lia. eapply IH; eauto. eapply halved_step; eauto.
  Qed.
  Lemma hon_rloop c red : forall m j st, halved c red j st -> (2 * (j + m) <= length red)%nat ->
    exists r, honest (cfold (rstep c) (seq j m) st) r.
  Proof.
    induction m as [|m IH]; cbn [seq cfold]; intros j st H L.
    - eexists. reflexivity.
    - assert (Ea : exists a, nth_error st (2 * j + 1) = Some a).
      { destruct (nth_error st (2 * j + 1)) eqn:E; eauto. apply nth_error_None in E. destruct H as (HL & _). lia. }
      assert (Ed : exists a, nth_error st (2 * j) = Some a).
      { destruct (nth_error st (2 * j)) eqn:E; eauto. apply nth_error_None in E. destruct H as (HL & _). lia. }
      destruct Ea as [a Ea], Ed as [d Ed]. destruct (IH (S j) _ (halved_step c red j st a d H Ea Ed)) as [r Hr]; [lia|].
      exists r. eapply hbind; [|exact Hr]. rewrite Ea, Ed. eapply hbind; [apply hon_sel|]. reflexivity.
  Qed.
  Lemma halved0 c red : halved c red 0 red.
  Proof. split; auto. split; auto. intros i H. lia. Qed.
  Lemma sem_reduce_all cs : forall red r, sem (reduce_all F PT sel (map (bit F) cs) red) r ->
    nth_error r 0 = nth_error red (Z.to_nat (bval cs)).
  Proof.
    induction cs as [|c cs IH]; cbn [map reduce_all]; intros red r H.
    - cbn in H. subst. reflexivity.
    - apply sem_bind in H as (r1 & H1 & H2). rewrite (IH _ _ H2). unfold reduce_once in H1.
      apply (sem_rloop c red _ 0 red r1 (halved0 c red)) in H1 as (_ & H1 & _). rewrite map_length in H1. rewrite H1.
      + f_equal. cbn [bval]. pose proof (bval_range cs). destruct c; cbn [Z.b2z Nat.b2n]; lia.
      + apply bval_nat.
  Qed.
  Lemma hon_reduce_all cs : forall red, (2 ^ length cs <= length red)%nat -> exists r, honest (reduce_all F PT sel (map (bit F) cs) red) r.
  Proof.
    induction cs as [|c cs IH]; cbn [map reduce_all]; intros red L.
    - eexists. reflexivity.
    - cbn [length Nat.pow] in L.
      destruct (hon_rloop c red (2 ^ length cs) 0 red (halved0 c red)) as [r1 H1]; [lia|].
      pose proof (sem_rloop c red _ 0 red r1 (halved0 c red) (honest_sem _ _ H1)) as (L1 & _).
      destruct (IH r1) as [r2 H2]; [lia|]. exists r2. eapply hbind; [|exact H2]. unfold reduce_once. rewrite map_length. exact H1.
  Qed.
  Lemma sem_select_multi cs table x : sem (select_multi F PT sel (map (bit F) cs) table) x ->
    nth_error table (Z.to_nat (bval cs)) = Some x.
  Proof.
    unfold select_multi. destruct (Nat.eqb _ _); [|intros []]. intros H. apply sem_bind in H as (r & Hr & H).
    apply sem_reduce_all in Hr. destruct r as [|y r]; [destruct H|]. cbn in H. subst. rewrite <- Hr. reflexivity.
  Qed.
  Lemma hon_select_multi cs table : length table = (2 ^ length cs)%nat -> exists x, honest (select_multi F PT sel (map (bit F) cs) table) x.
  Proof.
    intros L. unfold select_multi. rewrite map_length, L, Nat.eqb_refl.
    destruct (hon_reduce_all cs table) as [r Hr]; [lia|].
    pose proof (sem_reduce_all cs table r (honest_sem _ _ Hr)) as E.
    destruct r as [|y r].
    - cbn in E. symmetry in E. apply nth_error_None in E. pose proof (bval_nat cs). lia.
    - exists y. eapply hbind; [exact Hr|]. reflexivity.
  Qed.

  (** *** accumulation *)
  Variable ord : Z.
  Variable P : G.
  Variable aux : G.
  Hypothesis ord_prime : prime ord.
  Hypothesis ord_P : zmul ord P = g0.
  Hypothesis P_neq0 : P <> g0.
  Hypothesis ord_big : (2 ^ Z.of_nat (num_bits - 2) <= ord)%Z.

  Hypothesis sem_cst : forall Q p, sem (acst Q) p -> repr p Q.
  Hypothesis sem_addi : forall p q P0 Q0 c, repr p P0 -> repr q Q0 -> P0 <> Q0 -> P0 <> (⊖ Q0)%grp -> sem (addi p q) c -> repr c (P0 ⊕ Q0)%grp.
  Hypothesis sem_addc : forall p q P0 Q0 c, repr p P0 -> repr q Q0 -> sem (addc p q) c ->
    P0 <> Q0 /\ P0 <> (⊖ Q0)%grp /\ repr c (P0 ⊕ Q0)%grp.

  Definition W (i : nat) : Z := 2 ^ (Z.of_nat w * Z.of_nat i).
  (** what the accumulator holds after m rows, without the auxiliary point *)
  Definition acc_val (bs : list bool) (m : nat) : Z := bval (firstn (m * w) bs) + 2 * geo m.

  Lemma W_S i : (4 * W i <= W (S i))%Z.
  Proof.
    unfold W. replace (Z.of_nat w * Z.of_nat (S i))%Z with (Z.of_nat w * Z.of_nat i + Z.of_nat w)%Z by lia.
    rewrite Z.pow_add_r by lia. assert (2 ^ 2 <= 2 ^ Z.of_nat w)%Z by (apply Z.pow_le_mono_r; lia).
    pose proof (Z.pow_pos_nonneg 2 (Z.of_nat w * Z.of_nat i) ltac:(lia) ltac:(lia)). nia.
  Qed.
  Lemma W_pos i : (0 < W i)%Z. Proof. unfold W. apply Z.pow_pos_nonneg; lia. Qed.
  Lemma geo_bound m : (0 <= geo m /\ 3 * geo m <= W m - 1)%Z.
  Proof.
    induction m as [|m IH]; [cbn; unfold W; rewrite Z.mul_0_r; cbn; lia|]. cbn [geo]. fold (W m). pose proof (W_S m). pose proof (W_pos m). lia.
  Qed.
  Lemma acc_val_bound bs m : length bs = num_bits -> (1 <= m)%nat -> (m * w <= num_bits)%nat -> (0 < acc_val bs m < 2 * W m)%Z.
  Proof.
    intros L Hm Hw. unfold acc_val. pose proof (geo_bound m) as [G1 G2]. pose proof (bval_range (firstn (m * w) bs)) as B.
    rewrite firstn_length, Nat.min_l in B by lia. replace (Z.of_nat (m * w)) with (Z.of_nat w * Z.of_nat m)%Z in B by lia. fold (W m) in B.
    assert (0 < geo m)%Z. { destruct m as [|m]; [lia|]. cbn [geo]. fold (W m). pose proof (W_pos m). pose proof (geo_bound m). lia. }
    lia.
  Qed.
  Lemma acc_val_step bs i : length bs = num_bits -> (i < nw w)%nat ->
    acc_val bs (S i) = (acc_val bs i + (bval (wbits i bs) + 2) * W i)%Z.
  Proof. intros L Hi. unfold acc_val. rewrite bval_step by auto. cbn [geo]. fold (W i). lia. Qed.
  Lemma T_eq bs i : T P i (Z.to_nat (bval (wbits i bs))) = zmul ((bval (wbits i bs) + 2) * W i) P.
  Proof. unfold T, W. f_equal. f_equal. pose proof (bval_range (wbits i bs)). lia. Qed.

  Lemma small_distinct a c : (0 < a < c)%Z -> (a + c < ord)%Z -> zmul a P <> zmul c P /\ zmul a P <> (⊖ zmul c P)%grp.
  Proof.
    intros [A0 AC] S0. split; intros H.
    - assert (D : (ord | c - a)%Z).
      { apply (zmul_order G ord P); auto. rewrite zmul_sub, H. apply gopp_r. }
      apply Z.divide_pos_le in D; lia.
    - assert (D : (ord | a + c)%Z).
      { apply (zmul_order G ord P); auto. rewrite zmul_add, H. apply gopp_l. }
      apply Z.divide_pos_le in D; lia.
  Qed.
  Lemma row_distinct bs i : length bs = num_bits -> (1 <= i < nw w - 2)%nat ->
    zmul (acc_val bs i) P <> T P i (Z.to_nat (bval (wbits i bs))) /\
    zmul (acc_val bs i) P <> (⊖ T P i (Z.to_nat (bval (wbits i bs))))%grp.
  Proof.
    intros L Hi. pose proof num_bits_eq as NB. pose proof last_pos as LP. rewrite T_eq. apply small_distinct.
    - pose proof (acc_val_bound bs i L ltac:(lia) ltac:(nia)). pose proof (bval_range (wbits i bs)). pose proof (W_pos i). nia.
    - rewrite <- acc_val_step by (auto; lia). pose proof (acc_val_bound bs (S i) L ltac:(lia) ltac:(nia)) as B.
      assert (X : (2 * W (S i) <= 2 ^ Z.of_nat (num_bits - 2))%Z).
      { unfold W. replace 2%Z with (2 ^ 1)%Z at 1 by reflexivity. rewrite <- Z.pow_add_r by lia. apply Z.pow_le_mono_r; nia. }
      lia.
  Qed.

  Definition good_table (tbl : list (list PT)) : Prop :=
    length tbl = nw w /\
    forall i, (i < nw w)%nat -> length (nth i tbl []) = rowlen i /\
      forall k x, nth_error (nth i tbl []) k = Some x -> repr x (T P i k ⊕ extra P aux i)%grp.
  Lemma Forall2_nth_error {A B} (R : A -> B -> Prop) l l' : Forall2 R l l' -> forall i x, nth_error l' i = Some x ->
    exists y, nth_error l i = Some y /\ R y x.
  Proof. induction 1; intros [|i] z Hz; cbn [nth_error] in *; try discriminate; eauto. assert (y = z) by congruence. subst. eauto. Qed.
  Lemma Forall2_len {A B} (R : A -> B -> Prop) l l' : Forall2 R l l' -> length l = length l'.
  Proof. induction 1; cbn; auto. Qed.
  Lemma sem_assign tbl : sem (assign_fixed_point G PT acst num_bits w P aux) tbl -> good_table tbl.
  Proof.
    unfold assign_fixed_point. destruct (Nat.ltb 1 w); [|intros []]. intros H. apply sem_cmap in H.
    pose proof (Forall2_len _ _ _ H) as L. rewrite table_length in L. split; auto. intros i Hi.
    assert (E : nth_error tbl i = Some (nth i tbl [])) by (apply nth_error_nth'; lia).
    destruct (Forall2_nth_error _ _ _ H _ _ E) as (row & Er & Hr). rewrite table_entry in Er by auto.
    assert (Er' : row = map (fun k => T P i k ⊕ extra P aux i)%grp (seq 0 (rowlen i))) by congruence. subst row.
    apply sem_cmap in Hr. split; [apply Forall2_len in Hr; rewrite map_length, seq_length in Hr; auto|].
    intros k x Hx. destruct (Forall2_nth_error _ _ _ Hr _ _ Hx) as (y & Ey & Hy).
    apply sem_cst in Hy. rewrite nth_error_map in Ey.
    assert (Lk : (k < rowlen i)%nat).
    { apply Forall2_len in Hr. rewrite map_length, seq_length in Hr. rewrite Hr. apply nth_error_Some. congruence. }
    rewrite (nth_error_nth' _ 0%nat) in Ey by (rewrite seq_length; auto). rewrite seq_nth in Ey by auto. cbn [option_map Nat.add] in Ey.
    assert (y = (T P i k ⊕ extra P aux i)%grp) by congruence. subst y. auto.
  Qed.

  Lemma sem_row tbl bs i x : good_table tbl -> length bs = num_bits -> (i < nw w)%nat ->
    sem (select_multi F PT sel (nth i (window F (map (bit F) bs) w) []) (nth i tbl [])) x ->
    repr x (zmul ((bval (wbits i bs) + 2) * W i) P ⊕ extra P aux i)%grp.
  Proof.
    intros (_ & HT) L Hi H. rewrite window_nth in H by (rewrite ?map_length; auto). rewrite wbits_map in H.
    apply sem_select_multi in H. apply (HT i Hi) in H. rewrite T_eq in H. exact H.
  Qed.
  Lemma hon_row tbl bs i : good_table tbl -> length bs = num_bits -> (i < nw w)%nat ->
    exists x, honest (select_multi F PT sel (nth i (window F (map (bit F) bs) w) []) (nth i tbl [])) x.
  Proof.
    intros (_ & HT) L Hi. rewrite window_nth by (rewrite ?map_length; auto). rewrite wbits_map. apply hon_select_multi.
    rewrite wbits_length by auto. apply HT; auto.
  Qed.
  Lemma extra_low i : (i < nw w - 2)%nat -> extra P aux i = g0.
  Proof. intros H. unfold extra. destruct (Nat.eqb_spec i (nw w - 1)); [lia|]. destruct (Nat.eqb_spec i (nw w - 2)); [lia|]. reflexivity. Qed.
  Lemma extra_n2 : extra P aux (nw w - 2) = aux.
  Proof. unfold extra. destruct (Nat.eqb_spec (nw w - 2) (nw w - 1)); [lia|]. rewrite Nat.eqb_refl. reflexivity. Qed.
  Lemma extra_n1 : extra P aux (nw w - 1) = (⊖ (zmul (2 * geo (nw w)) P ⊕ aux))%grp.
  Proof. unfold extra. rewrite Nat.eqb_refl. reflexivity. Qed.

  Notation istep tbl bits := (fun acc i => let! q := select_multi F PT sel (nth i (window F bits w) []) (nth i tbl []) in addi acc q).
  Notation cstep tbl bits := (fun acc i => let! q := select_multi F PT sel (nth i (window F bits w) []) (nth i tbl []) in addc acc q).
  Lemma acc0 bs : length bs = num_bits -> ((bval (wbits 0 bs) + 2) * W 0 = acc_val bs 1)%Z.
  Proof. intros L. rewrite (acc_val_step bs 0) by (auto; lia). unfold acc_val. cbn. lia. Qed.
  Lemma sem_irows tbl bs : good_table tbl -> length bs = num_bits -> forall m i acc r, (1 <= i)%nat -> (i + m <= nw w - 2)%nat ->
    repr acc (zmul (acc_val bs i) P) -> sem (cfold (istep tbl (map (bit F) bs)) (seq i m) acc) r -> repr r (zmul (acc_val bs (i + m)) P).
  Proof.
    intros HT L. induction m as [|m IH]; cbn [seq cfold]; intros i acc r Hi Hm HA H.
    - cbn in H. subst. rewrite Nat.add_0_r. auto.
    - apply sem_bind in H as (a1 & H1 & H2). apply sem_bind in H1 as (q & Hq & H1).
      apply (sem_row tbl bs i q HT L ltac:(lia)) in Hq. rewrite extra_low, g0_r in Hq by lia.
      destruct (row_distinct bs i L ltac:(lia)) as [N1 N2]. rewrite T_eq in N1, N2.
      pose proof (sem_addi _ _ _ _ _ HA Hq N1 N2 H1) as HA1. rewrite <- zmul_add, <- acc_val_step in HA1 by (auto; lia).
      replace (i + S m)%nat with (S i + m)%nat by lia. eapply IH; eauto; lia.
  Qed.

  (** the points met in the two checked rows *)
  Definition acc_lo (bs : list bool) : G := zmul (acc_val bs (nw w - 2)) P.
  Definition row_lo (bs : list bool) : G := (zmul ((bval (wbits (nw w - 2) bs) + 2) * W (nw w - 2)) P ⊕ aux)%grp.
  Definition acc_hi (bs : list bool) : G := (acc_lo bs ⊕ row_lo bs)%grp.
  Definition regular_fixed (bs : list bool) : Prop :=
    acc_lo bs <> row_lo bs /\ acc_lo bs <> (⊖ row_lo bs)%grp /\
    (acc_hi bs ⊕ acc_hi bs)%grp <> zmul (bval bs) P /\ zmul (bval bs) P <> g0.

  Lemma acc_hi_eq bs : length bs = num_bits -> acc_hi bs = (zmul (acc_val bs (nw w - 1)) P ⊕ aux)%grp.
  Proof.
    intros L. unfold acc_hi, acc_lo, row_lo. rewrite <- gassoc, <- zmul_add. f_equal. f_equal.
    replace (nw w - 1)%nat with (S (nw w - 2)) by lia. rewrite acc_val_step by (auto; lia). reflexivity.
  Qed.
  Lemma total bs : length bs = num_bits ->
    (acc_hi bs ⊕ (zmul ((bval (wbits (nw w - 1) bs) + 2) * W (nw w - 1)) P ⊕ extra P aux (nw w - 1)))%grp = zmul (bval bs) P.
  Proof.
    intros L. rewrite acc_hi_eq, extra_n1 by auto.
    assert (E : acc_val bs (nw w) = (acc_val bs (nw w - 1) + (bval (wbits (nw w - 1) bs) + 2) * W (nw w - 1))%Z).
    { replace (nw w) with (S (nw w - 1)) at 1 by lia. apply acc_val_step; auto. lia. }
    rewrite gopp_add, gswap, <- zmul_add, <- E. unfold acc_val. rewrite bval_all by auto.
    rewrite zmul_add.
    rewrite (gcomm _ aux). rewrite (gassoc _ (⊖ zmul (2 * geo (nw w)) P) (⊖ aux) aux), gopp_l, g0_r, gassoc, gopp_r, g0_r. reflexivity.
  Qed.
  Lemma total_eq bs X : length bs = num_bits -> X = (zmul ((bval (wbits (nw w - 1) bs) + 2) * W (nw w - 1)) P ⊕ extra P aux (nw w - 1))%grp ->
    (acc_hi bs = X <-> (acc_hi bs ⊕ acc_hi bs)%grp = zmul (bval bs) P) /\ (acc_hi bs = (⊖ X)%grp <-> zmul (bval bs) P = g0).
  Proof.
    intros L EX. pose proof (total bs L) as TT. rewrite <- EX in TT. rewrite <- TT. split; split; intros H.
    - rewrite <- H. reflexivity.
    - apply (gadd_inj_l G (acc_hi bs)). exact H.
    - rewrite H. apply gopp_l.
    - rewrite gcomm in H. apply gopp_unique in H. exact H.
  Qed.

  Notation tail tbl bits := (let! acc := select_multi F PT sel (nth 0 (window F bits w) []) (nth 0 tbl []) in
      let! acc := cfold (istep tbl bits) (seq 1 (nw w - 2 - 1)) acc in cfold (cstep tbl bits) (seq (nw w - 2) 2) acc).
  Lemma sem_tail tbl bs out : good_table tbl -> length bs = num_bits -> sem (tail tbl (map (bit F) bs)) out ->
    repr out (zmul (bval bs) P) /\ regular_fixed bs.
  Proof.
    intros HT L H.
    apply sem_bind in H as (a0 & H0 & H). apply (sem_row tbl bs 0 a0 HT L ltac:(lia)) in H0.
    rewrite extra_low, g0_r, acc0 in H0 by (auto; lia).
    apply sem_bind in H as (a1 & H1 & H). apply (sem_irows tbl bs HT L (nw w - 2 - 1) 1 a0 a1 ltac:(lia) ltac:(lia) H0) in H1.
    replace (1 + (nw w - 2 - 1))%nat with (nw w - 2)%nat in H1 by lia.
    cbn [seq cfold] in H. apply sem_bind in H as (a2 & H2 & H). apply sem_bind in H2 as (q & Hq & H2).
    apply (sem_row tbl bs (nw w - 2) q HT L ltac:(lia)) in Hq. rewrite extra_n2 in Hq.
    destruct (sem_addc _ _ _ _ _ H1 Hq H2) as (N1 & N2 & H3). fold (acc_lo bs) in *. fold (row_lo bs) in *. fold (acc_hi bs) in H3.
    replace (S (nw w - 2)) with (nw w - 1)%nat in H by lia.
    apply sem_bind in H as (a3 & H4 & H). cbn in H. subst a3. apply sem_bind in H4 as (q2 & Hq2 & H4).
    apply (sem_row tbl bs (nw w - 1) q2 HT L ltac:(lia)) in Hq2.
    destruct (sem_addc _ _ _ _ _ H3 Hq2 H4) as (N3 & N4 & H5). rewrite total in H5 by auto.
    split; auto. destruct (total_eq bs _ L eq_refl) as [Q1 Q2]. repeat split; auto; rewrite <- ?Q1, <- ?Q2; auto.
  Qed.
  Theorem sem_fixed_mul tbl s hb out : sem (assign_fixed_point G PT acst num_bits w P aux) tbl -> length hb = num_bits ->
    sem (fixed_mul F PT sel addi addc num_bits w tbl s hb) out ->
    exists bs, length bs = num_bits /\ compose (map (bit F) bs) = s /\ repr out (zmul (bval bs) P) /\ regular_fixed bs.
  Proof.
    intros HT Lh H. apply sem_assign in HT. unfold fixed_mul in H. destruct (_ && _)%bool; [|destruct H].
    apply sem_bind in H as (bits & Hb & H). unfold to_bits in Hb. apply sem_bind in Hb as (bits' & Hb & Hc).
    apply sem_bind in Hc as (u & Hu & Hc). apply constrain_inv in Hu. cbn in Hc. subst bits'.
    apply sem_bits in Hb as (L & bs & ->). rewrite map_length in L. rewrite Lh in L. exists bs. split; auto. split; auto.
    exact (sem_tail tbl bs out HT L H).
  Qed.
  (** the prover's own assignment exists only for regular inputs *)
  Theorem hon_fixed_regular tbl s bs out : sem (assign_fixed_point G PT acst num_bits w P aux) tbl -> length bs = num_bits ->
    honest (fixed_mul F PT sel addi addc num_bits w tbl s (map (bit F) bs)) out -> regular_fixed bs.
  Proof.
    intros HT L H. apply sem_assign in HT. unfold fixed_mul in H. destruct (_ && _)%bool; [|destruct H].
    apply honest_bind in H as (bits & Hb & H). unfold to_bits in Hb. apply honest_bind in Hb as (bits' & Hb & Hc).
    pose proof (honest_fun _ _ _ Hb (honest_bits F bs)) as E. subst bits'.
    apply honest_bind in Hc as (u & _ & Hc). cbn in Hc. subst bits. apply honest_sem in H.
    exact (proj2 (sem_tail tbl bs out HT L H)).
  Qed.

  (** *** completeness *)
  Hypothesis hon_addi : forall p q P0 Q0, repr p P0 -> repr q Q0 -> P0 <> Q0 -> P0 <> (⊖ Q0)%grp -> exists c, honest (addi p q) c.
  Hypothesis hon_addc : forall p q P0 Q0, repr p P0 -> repr q Q0 -> P0 <> Q0 -> P0 <> (⊖ Q0)%grp -> exists c, honest (addc p q) c.
  Lemma hon_irows tbl bs : good_table tbl -> length bs = num_bits -> forall m i acc, (1 <= i)%nat -> (i + m <= nw w - 2)%nat ->
    repr acc (zmul (acc_val bs i) P) -> exists r, honest (cfold (istep tbl (map (bit F) bs)) (seq i m) acc) r.
  Proof.
    intros HT L. induction m as [|m IH]; cbn [seq cfold]; intros i acc Hi Hm HA.
    - eexists; reflexivity.
    - destruct (hon_row tbl bs i HT L ltac:(lia)) as [q Hq].
      pose proof (sem_row tbl bs i q HT L ltac:(lia) (honest_sem _ _ Hq)) as Rq. rewrite extra_low, g0_r in Rq by lia.
      destruct (row_distinct bs i L ltac:(lia)) as [N1 N2]. rewrite T_eq in N1, N2.
      destruct (hon_addi _ _ _ _ HA Rq N1 N2) as [a1 H1].
      pose proof (sem_addi _ _ _ _ _ HA Rq N1 N2 (honest_sem _ _ H1)) as HA1. rewrite <- zmul_add, <- acc_val_step in HA1 by (auto; lia).
      destruct (IH (S i) a1 ltac:(lia) ltac:(lia) HA1) as [r Hr]. exists r. eapply hbind; [|exact Hr]. eapply hbind; eauto.
  Qed.
  Theorem hon_fixed_mul tbl s bs : sem (assign_fixed_point G PT acst num_bits w P aux) tbl -> length bs = num_bits ->
    compose (map (bit F) bs) = s -> regular_fixed bs ->
    exists out, honest (fixed_mul F PT sel addi addc num_bits w tbl s (map (bit F) bs)) out /\ repr out (zmul (bval bs) P).
  Proof.
    intros HT0 L Hc (R1 & R2 & R3 & R4). pose proof (sem_assign tbl HT0) as HT.
    destruct (hon_row tbl bs 0 HT L ltac:(lia)) as [a0 H0].
    pose proof (sem_row tbl bs 0 a0 HT L ltac:(lia) (honest_sem _ _ H0)) as A0. rewrite extra_low, g0_r, acc0 in A0 by (auto; lia).
    destruct (hon_irows tbl bs HT L (nw w - 2 - 1) 1 a0 ltac:(lia) ltac:(lia) A0) as [a1 H1].
    pose proof (sem_irows tbl bs HT L (nw w - 2 - 1) 1 a0 a1 ltac:(lia) ltac:(lia) A0 (honest_sem _ _ H1)) as A1.
    replace (1 + (nw w - 2 - 1))%nat with (nw w - 2)%nat in A1 by lia.
    destruct (hon_row tbl bs (nw w - 2) HT L ltac:(lia)) as [q Hq].
    pose proof (sem_row tbl bs (nw w - 2) q HT L ltac:(lia) (honest_sem _ _ Hq)) as Rq. rewrite extra_n2 in Rq.
    destruct (hon_addc _ _ _ _ A1 Rq R1 R2) as [a2 H2].
    destruct (sem_addc _ _ _ _ _ A1 Rq (honest_sem _ _ H2)) as (_ & _ & A2). fold (acc_lo bs) in *. fold (row_lo bs) in *. fold (acc_hi bs) in A2.
    destruct (hon_row tbl bs (nw w - 1) HT L ltac:(lia)) as [q2 Hq2].
    pose proof (sem_row tbl bs (nw w - 1) q2 HT L ltac:(lia) (honest_sem _ _ Hq2)) as Rq2.
    destruct (total_eq bs _ L eq_refl) as [Q1 Q2].
    destruct (hon_addc _ _ _ _ A2 Rq2) as [a3 H3]; [rewrite Q1; auto|rewrite Q2; auto|].
    destruct (sem_addc _ _ _ _ _ A2 Rq2 (honest_sem _ _ H3)) as (_ & _ & A3). rewrite total in A3 by auto.
    exists a3. split; auto. unfold fixed_mul.
    destruct HT as [LT HTr]. rewrite LT, Nat.eqb_refl. destruct (HTr (nw w - 1)%nat ltac:(lia)) as [LR _]. rewrite LR. unfold rowlen. rewrite Nat.eqb_refl, Nat.eqb_refl.
    cbn [andb]. apply (hbind _ _ (map (bit F) bs) a3).
    { unfold to_bits. eapply hbind; [apply honest_bits|]. apply (hbind _ _ tt); [apply honest_constrain; exact Hc|]. reflexivity. }
    eapply hbind; [exact H0|]. eapply hbind; [exact H1|]. cbn [seq cfold]. eapply hbind; [eapply hbind; [exact Hq|exact H2]|].
    replace (S (nw w - 2)) with (nw w - 1)%nat by lia. eapply hbind; [eapply hbind; [exact Hq2|exact H3]|]. reflexivity.
  Qed.
End Fixed.
