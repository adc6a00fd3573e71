(** The Fisher-Yates shuffle of lottery.sol. *)
From Coq Require Import ZArith List Bool Lia Permutation Arith.
From Verif.Model Require Import Lottery.
Import ListNotations.
Open Scope nat_scope.

Ltac eqbs := repeat match goal with |- context [?a =? ?b] => destruct (Nat.eqb_spec a b) end.

Lemma set_nth_length l : forall i x, length (set_nth l i x) = length l.
Proof. induction l as [|y l IH]; destruct i; intros; cbn; auto. Qed.
Lemma set_nth_nth l : forall i x k, k < length l -> nth k (set_nth l i x) 0%Z = if k =? i then x else nth k l 0%Z.
Proof.
  induction l as [|y l IH]; intros i x k Hk; cbn in Hk; [lia|].
  destruct i as [|i], k as [|k]; cbn; auto. rewrite IH by lia. reflexivity.
Qed.
Lemma swap_length l i j : length (swap l i j) = length l.
Proof. unfold swap. rewrite !set_nth_length. reflexivity. Qed.
Lemma swap_nth l i j k : i < length l -> j < length l -> k < length l ->
  nth k (swap l i j) 0%Z = nth (if k =? j then i else if k =? i then j else k) l 0%Z.
Proof.
  intros Hi Hj Hk. unfold swap. rewrite set_nth_nth by (rewrite set_nth_length; auto).
  destruct (k =? j) eqn:E1; auto. rewrite set_nth_nth by auto. destruct (k =? i) eqn:E2; auto.
Qed.
Lemma list_ext (a b : list Z) : length a = length b -> (forall k, k < length a -> nth k a 0%Z = nth k b 0%Z) -> a = b.
Proof. intros L H. apply (nth_ext _ _ 0%Z 0%Z); auto. Qed.
Lemma swap_invol l i j : i < length l -> j < length l -> swap (swap l i j) i j = l.
Proof.
  intros Hi Hj. apply list_ext; [rewrite !swap_length; auto|]. intros k Hk. rewrite !swap_length in Hk.
  assert (Hb : (if k =? j then i else if k =? i then j else k) < length l) by (eqbs; lia).
  rewrite swap_nth by (rewrite ?swap_length; lia). rewrite swap_nth by lia. f_equal. clear Hb. destruct (Nat.eqb_spec k j); [|destruct (Nat.eqb_spec k i)]; subst; eqbs; lia.
Qed.
Lemma swap_perm l i j : i < length l -> j < length l -> Permutation l (swap l i j).
Proof.
  intros Hi Hj. apply (Permutation_nth l (swap l i j) 0%Z). split; [apply swap_length|].
  exists (fun k => if k =? j then i else if k =? i then j else k). split; [|split].
  - intros k Hk. destruct (k =? j), (k =? i); auto.
  - intros a b Ha Hb. eqbs; subst; intros; subst; auto; congruence.
  - intros k Hk. apply swap_nth; auto.
Qed.
Lemma set_nth_app l m i x : i < length l -> set_nth (l ++ m) i x = set_nth l i x ++ m.
Proof. revert i. induction l as [|y l IH]; intros i H; cbn in H; [lia|]. destruct i; cbn; auto. rewrite IH by lia. auto. Qed.
Lemma swap_app l m i j : i < length l -> j < length l -> swap (l ++ m) i j = swap l i j ++ m.
Proof.
  intros Hi Hj. unfold swap. rewrite !app_nth1 by auto. rewrite set_nth_app, set_nth_app; auto. rewrite set_nth_length; auto.
Qed.

Lemma shuffle_length pick k : forall i l, length (shuffle_from pick k i l) = length l.
Proof. induction k as [|k IH]; intros i l; cbn; auto. rewrite IH, swap_length. auto. Qed.
Lemma shuffle_perm pick k : (forall i, pick i <= i) -> forall i l, i + k <= length l -> Permutation l (shuffle_from pick k i l).
Proof.
  intros Hp. induction k as [|k IH]; intros i l Hl; cbn; auto.
  pose proof (Hp i). etransitivity; [apply (swap_perm l i (pick i)); lia|]. apply IH. rewrite swap_length. lia.
Qed.
Lemma fisher_yates_perm pick l : (forall i, pick i <= i) -> Permutation l (fisher_yates pick l).
Proof. intros Hp. apply shuffle_perm; auto. Qed.

(** the last iteration, separated *)
Lemma shuffle_snoc pick k : forall i l, shuffle_from pick (S k) i l = swap (shuffle_from pick k i l) (i + k) (pick (i + k)).
Proof.
  induction k as [|k IH]; intros i l.
  - cbn. rewrite Nat.add_0_r. reflexivity.
  - change (shuffle_from pick (S (S k)) i l) with (shuffle_from pick (S k) (S i) (swap l i (pick i))).
    rewrite IH. cbn [shuffle_from]. replace (S i + k) with (i + S k) by lia. reflexivity.
Qed.
Lemma shuffle_app pick k : (forall i, pick i <= i) -> forall i l m, i + k <= length l ->
  shuffle_from pick k i (l ++ m) = shuffle_from pick k i l ++ m.
Proof.
  intros Hp. induction k as [|k IH]; intros i l m Hl; cbn; auto.
  pose proof (Hp i). rewrite swap_app by lia. apply IH. rewrite swap_length. lia.
Qed.
Lemma fisher_yates_snoc pick l x : (forall i, pick i <= i) ->
  fisher_yates pick (l ++ [x]) = swap (fisher_yates pick l ++ [x]) (length l) (pick (length l)).
Proof.
  intros Hp. unfold fisher_yates. rewrite app_length. cbn [length]. rewrite Nat.add_1_r, shuffle_snoc, shuffle_app by auto.
  reflexivity.
Qed.
Lemma shuffle_ext p1 p2 k : forall i l, (forall j, i <= j < i + k -> p1 j = p2 j) -> shuffle_from p1 k i l = shuffle_from p2 k i l.
Proof.
  induction k as [|k IH]; intros i l H; cbn; auto. rewrite (H i) by lia. apply IH. intros j Hj. apply H. lia.
Qed.
Lemma fisher_yates_ext p1 p2 l : (forall j, j < length l -> p1 j = p2 j) -> fisher_yates p1 l = fisher_yates p2 l.
Proof. intros H. apply shuffle_ext. intros j Hj. apply H. lia. Qed.

(** index sequences: the i-th choice is in 0..i *)
Definition valid (js : list nat) : Prop := forall i, i < length js -> nth i js 0 <= i.
Definition of_list (js : list nat) (i : nat) : nat := nth i js 0.
Lemma of_list_le js : valid js -> forall i, of_list js i <= i.
Proof. intros H i. unfold of_list. destruct (Nat.lt_ge_cases i (length js)); auto. rewrite nth_overflow; lia. Qed.
Lemma valid_snoc js j : valid (js ++ [j]) <-> valid js /\ j <= length js.
Proof.
  unfold valid. rewrite app_length. cbn. split.
  - intros H. split.
    + intros i Hi. specialize (H i ltac:(lia)). rewrite app_nth1 in H by auto. auto.
    + specialize (H (length js) ltac:(lia)). rewrite app_nth2, Nat.sub_diag in H by lia. auto.
  - intros [H Hj] i Hi. destruct (Nat.lt_ge_cases i (length js)).
    + rewrite app_nth1 by auto. auto.
    + rewrite app_nth2 by auto. replace i with (length js) by lia. rewrite Nat.sub_diag. cbn. lia.
Qed.
Lemma fy_snoc js j l x : length js = length l -> valid js -> j <= length l ->
  fisher_yates (of_list (js ++ [j])) (l ++ [x]) = swap (fisher_yates (of_list js) l ++ [x]) (length l) j.
Proof.
  intros L V Hj. rewrite fisher_yates_snoc.
  2: { apply of_list_le, valid_snoc. split; auto. lia. }
  f_equal.
  - f_equal. apply fisher_yates_ext. intros k Hk. unfold of_list. rewrite app_nth1 by lia. auto.
  - unfold of_list. rewrite app_nth2 by lia. replace (length l - length js) with 0 by lia. reflexivity.
Qed.

Lemma in_nth_ex (l : list Z) x : In x l -> exists k, k < length l /\ nth k l 0%Z = x.
Proof. intros H. apply (In_nth l x 0%Z) in H. destruct H as [k [H1 H2]]. eauto. Qed.

(** every permutation is produced by some choice of indices ... *)
Lemma fy_surj l : forall l', Permutation l l' -> exists js, length js = length l /\ valid js /\ fisher_yates (of_list js) l = l'.
Proof.
  induction l as [|x l IH] using rev_ind; intros l' HP.
  - apply Permutation_nil in HP. subst. exists []. split; [auto|]. split; [intros i Hi; cbn in Hi; lia|reflexivity].
  - pose proof (Permutation_length HP) as HL. rewrite app_length in HL. cbn in HL.
    assert (Hx : In x l') by (eapply Permutation_in; [exact HP|apply in_or_app; right; left; auto]).
    apply in_nth_ex in Hx as [j [Hj Ej]].
    set (m := swap l' (length l) j).
    assert (Hm : length m = length l + 1) by (unfold m; rewrite swap_length; lia).
    assert (Em : exists m0, m = m0 ++ [x]).
    { exists (firstn (length l) m). rewrite <- (firstn_skipn (length l) m) at 1. f_equal.
      assert (Ls : length (skipn (length l) m) = 1) by (rewrite skipn_length; lia).
      destruct (skipn (length l) m) as [|y [|]] eqn:Es; cbn in Ls; try lia. f_equal.
      assert (En : nth (length l) m 0%Z = y).
      { rewrite <- (firstn_skipn (length l) m), app_nth2; rewrite firstn_length_le by lia; [|lia]. rewrite Nat.sub_diag, Es. reflexivity. }
      rewrite <- En. unfold m. rewrite swap_nth by lia. rewrite Nat.eqb_refl.
      destruct (Nat.eqb_spec (length l) j) as [E|]; [rewrite E|]; auto. }
    destruct Em as [m0 Em].
    assert (HP0 : Permutation l m0).
    { apply (Permutation_app_inv_r [x]). rewrite <- Em. etransitivity; [exact HP|]. apply swap_perm; lia. }
    destruct (IH m0 HP0) as [js [L [V F]]]. exists (js ++ [j]).
    assert (Hjl : j <= length l) by lia.
    split; [rewrite !app_length; cbn; lia|]. split; [apply valid_snoc; split; auto; lia|].
    rewrite fy_snoc by auto. rewrite F, <- Em. unfold m. apply swap_invol; lia.
Qed.

(** ... and by only one, if the players are distinct *)
Lemma swap_inj_last (a b : list Z) x i j : length a = length b -> ~ In x a -> ~ In x b -> i <= length a -> j <= length a ->
  swap (a ++ [x]) (length a) i = swap (b ++ [x]) (length b) j -> i = j /\ a = b.
Proof.
  intros L Na Nb Hi Hj H.
  assert (P : forall (l : list Z) k, k <= length l -> nth k (swap (l ++ [x]) (length l) k) 0%Z = x).
  { intros l k Hk. rewrite swap_nth by (rewrite app_length; cbn; lia). rewrite Nat.eqb_refl, app_nth2, Nat.sub_diag by lia. reflexivity. }
  assert (U : forall (l : list Z) k k', ~ In x l -> k <= length l -> k' <= length l ->
            nth k' (swap (l ++ [x]) (length l) k) 0%Z = x -> k' = k).
  { intros l k k' Nl Hk Hk' E. rewrite swap_nth in E by (rewrite app_length; cbn; lia).
    destruct (Nat.eqb_spec k' k); auto. destruct (Nat.eqb_spec k' (length l)).
    - destruct (Nat.eq_dec k (length l)); [lia|]. rewrite app_nth1 in E by lia. exfalso. apply Nl. rewrite <- E. apply nth_In. lia.
    - rewrite app_nth1 in E by lia. exfalso. apply Nl. rewrite <- E. apply nth_In. lia. }
  assert (i = j).
  { apply (U b j i); auto; try lia. rewrite <- H. apply P. auto. }
  subst j. split; auto.
  apply (f_equal (fun l => swap l (length a) i)) in H. rewrite <- L in H. rewrite !swap_invol in H by (rewrite app_length; cbn; lia).
  apply app_inj_tail in H. tauto.
Qed.
Lemma fy_inj l : NoDup l -> forall js js', length js = length l -> length js' = length l -> valid js -> valid js' ->
  fisher_yates (of_list js) l = fisher_yates (of_list js') l -> js = js'.
Proof.
  induction l as [|x l IH] using rev_ind; intros Hnd js js' L L' V V' H.
  - destruct js; [|discriminate]. destruct js'; [auto|discriminate].
  - rewrite app_length in L, L'. cbn in L, L'.
    destruct js as [|j js _] using rev_ind; [cbn in L; lia|]. destruct js' as [|j' js' _] using rev_ind; [cbn in L'; lia|].
    rewrite app_length in L, L'. cbn in L, L'. apply valid_snoc in V as [V Hj]. apply valid_snoc in V' as [V' Hj'].
    rewrite !fy_snoc in H by (auto; lia).
    assert (Hnx : ~ In x l /\ NoDup l).
    { split; [|apply NoDup_remove_1 in Hnd; rewrite app_nil_r in Hnd; auto]. apply NoDup_remove_2 in Hnd. rewrite app_nil_r in Hnd. auto. }
    destruct Hnx as [Nx Hl].
    assert (Q : forall p, (forall i, p i <= i) -> length (fisher_yates p l) = length l /\ ~ In x (fisher_yates p l)).
    { intros p Hp. split; [apply shuffle_length|]. intros Hi. apply Nx. eapply Permutation_in; [|exact Hi].
      symmetry. apply fisher_yates_perm; auto. }
    destruct (Q (of_list js)) as [L1 N1]; [apply of_list_le; auto|]. destruct (Q (of_list js')) as [L2 N2]; [apply of_list_le; auto|].
    set (A := fisher_yates (of_list js) l) in *. set (B := fisher_yates (of_list js') l) in *.
    assert (H' : swap (A ++ [x]) (length A) j = swap (B ++ [x]) (length B) j') by (rewrite L1, L2; exact H).
    clear H. rename H' into H. apply swap_inj_last in H; try lia; auto. destruct H as [-> H]. f_equal. apply IH; auto; lia.
Qed.

(** all index sequences of length n, and how many of them make a given player win *)
Fixpoint all_choices (n : nat) : list (list nat) :=
  match n with O => [[]] | S n' => flat_map (fun js => map (fun j => js ++ [j]) (seq 0 (S n'))) (all_choices n') end.
Lemma all_choices_ok n : forall js, In js (all_choices n) <-> length js = n /\ valid js.
Proof.
  induction n as [|n IH]; intros js; cbn [all_choices].
  - split.
    + intros [<-|[]]. split; auto. intros i Hi; cbn in Hi; lia.
    + intros [L _]. destruct js; [left; auto|discriminate].
  - rewrite in_flat_map. split.
    + intros [j0 [H1 H2]]. apply in_map_iff in H2 as [j [<- Hj]]. apply in_seq in Hj. apply IH in H1 as [L V].
      split; [rewrite app_length; cbn; lia|]. apply valid_snoc. split; auto. lia.
    + intros [L V]. destruct js as [|j js _] using rev_ind; [discriminate|]. rewrite app_length in L. cbn in L.
      apply valid_snoc in V as [V Hj]. exists js. split; [apply IH; split; auto; lia|]. apply in_map_iff. exists j. split; auto. apply in_seq. lia.
Qed.
Lemma all_choices_length n : length (all_choices n) = fact n.
Proof.
  induction n as [|n IH]; auto. cbn [all_choices]. change (fact (S n)) with (S n * fact n). rewrite <- IH.
  clear. induction (all_choices n) as [|a l IHl]; cbn [flat_map length]; [lia|].
  rewrite app_length, map_length, seq_length, IHl. lia.
Qed.
Lemma all_choices_nodup n : NoDup (all_choices n).
Proof.
  induction n as [|n IH]; cbn [all_choices]; [constructor; auto; constructor|].
  induction IH as [|a l Ha Hl IHl]; cbn [flat_map]; [constructor|].
  assert (D : forall (A : Type) (x y : list A), NoDup x -> NoDup y -> (forall z, In z x -> ~ In z y) -> NoDup (x ++ y)).
  { intros A x y Hx. induction Hx as [|z x Hz Hx IHx]; intros Hy Hd; cbn; auto. constructor.
    - rewrite in_app_iff. intros [|H]; [auto|]. apply (Hd z); auto. left; auto.
    - apply IHx; auto. intros u Hu. apply Hd. right; auto. }
  apply D; auto.
  - assert (S0 : NoDup (seq 0 (S n))) by apply seq_NoDup. revert S0. generalize (seq 0 (S n)). intros s Hs.
    induction Hs as [|z s Hz Hs IHs]; cbn; constructor; auto. intros H. apply in_map_iff in H as [u [E Hu]].
    apply app_inj_tail in E as [_ ->]. contradiction.
  - intros z Hz H. apply in_map_iff in Hz as [u [<- Hu]]. apply in_flat_map in H as [js [H1 H2]]. apply in_map_iff in H2 as [u' [E _]].
    apply app_inj_tail in E as [-> _]. contradiction.
Qed.

Definition wins (l : list Z) (p : Z) (js : list nat) : bool := Z.eqb (hd 0%Z (fisher_yates (of_list js) l)) p.
Lemma hd_swap_last (l : list Z) x j : l <> [] -> j <= length l -> hd 0%Z (swap (l ++ [x]) (length l) j) = if j =? 0 then x else hd 0%Z l.
Proof.
  intros Hl Hj. assert (0 < length l) by (destruct l; [congruence|cbn; lia]).
  assert (E : forall m : list Z, hd 0%Z m = nth 0 m 0%Z) by (destruct m; auto). rewrite !E, swap_nth by (rewrite app_length; cbn; lia).
  rewrite (Nat.eqb_sym 0 j). destruct (Nat.eqb_spec j 0).
  - rewrite app_nth2, Nat.sub_diag by lia. auto.
  - destruct (Nat.eqb_spec 0 (length l)); [lia|]. rewrite app_nth1 by lia. auto.
Qed.
Lemma filter_flat_map {A B} (f : B -> bool) (g : A -> list B) l : length (filter f (flat_map g l)) = list_sum (map (fun a => length (filter f (g a))) l).
Proof. induction l as [|a l IH]; cbn; auto. rewrite filter_app, app_length, IH. auto. Qed.
Lemma fy_uniform l : NoDup l -> forall p, In p l -> length (filter (wins l p) (all_choices (length l))) = fact (length l - 1).
Proof.
  induction l as [|x l IH] using rev_ind; intros Hnd p Hp; [contradiction|].
  assert (Hnx : ~ In x l /\ NoDup l).
  { split; [|apply NoDup_remove_1 in Hnd; rewrite app_nil_r in Hnd; auto]. apply NoDup_remove_2 in Hnd. rewrite app_nil_r in Hnd. auto. }
  destruct Hnx as [Nx Hl].
  rewrite app_length, Nat.add_1_r. cbn [length]. replace (S (length l) - 1) with (length l) by lia. cbn [all_choices].
  rewrite filter_flat_map.
  destruct (list_eq_dec Z.eq_dec l []) as [->|Hne].
  { cbn in Hp. destruct Hp as [->|[]]. cbn. unfold wins. cbn. rewrite Z.eqb_refl. reflexivity. }
  assert (Hpos : 0 < length l) by (destruct l; [congruence|cbn; lia]).
  assert (Hrow : forall js, In js (all_choices (length l)) ->
    length (filter (wins (l ++ [x]) p) (map (fun j => js ++ [j]) (seq 0 (S (length l))))) =
      if Z.eqb x p then 1 else if wins l p js then length l else 0).
  { intros js Hjs. apply all_choices_ok in Hjs as [L V].
    assert (Hf : forall j, j <= length l -> wins (l ++ [x]) p (js ++ [j]) = if j =? 0 then Z.eqb x p else wins l p js).
    { intros j Hj. unfold wins. rewrite fy_snoc by auto. 
      assert (Lf : length (fisher_yates (of_list js) l) = length l) by apply shuffle_length.
      rewrite <- Lf at 1. rewrite hd_swap_last; [destruct (j =? 0); auto| |lia].
      intros E. rewrite E in Lf. cbn in Lf. lia. }
    cbn [seq map filter]. rewrite (Hf 0) by lia. cbn [Nat.eqb].
    assert (Hrest : length (filter (wins (l ++ [x]) p) (map (fun j => js ++ [j]) (seq 1 (length l)))) = if wins l p js then length l else 0).
    { assert (G : forall s, (forall j, In j s -> 1 <= j <= length l) ->
        length (filter (wins (l ++ [x]) p) (map (fun j => js ++ [j]) s)) = if wins l p js then length s else 0).
      { induction s as [|j s IHs]; intros Hs; cbn [map filter]; [destruct (wins l p js); auto|].
        pose proof (Hs j (or_introl eq_refl)) as Hj. rewrite Hf by lia. destruct (Nat.eqb_spec j 0); [lia|].
        specialize (IHs (fun k Hk => Hs k (or_intror Hk))). destruct (wins l p js); cbn; rewrite IHs; auto. }
      rewrite G; [|intros j Hj; apply in_seq in Hj; lia]. rewrite seq_length. auto. }
    destruct (Z.eqb_spec x p) as [->|Hxp]; cbn [length].
    - rewrite Hrest. replace (wins l p js) with false; auto. symmetry. unfold wins. apply Z.eqb_neq. intros E. apply Nx. rewrite <- E.
      assert (PP : Permutation l (fisher_yates (of_list js) l)) by (apply fisher_yates_perm, of_list_le; auto).
      eapply Permutation_in; [symmetry; exact PP|]. pose proof (Permutation_length PP).
      destruct (fisher_yates (of_list js) l); [cbn in *; lia|left; auto].
    - exact Hrest. }
  transitivity (list_sum (map (fun js => if Z.eqb x p then 1 else if wins l p js then length l else 0) (all_choices (length l)))).
  { f_equal. apply map_ext_in. exact Hrow. }
  destruct (Z.eqb_spec x p) as [->|Hxp].
  - rewrite <- all_choices_length. generalize (all_choices (length l)). intros s. induction s; cbn; auto.
  - assert (Hpl : In p l) by (apply in_app_iff in Hp as [|[|[]]]; [auto|congruence]).
    assert (F : fact (length l) = length l * fact (length l - 1)).
    { destruct (length l) as [|n]; [lia|]. cbn [Nat.sub]. rewrite Nat.sub_0_r. reflexivity. }
    rewrite F, <- (IH Hl p Hpl). generalize (all_choices (length l)). intros s.
    induction s as [|a s IHs]; [cbn; lia|]. cbn [map list_sum fold_right filter]. unfold list_sum in IHs. destruct (wins l p a); cbn [length]; rewrite ?IHs; lia.
Qed.
