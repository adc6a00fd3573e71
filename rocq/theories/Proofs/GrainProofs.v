(** The constants of src/poseidon/bn256.rs come from the generator of the Poseidon paper: 18 bits of the register at a time. *)
From Coq Require Import ZArith List Bool Lia.
From Verif.Base Require Import Primes.
From Verif.Model Require Import PoseidonConsts.
From Verif.Spec Require Import Grain.
Import ListNotations.
Open Scope Z_scope.

(** the next 18 bits depend on the state only *)
Fixpoint xor6 (f e d c b a : list bool) : list bool :=
  match f, e, d, c, b, a with
  | x6 :: f, x5 :: e, x4 :: d, x3 :: c, x2 :: b, x1 :: a => xorb x6 (xorb x5 (xorb x4 (xorb x3 (xorb x2 x1)))) :: xor6 f e d c b a
  | _, _, _, _, _, _ => []
  end.
Definition block (s : list bool) : list bool :=
  let a := s in let b := skipn 13 a in let c := skipn 10 b in let d := skipn 15 c in let e := skipn 13 d in let f := skipn 11 e in xor6 f e d c b a.
Fixpoint blocks (k : nat) (s : list bool) : list bool :=
  match k with O => [] | S k' => let b := block s in b ++ blocks k' (skipn 18 s ++ b) end.

Fixpoint run (k : nat) (s : list bool) : list bool := match k with O => s | S k' => run k' (tl s ++ [feedback s]) end.
Lemma lfsr_plus j : forall k s, lfsr (j + k) s = lfsr j s ++ lfsr k (run j s).
Proof. induction j as [|j IH]; intros k s; [reflexivity|]. cbn [Nat.add lfsr run app]. rewrite IH. reflexivity. Qed.
Lemma list80 (s : list bool) : length s = 80%nat -> exists f, s = map f (seq 0 80).
Proof.
  intros L. exists (fun i => nth i s false). rewrite <- L. clear L. induction s as [|a s IH]; [reflexivity|]. cbn [length seq map nth]. f_equal.
  rewrite <- seq_shift, map_map. exact IH.
Qed.
Lemma block_step s : length s = 80%nat -> lfsr 18 s = block s /\ run 18 s = skipn 18 s ++ block s.
Proof. intros L. destruct (list80 s L) as [f ->]. clear L. split; reflexivity. Qed.
Lemma block_length s : length s = 80%nat -> length (skipn 18 s ++ block s) = 80%nat.
Proof. intros L. destruct (list80 s L) as [f ->]. reflexivity. Qed.
Lemma blocks_lfsr k : forall s, length s = 80%nat -> lfsr (18 * k) s = blocks k s.
Proof.
  induction k as [|k IH]; intros s L; [reflexivity|]. replace (18 * S k)%nat with (18 + 18 * k)%nat by lia. rewrite lfsr_plus.
  destruct (block_step s L) as [-> ->]. cbn [blocks]. f_equal. apply IH, block_length, L.
Qed.

(** running the sampling *)
Fixpoint constants (fuel : nat) (p : Z) (n : nat) (want : list Z) (l : list bool) : option (list bool) :=
  match want with
  | [] => Some l
  | w :: ws =>
    match fuel with
    | O => None
    | S fuel' =>
      match number n 0 l with
      | Some (c, l') => if c <? p then if c =? w then constants fuel' p n ws l' else None else constants fuel' p n want l'
      | None => None
      end
    end
  end.
Lemma constants_ok fuel p n : forall want l l', constants fuel p n want l = Some l' -> next_constants p n l want l'.
Proof.
  induction fuel as [|fuel IH]; intros [|w ws] l l' H; cbn [constants] in H; try discriminate; try (assert (l = l') by congruence; subst; constructor).
  destruct (number n 0 l) as [[c l1]|] eqn:N; [|discriminate]. destruct (Z.ltb_spec c p) as [L|L].
  - destruct (Z.eqb_spec c w) as [->|]; [|discriminate]. econstructor; [apply (Take p n l w l1 N L)|]. apply IH, H.
  - apply IH in H. inversion H; subst. econstructor; [apply (Skip p n l c l1 w l'0 N L)|]; eassumption.
Qed.
Fixpoint numbers (k : nat) (p : Z) (n : nat) (l : list bool) : option (list Z * list bool) :=
  match k with
  | O => Some ([], l)
  | S k' => match number n 0 l with
            | Some (c, l') => match numbers k' p n l' with Some (cs, l'') => Some (c mod p :: cs, l'') | None => None end
            | None => None
            end
  end.
Lemma numbers_ok k p n : forall l cs l', numbers k p n l = Some (cs, l') -> next_numbers p n l cs l'.
Proof.
  induction k as [|k IH]; intros l cs l' H; cbn [numbers] in H; [assert (cs = [] /\ l = l') as [-> ->] by (split; congruence); constructor|].
  destruct (number n 0 l) as [[c l1]|] eqn:N; [|discriminate]. destruct (numbers k p n l1) as [[cs1 l2]|] eqn:M; [|discriminate].
  assert (cs = c mod p :: cs1 /\ l' = l2) as [-> ->] by (split; congruence). econstructor; [exact N|]. apply IH, M.
Qed.

(** the six numbers behind the matrix *)
Definition xs_ys : list Z :=
  [ 11146121929802268400825810509004022126299002039847904290017616511774303083793;
    12115164975902515891155944278864418768340548762179101024662482768408641478753;
    21619535683684339117205696045982029100804816122004146531760908955965288802580;
    17081068568566270773888964689262655845217320208127328419931918383809419348937;
    5673623795122243789527942755555208734209762136246776902888216294155344747618;
    831080828701354031448139185498744529216148262831181542946674682437305958639 ].
Fixpoint zlist_eqb (a b : list Z) : bool :=
  match a, b with [], [] => true | x :: a, y :: b => (x =? y) && zlist_eqb a b | _, _ => false end.
Lemma zlist_eqb_ok a : forall b, zlist_eqb a b = true -> a = b.
Proof. induction a as [|x a IH]; intros [|y b] H; cbn in H; try discriminate; [reflexivity|]. apply andb_prop in H as [H1 H2]. apply Z.eqb_eq in H1. f_equal; auto. Qed.
Definition check (bits : list bool) : bool :=
  match constants 300 r_mod 254 round_constants (shrink (skipn 160 bits)) with
  | Some l => match numbers 6 r_mod 254 l with Some (cs, _) => zlist_eqb cs xs_ys | None => false end
  | None => false
  end.
Lemma check_ok bits : check bits = true -> exists l l', next_constants r_mod 254 (shrink (skipn 160 bits)) round_constants l /\ next_numbers r_mod 254 l xs_ys l'.
Proof.
  unfold check. generalize (shrink (skipn 160 bits)). intros b H.
  destruct (constants 300 r_mod 254 round_constants b) as [l|] eqn:C; [|discriminate H]. destruct (numbers 6 r_mod 254 l) as [[cs l']|] eqn:N; [|discriminate H].
  apply zlist_eqb_ok in H. subst cs. exists l, l'. split; [exact (constants_ok _ _ _ _ _ _ C)|exact (numbers_ok _ _ _ _ _ _ N)].
Qed.
Lemma check_grain k : check (blocks k (grain_init 254 3 8 57)) = true ->
  exists l l', next_constants r_mod 254 (grain (18 * k) 254 3 8 57) round_constants l /\ next_numbers r_mod 254 l xs_ys l'.
Proof. intros H. rewrite <- blocks_lfsr in H by reflexivity. exact (check_ok _ H). Qed.
Lemma grain_runs : check (blocks (154 * 100) (grain_init 254 3 8 57)) = true. Proof. vm_compute. reflexivity. Qed.
Lemma grain_constants : exists k l l', next_constants r_mod 254 (grain k 254 3 8 57) round_constants l /\ next_numbers r_mod 254 l xs_ys l'.
Proof. exists (18 * (154 * 100))%nat. exact (check_grain (154 * 100)%nat grain_runs). Qed.
Lemma mds_cauchy : cauchy r_mod (firstn 3 xs_ys) (skipn 3 xs_ys) mds.
Proof.
  split; [reflexivity|].
  assert (R : forall (row : list Z) (x : Z) (ys : list Z), length row = length ys ->
    forallb (fun p => (0 <=? fst p) && (fst p <? r_mod) && ((fst p * (x + snd p)) mod r_mod =? 1)) (combine row ys) = true ->
    length row = length ys /\ forall j e y, nth_error row j = Some e -> nth_error ys j = Some y -> 0 <= e < r_mod /\ (e * (x + y)) mod r_mod = 1).
  { intros row x ys L H. split; [exact L|]. revert ys L H. induction row as [|a row IH]; intros [|b ys] L H j e y E Y; try discriminate L; [destruct j; discriminate|].
    cbn [combine forallb fst snd] in H. apply andb_prop in H as [H1 H2]. destruct j as [|j]; cbn [nth_error] in E, Y.
    - assert (a = e /\ b = y) as [-> ->] by (split; congruence). apply andb_prop in H1 as [H1 H3]. apply andb_prop in H1 as [H0 H1].
      apply Z.leb_le in H0. apply Z.ltb_lt in H1. apply Z.eqb_eq in H3. auto.
    - apply (IH ys ltac:(injection L; auto) H2 j e y E Y). }
  intros [|[|[|i]]] row x E X; cbn in E, X; try discriminate; try (destruct i; discriminate);
    match type of E with Some ?a = Some _ => assert (a = row) by congruence end; match type of X with Some ?a = Some _ => assert (a = x) by congruence end; subst row x;
    (apply R; [reflexivity|vm_compute; reflexivity]).
Qed.

(** ** not the constants of 56 partial rounds *)
Definition prefix {A} (a b : list A) : Prop := exists c, b = a ++ c.
Lemma prefix_skip {A} n : forall a b : list A, prefix a b -> prefix (skipn n a) (skipn n b).
Proof.
  induction n as [|n IH]; intros a b H; [exact H|]. destruct a as [|x a]; [exists (skipn (S n) b); reflexivity|]. destruct H as [c ->]. cbn [skipn app]. apply IH. exists c. reflexivity.
Qed.
Lemma shrink_prefix n : forall a b, (length a <= n)%nat -> prefix a b -> prefix (shrink a) (shrink b).
Proof.
  induction n as [|n IH]; intros [|x [|y a]] b L [c ->]; try (exists (shrink (([] : list bool) ++ c)); reflexivity); try (cbn in L; lia).
  - exists (shrink ([x] ++ c)). reflexivity.
  - cbn [app shrink]. destruct (IH a (a ++ c) ltac:(cbn in L; lia) (ex_intro _ c eq_refl)) as [d E]. destruct x; rewrite E; [exists d|exists d]; reflexivity.
Qed.
Lemma lfsr_prefix k j s : prefix (lfsr k s) (lfsr (k + j) s). Proof. rewrite lfsr_plus. eexists. reflexivity. Qed.
Lemma grain_prefix k j n t rf rp : prefix (grain k n t rf rp) (grain (k + j) n t rf rp).
Proof. unfold grain. eapply shrink_prefix; [apply Nat.le_refl|]. apply prefix_skip, lfsr_prefix. Qed.
Lemma number_prefix n : forall acc a b c l, prefix a b -> number n acc a = Some (c, l) -> exists l', number n acc b = Some (c, l').
Proof.
  induction n as [|n IH]; intros acc a b c l P H; cbn [number] in *; [assert (acc = c) by congruence; subst; eauto|].
  destruct a as [|x a]; [discriminate|]. destruct P as [d ->]. cbn [app]. apply (IH _ a _ c l); [exists d; reflexivity|exact H].
Qed.
(** for 56 partial rounds the first constant would be another one *)
Lemma first_56 : exists c l, number 254 0 (grain (18 * 80) 254 3 8 56) = Some (c, l) /\ c < r_mod /\ c <> hd 0 round_constants.
Proof.
  assert (E : grain (18 * 80) 254 3 8 56 = shrink (skipn 160 (blocks 80 (grain_init 254 3 8 56)))) by (unfold grain; rewrite blocks_lfsr by reflexivity; reflexivity).
  rewrite E. clear E. destruct (number 254 0 (shrink (skipn 160 (blocks 80 (grain_init 254 3 8 56))))) as [[c l]|] eqn:N; [|vm_compute in N; discriminate N].
  exists c, l. split; [reflexivity|]. vm_compute in N. assert (C : c = fst (c, l)) by reflexivity. injection N as Ec _. rewrite <- Ec. split; [reflexivity|]. discriminate.
Qed.
Lemma next_first p n g c m w g' : number n 0 g = Some (c, m) -> c < p -> next_constant p n g w g' -> w = c.
Proof. intros E L N. destruct N as [g c1 g1 E' L'|g c1 g1 c2 g2 E' L' _]; rewrite E in E'; assert (X : c = c1) by congruence; [symmetry; exact X|lia]. Qed.
Lemma next_some p n g w g' : next_constant p n g w g' -> exists c m, number n 0 g = Some (c, m).
Proof. intros [? ? ? E ?|? ? ? ? ? E ? ?]; eauto. Qed.
Lemma not_56 k cs l : ~ next_constants r_mod 254 (grain k 254 3 8 56) (hd 0 round_constants :: cs) l.
Proof.
  intros H. inversion H as [|? ? l1 ? ? N _]; subst. clear H. destruct first_56 as (c & m & F & L & D).
  destruct (next_some _ _ _ _ _ N) as (c' & m' & E).
  destruct (number_prefix 254 0 _ (grain (k + 18 * 80) 254 3 8 56) c' m' (grain_prefix k (18 * 80) 254 3 8 56) E) as [m1 E1].
  rewrite Nat.add_comm in E1. destruct (number_prefix 254 0 _ (grain (18 * 80 + k) 254 3 8 56) c m (grain_prefix (18 * 80) k 254 3 8 56) F) as [m2 E2].
  assert (X : c' = c) by congruence. subst c'. apply D. symmetry. exact (next_first _ _ _ _ _ _ _ E L N).
Qed.
