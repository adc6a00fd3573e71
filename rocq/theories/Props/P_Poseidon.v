(** C46: the Poseidon instance used to derive the share-encryption keys: its constants, its matrices, the bijectivity of
    its permutation, and the agreement of the hash computed by the library with the one computed by the circuit. *)
From Coq Require Import ZArith NArith List Lia Bool Field.
From Verif.Base Require Import Primes Fld Fp Fq2 Curves.
From Verif.Model Require Import Circ MainGate PoseidonConsts Poseidon DkgCircuit.
From Verif.Spec Require Import Grain.
From Verif.Proofs Require Import CircProofs PoseidonProofs GrainProofs.
Import ListNotations.

(** ** the specification *)
(** the rounds of the permutation as a sequence of states: st 0 = s, ..., st 64 = t; round i adds row i of the
    constants, applies x^5 to all three words in the first four and the last four rounds and to the first word only in the 56 rounds
    between, and multiplies by the matrix *)
Definition poseidon_spec (m : nat -> nat -> Fr) (rc : nat -> nat -> Fr) (s t : nat -> Fr) : Prop :=
  let add := @fadd Fr in let mul := @fmul Fr in
  let p5 x := mul x (mul x (mul x (mul x x))) in
  exists st : nat -> nat -> Fr,
    (forall j, (j < 3)%nat -> st 0%nat j = s j) /\ (forall j, (j < 3)%nat -> st 64%nat j = t j) /\
    forall i, (i < 64)%nat -> forall j, (j < 3)%nat ->
      let u k := add (st i k) (rc i k) in
      let v k := if ((i <? 4) || (60 <=? i) || (k =? 0))%nat then p5 (u k) else u k in
      st (S i) j = add (add (mul (m j 0%nat) (v 0%nat)) (mul (m j 1%nat) (v 1%nat))) (mul (m j 2%nat) (v 2%nat)).

(** ** the constants *)
Theorem C46_constants :
  length round_constants = 195%nat /\ Forall (fun c => (0 <= c < r_mod)%Z) round_constants /\
  length mds = 3%nat /\ Forall (fun row => length row = 3%nat /\ Forall (fun c => (0 <= c < r_mod)%Z) row) mds.
Proof.
  assert (F : forall l, forallb (fun c => (0 <=? c)%Z && (c <? r_mod)%Z) l = true -> Forall (fun c => (0 <= c < r_mod)%Z) l).
  { intros l H. apply Forall_forall. intros x Hx. pose proof (proj1 (forallb_forall _ l) H x Hx) as E. apply andb_prop in E as [E1 E2].
    apply Z.leb_le in E1. apply Z.ltb_lt in E2. split; assumption. }
  split; [vm_compute; reflexivity|]. split; [apply F; vm_compute; reflexivity|]. split; [reflexivity|].
  assert (G : forall row, length row = 3%nat -> forallb (fun c => (0 <=? c)%Z && (c <? r_mod)%Z) row = true ->
                length row = 3%nat /\ Forall (fun c => (0 <= c < r_mod)%Z) row) by (intros; split; auto).
  unfold mds. do 3 (apply Forall_cons; [apply G; vm_compute; reflexivity|]). apply Forall_nil.
Qed.
(** row i of the constants used is the i-th triple of the list *)
Theorem C46_rows : length ROUND_CONSTANTS = 65%nat /\
  forall i j, (i < 65)%nat -> (j < 3)%nat ->
    exists row, nth_error ROUND_CONSTANTS i = Some row /\
      fval (at3 row j : Fp r_mod) = nth (3 * i + j) round_constants 0%Z.
Proof.
  split; [unfold ROUND_CONSTANTS; rewrite map_length, seq_length; reflexivity|].
  intros i j Hi Hj. unfold ROUND_CONSTANTS.
  exists (tab3 (fun j => fr (nth (i * 3 + j) round_constants 0%Z))). split.
  - rewrite (map_nth_error (fun i => tab3 (fun j => fr (nth (i * 3 + j) round_constants 0%Z))) i (seq 0 65) (d := i)); [reflexivity|].
    rewrite (nth_error_nth' (seq 0 65) 0%nat) by (rewrite seq_length; exact Hi). rewrite seq_nth by exact Hi. reflexivity.
  - rewrite at3_tab3 by exact Hj. unfold fr. rewrite fval_of_Z. rewrite (Nat.mul_comm 3 i). apply Z.mod_small.
    destruct C46_constants as (L & F & _). pose proof (proj1 (Forall_forall _ _) F) as F'. apply F'. apply nth_In. rewrite L. clear - Hi Hj. lia.
Qed.

(** ** the matrices *)
Lemma det_neq0 : determinant Fr MDS <> f0.
Proof. apply Fp_neq. vm_compute. reflexivity. Qed.
Lemma mds_inv_def : exists mi, mds_inv Fr MDS = Some mi.
Proof.
  unfold mds_inv. destruct (feqb (determinant Fr MDS) f0) eqn:E; [|eexists; reflexivity].
  exfalso. apply det_neq0. apply feqb_eq. exact E.
Qed.
Opaque MDS ROUND_CONSTANTS mds_inv capacity_2.

(** initialising the parameters does not panic *)
Theorem C46_builds : exists sp, P128Pow5T3Bn = Some sp /\ full_rounds sp = 8%nat /\ partial_rounds sp = 56%nat /\
  rcs sp = ROUND_CONSTANTS /\ m_reg sp = MDS.
Proof.
  destruct mds_inv_def as [mi E]. exists (mkSpec 8 56 ROUND_CONSTANTS MDS mi). unfold P128Pow5T3Bn. rewrite E. cbn. auto.
Qed.
Lemma spec_inv sp : P128Pow5T3Bn = Some sp ->
  mds_inv Fr (m_reg sp) = Some (m_inv sp) /\ full_rounds sp = 8%nat /\ partial_rounds sp = 56%nat /\ rcs sp = ROUND_CONSTANTS /\ m_reg sp = MDS.
Proof.
  unfold P128Pow5T3Bn. intros H. destruct (mds_inv Fr MDS) as [mi|] eqn:E; cbn in H; [|discriminate].
  injection H as <-. cbn. auto.
Qed.

Section Matrix.
  Variable K : Fld.
  Add Field Kh : (flaw K).
  Open Scope fld_scope.
  Definition entry (m : arr3 (arr3 K)) i j : K := at3 (at3 m i) j.
  Definition mat_mul (a b : arr3 (arr3 K)) i j : K := entry a i 0 * entry b 0 j + entry a i 1 * entry b 1 j + entry a i 2 * entry b 2 j.
  Lemma mat_id (a b : arr3 (arr3 K)) : (forall s, apply_mds K a (apply_mds K b s) = s) ->
    forall i j, (i < 3)%nat -> (j < 3)%nat -> mat_mul a b i j = if (i =? j)%nat then 1 else 0.
  Proof.
    intros H i j Hi Hj.
    specialize (H (tab3 (fun k => if (k =? j)%nat then 1 else 0))).
    apply (f_equal (fun s => at3 s i)) in H. rewrite at3_tab3 in H by exact Hi. rewrite <- H.
    unfold apply_mds. rewrite !at3_tab3 by lia. unfold mat_mul, entry.
    destruct j as [|[|[|j]]]; [| | |lia]; cbn [Nat.eqb]; ring.
  Qed.
End Matrix.

(** MDS and MDS_INV multiply to the identity, on both sides *)
Theorem C46_mds_inverse : forall sp, P128Pow5T3Bn = Some sp -> forall i j, (i < 3)%nat -> (j < 3)%nat ->
  mat_mul Fr (m_reg sp) (m_inv sp) i j = (if (i =? j)%nat then f1 else f0) /\
  mat_mul Fr (m_inv sp) (m_reg sp) i j = (if (i =? j)%nat then f1 else f0).
Proof.
  intros sp H i j Hi Hj. destruct (spec_inv sp H) as (E & _). split; apply mat_id; auto; intros s.
  - apply mds_inv_r; exact E.
  - apply mds_inv_l; exact E.
Qed.

(** ** the S-box *)
Definition FIFTH_ROOT : N := 17510594297471420177797124596205820070838691520332827474958563349260646796493%N.
Lemma fifth : (5 * FIFTH_ROOT = Z.to_N (r_mod - 1) * 4 + 1)%N.
Proof. vm_compute. reflexivity. Qed.
Lemma pow_fifth (x : Fr) : fpow x (5 * FIFTH_ROOT)%N = x.
Proof.
  destruct (feq_dec x f0) as [->|N].
  - rewrite fifth, N.add_1_r, fpow_succ. apply Fp_ext. reflexivity.
  - assert (F : fpow x (Z.to_N (r_mod - 1)) = (f1 : Fr)) by exact (fpow_fermat r_mod r_prime x N).
    rewrite fifth, fpow_add, fpow_mul. rewrite F, fpow_1_l.
    change (fpow x 1) with x. rewrite <- (of_Z_fval r_mod x) at 2.
    change (Fp_mul (of_Z r_mod 1) x = of_Z r_mod (fval (x : Fp r_mod))).
    rewrite <- (of_Z_fval r_mod x) at 1. rewrite <- of_Z_mul. f_equal. apply Z.mul_1_l.
Qed.
Lemma sbox_bij : bij (sbox Fr).
Proof.
  exists (fun y => fpow y FIFTH_ROOT). unfold sbox. split; intros x.
  - rewrite <- fpow_mul. apply pow_fifth.
  - rewrite <- fpow_mul, N.mul_comm. apply pow_fifth.
Qed.
Theorem C46_sbox : forall y : Fr, exists! x : Fr, fpow x 5 = y.
Proof.
  destruct sbox_bij as (g & H1 & H2). intros y. exists (g y). split; [apply H2|]. intros x <-. apply H1.
Qed.

(** ** the permutation *)
Theorem C46_permutation : forall sp, P128Pow5T3Bn = Some sp -> forall t : arr3 Fr, exists! s : arr3 Fr, permute Fr sp s = t.
Proof.
  intros sp H t. destruct (spec_inv sp H) as (E & _).
  destruct (bij_permute Fr sp E sbox_bij) as (g & H1 & H2). exists (g t). split; [apply H2|]. intros s <-. apply H1.
Qed.

Section Trace.
  Variable K : Fld.
  Add Field Ki : (flaw K).
  Open Scope fld_scope.
  Lemma sbox_mul (x : K) : sbox K x = x * (x * (x * (x * x))).
  Proof. unfold sbox. cbn [fpow fpow_pos]. cbv zeta. ring. Qed.
  Lemma full_at m (s rc : arr3 K) j : (j < 3)%nat ->
    at3 (full_round K m s rc) j = at3 (at3 m j) 0 * sbox K (at3 s 0 + at3 rc 0) + at3 (at3 m j) 1 * sbox K (at3 s 1 + at3 rc 1) + at3 (at3 m j) 2 * sbox K (at3 s 2 + at3 rc 2).
  Proof. intros Hj. unfold full_round, apply_mds. rewrite at3_tab3 by exact Hj. rewrite !at3_tab3 by lia. ring. Qed.
  Lemma part_at m (s rc : arr3 K) j : (j < 3)%nat ->
    at3 (part_round K m s rc) j = at3 (at3 m j) 0 * sbox K (at3 s 0 + at3 rc 0) + at3 (at3 m j) 1 * (at3 s 1 + at3 rc 1) + at3 (at3 m j) 2 * (at3 s 2 + at3 rc 2).
  Proof. intros Hj. unfold part_round, apply_mds. rewrite at3_tab3 by exact Hj. cbn [at3 tab3]. ring. Qed.
  (** the state after [i] rounds *)
  Definition state_at (l : list ((arr3 K -> arr3 K -> arr3 K) * arr3 K)) (s : arr3 K) (i : nat) : arr3 K :=
    fold_left (fun s p => fst p s (snd p)) (firstn i l) s.
  Lemma state_step l s i p : nth_error l i = Some p -> state_at l s (S i) = fst p (state_at l s i) (snd p).
  Proof.
    unfold state_at. revert s i. induction l as [|a l IH]; intros s [|i] H; cbn in H; try discriminate.
    - injection H as <-. reflexivity.
    - change (firstn (S (S i)) (a :: l)) with (a :: firstn (S i) l).
      change (firstn (S i) (a :: l)) with (a :: firstn i l). cbn [fold_left]. apply IH. exact H.
  Qed.
End Trace.

Lemma combine_nth {A B} : forall (a : list A) (b : list B) i x y,
  nth_error a i = Some x -> nth_error b i = Some y -> nth_error (combine a b) i = Some (x, y).
Proof.
  induction a as [|h a IH]; intros [|k b] [|i] x y Ha Hb; cbn in *; try discriminate; [congruence|]. apply IH; auto.
Qed.
Lemma rounds_nth {A} (f p : A) i : (i < 64)%nat ->
  nth_error (repeat f 4 ++ repeat p 56 ++ repeat f 4) i = Some (if ((i <? 4) || (60 <=? i))%nat then f else p).
Proof. intros H. do 64 (destruct i as [|i]; [reflexivity|]). lia. Qed.

(** the 64 rounds, one by one *)
Theorem C46_rounds : forall sp, P128Pow5T3Bn = Some sp -> forall s t : arr3 Fr,
  permute Fr sp s = t <->
  poseidon_spec (fun i j => at3 (at3 MDS i) j) (fun i j => at3 (nth i ROUND_CONSTANTS (f0, f0, f0)) j) (at3 s) (at3 t).
Proof.
  intros sp Hsp. destruct (spec_inv sp Hsp) as (E & E8 & E56 & Erc & Em).
  set (L := combine (rounds Fr sp) (rcs sp)).
  assert (Hr : rounds Fr sp = repeat (full_round Fr MDS) 4 ++ repeat (part_round Fr MDS) 56 ++ repeat (full_round Fr MDS) 4).
  { unfold rounds. rewrite E8, E56, Em. reflexivity. }
  assert (HL : forall i, (i < 64)%nat -> nth_error L i =
    Some (if ((i <? 4) || (60 <=? i))%nat then full_round Fr MDS else part_round Fr MDS, nth i ROUND_CONSTANTS (f0, f0, f0))).
  { intros i Hi. unfold L. apply combine_nth.
    - rewrite Hr. apply rounds_nth. exact Hi.
    - rewrite Erc. apply nth_error_nth'. rewrite (proj1 C46_rows). clear - Hi. lia. }
  assert (HLen : length L = 64%nat).
  { unfold L. rewrite combine_length, Hr, Erc, (proj1 C46_rows). rewrite !app_length, !repeat_length. reflexivity. }
  assert (Hstep : forall st : nat -> arr3 Fr, forall i, (i < 64)%nat ->
    let u k := @fadd Fr (at3 (st i) k) (at3 (nth i ROUND_CONSTANTS (f0, f0, f0)) k) in
    let v k := if ((i <? 4) || (60 <=? i) || (k =? 0))%nat then @fmul Fr (u k) (@fmul Fr (u k) (@fmul Fr (u k) (@fmul Fr (u k) (u k)))) else u k in
    forall j, (j < 3)%nat ->
    at3 ((if ((i <? 4) || (60 <=? i))%nat then full_round Fr MDS else part_round Fr MDS) (st i) (nth i ROUND_CONSTANTS (f0, f0, f0))) j =
    @fadd Fr (@fadd Fr (@fmul Fr (at3 (at3 MDS j) 0) (v 0%nat)) (@fmul Fr (at3 (at3 MDS j) 1) (v 1%nat))) (@fmul Fr (at3 (at3 MDS j) 2) (v 2%nat))).
  { intros st i Hi u v j Hj. unfold v. destruct ((i <? 4) || (60 <=? i))%nat.
    - rewrite (full_at Fr MDS _ _ j Hj). rewrite !(sbox_mul Fr). cbn [orb]. reflexivity.
    - rewrite (part_at Fr MDS _ _ j Hj). rewrite !(sbox_mul Fr). cbn [orb Nat.eqb]. reflexivity. }
  assert (Hfin : forall s, permute Fr sp s = state_at Fr L s 64).
  { intros s. unfold permute, state_at. fold L. rewrite <- HLen, firstn_all. reflexivity. }
  intros s t. rewrite Hfin. unfold poseidon_spec. split.
  - intros <-. exists (fun i j => at3 (state_at Fr L s i) j). split; [intros j Hj; reflexivity|]. split; [intros j Hj; reflexivity|].
    intros i Hi j Hj. rewrite (state_step Fr L s i _ (HL i Hi)). cbn [fst snd].
    exact (Hstep (fun i => state_at Fr L s i) i Hi j Hj).
  - intros (st & H0 & H1 & H2).
    assert (G : forall i, (i <= 64)%nat -> tab3 (st i) = state_at Fr L s i).
    { induction i as [|i IH]; intros Hi.
      - unfold state_at. cbn [firstn fold_left]. apply arr3_ext. intros j Hj. rewrite at3_tab3 by exact Hj. apply H0. exact Hj.
      - assert (Hi' : (i < 64)%nat) by (clear - Hi; lia). assert (Hi2 : (i <= 64)%nat) by (clear - Hi; lia).
        rewrite (state_step Fr L s i _ (HL i Hi')). cbn [fst snd]. rewrite <- (IH Hi2).
        apply arr3_ext. intros j Hj. rewrite at3_tab3 by exact Hj. rewrite (H2 i Hi' j Hj).
        symmetry. exact (Hstep (fun i => tab3 (st i)) i Hi' j Hj). }
    rewrite <- (G 64%nat (le_n 64)). apply arr3_ext. intros j Hj. rewrite at3_tab3 by exact Hj. apply H1. exact Hj.
Qed.

(** ** the library's hash and the circuit's *)
Theorem C46_hash : forall x y, exists k, poseidon_hash x y = Some k /\
  exists t, poseidon_spec (fun i j => at3 (at3 MDS i) j) (fun i j => at3 (nth i ROUND_CONSTANTS (f0, f0, f0)) j)
              (at3 (x, y, fr (2 * 2 ^ 64))) t /\ t 0%nat = k.
Proof.
  intros x y. destruct C46_builds as (sp & Hsp & _). unfold poseidon_hash. rewrite Hsp. cbn [option_map].
  eexists. split; [reflexivity|]. unfold hash_2.
  exists (at3 (permute Fr sp (@fadd Fr f0 x, @fadd Fr f0 y, capacity_2))). split; [|reflexivity].
  assert (Z0 : forall z : Fr, @fadd Fr f0 z = z).
  { intros z. apply Fp_ext. change (fval (Fp_add (of_Z r_mod 0) (z : Fp r_mod)) = fval (z : Fp r_mod)).
    rewrite <- (of_Z_fval r_mod z), <- of_Z_add. rewrite Z.add_0_l. reflexivity. }
  rewrite !Z0. apply (C46_rounds sp Hsp). reflexivity.
Qed.
(** the circuit's gadget can be satisfied with exactly one output, the library's hash, and the prover computes it *)
Theorem C46_gadget : forall x y k,
  (sem (poseidon_gadget x y) k <-> poseidon_hash x y = Some k) /\
  (honest (poseidon_gadget x y) k <-> poseidon_hash x y = Some k).
Proof.
  intros x y k. destruct C46_builds as (sp & Hsp & _). destruct (spec_inv sp Hsp) as (E & E8 & E56 & Erc & Em).
  unfold poseidon_gadget, poseidon_hash. rewrite Hsp. cbn [option_rect option_map cbind].
  assert (Hl : (full_rounds sp + partial_rounds sp <= length (rcs sp))%nat).
  { rewrite E8, E56, Erc, (proj1 C46_rows). clear. lia. }
  assert (Hf : Nat.even (full_rounds sp) = true) by (rewrite E8; reflexivity).
  assert (Hp : Nat.even (partial_rounds sp) = true) by (rewrite E56; reflexivity).
  pose proof (pow5_hash_iff Fr sp E Hf Hp Hl capacity_2 x y k) as [A B].
  split.
  - split; [intros H; f_equal; symmetry; exact (proj1 A H)|intros H; apply (proj2 A); injection H as <-; reflexivity].
  - split; [intros H; f_equal; symmetry; exact (proj1 B H)|intros H; apply (proj2 B); injection H as <-; reflexivity].
Qed.

(** the function the library and the circuit compute *)
Definition poseidon_fn (x y : Fr) : Fr := option_rect (fun _ => Fr : Type) (fun k => k) f0 (poseidon_hash x y).
(** the key cell of the DKG circuit, which the circuit model of DkgCircuit.v takes as a function, is the gadget *)
Theorem C46_key_cell : forall x y k,
  (sem (hash2 poseidon_fn x y) k <-> sem (poseidon_gadget x y) k) /\
  (honest (hash2 poseidon_fn x y) k <-> honest (poseidon_gadget x y) k).
Proof.
  intros x y k. destruct (C46_gadget x y k) as [A B].
  destruct (C46_hash x y) as (h & Hh & _).
  assert (Ef : poseidon_fn x y = h) by (unfold poseidon_fn; rewrite Hh; reflexivity).
  rewrite Hh in A, B. unfold hash2. cbn [sem honest]. rewrite Ef. split.
  - split.
    + intros (z & -> & ->). apply (proj2 A). reflexivity.
    + intros H. exists k. apply (proj1 A) in H. injection H as <-. split; reflexivity.
  - split.
    + intros (_ & ->). apply (proj2 B). reflexivity.
    + intros H. apply (proj1 B) in H. injection H as <-. split; reflexivity.
Qed.

(** the constants and the matrix are the output of the paper's parameter generator for this field (254 bits, width 3) with 8 full
    and 57 partial rounds *)
Theorem C46_grain : poseidon_params r_mod 254 3 8 57 round_constants mds.
Proof.
  split; [reflexivity|]. destruct grain_constants as (k & l & l' & C & N). exists k, l, (firstn 3 xs_ys), (skipn 3 xs_ys), l'.
  split; [exact C|]. split; [exact N|]. split; [|split; [reflexivity|split; [reflexivity|exact mds_cauchy]]].
  repeat constructor; cbn [In app firstn skipn xs_ys]; intros H; repeat (destruct H as [H|H]; [discriminate H|]); exact H.
Qed.
(** but the instance runs 56 partial rounds (C46_builds), for which the generator's constants start differently: the hash is not the
    paper's instance for either number of rounds *)
Theorem C46_not_56_refuted : forall sp, P128Pow5T3Bn = Some sp -> partial_rounds sp = 56%nat /\
  forall rcs m, poseidon_params r_mod 254 3 8 56 rcs m -> nth 0 rcs 0%Z <> nth 0 round_constants 0%Z.
Proof.
  intros sp H. split; [destruct C46_builds as (sp' & E & _ & P & _); rewrite H in E; assert (sp = sp') by congruence; subst; exact P|].
  intros rcs m (L & k & l & xs & ys & l' & C & _) E. destruct rcs as [|c cs]; [discriminate L|]. cbn [nth] in E. subst c. exact (not_56 k cs l C).
Qed.
(** the matrix is MDS: all its minors are non-zero *)
Definition minor (m : arr3 (arr3 Fr)) (i j i' j' : nat) : Fr :=
  (at3 (at3 m i) j * at3 (at3 m i') j' - at3 (at3 m i) j' * at3 (at3 m i') j)%fld.
Theorem C46_mds : (forall i j, (i < 3)%nat -> (j < 3)%nat -> at3 (at3 MDS i) j <> f0) /\
  (forall i i' j j', (i < i' < 3)%nat -> (j < j' < 3)%nat -> minor MDS i j i' j' <> f0) /\ determinant Fr MDS <> f0.
Proof.
  split; [|split].
  - intros [|[|[|i]]] [|[|[|j]]] Hi Hj; try lia; intros E; apply (f_equal (fval (p := r_mod))) in E; vm_compute in E; discriminate E.
  - intros [|[|[|i]]] [|[|[|i']]] [|[|[|j]]] [|[|[|j']]] Hi Hj; try lia; intros E; apply (f_equal (fval (p := r_mod))) in E; vm_compute in E; discriminate E.
  - intros E; apply (f_equal (fval (p := r_mod))) in E; vm_compute in E; discriminate E.
Qed.
Print Assumptions C46_grain.
Print Assumptions C46_not_56_refuted.
Print Assumptions C46_mds.
