(** C63: the Poseidon gates and constants of the on-chain verifier are those of the Rust library.  In a circuit the verifier accepts, a
    region laid out as halo2_gadgets lays it out holds the hash that src/poseidon.rs parameterises and src/lib.rs computes; and the
    main gate is the row equation the circuit model is written in. *)
From Coq Require Import ZArith NArith List Lia Bool Field.
From Verif.Base Require Import Primes Fld Fp EC Curves Group Poly.
From Verif.Model Require Import Circ MainGate PoseidonConsts Poseidon.
From Verif.Spec Require Import Few Dvrf Onchain Plonk PlonkVerifier PlonkCircuit PlonkRegions PlonkSound.
From Verif.Proofs Require Import CircProofs PoseidonProofs GateRows HashRegion HashCircuit RowComplete SatExt PlonkSoundFr PlonkCompleteFr VerifierKey.
From Verif.Props Require Import P_Poseidon P_Verifier P_Plonk.
Import ListNotations.
Open Scope Z_scope.
Opaque MDS ROUND_CONSTANTS mds_inv capacity_2.

(** ** the matrices *)
Section Inverse.
  Variable K : Fld.
  Add Field Kh : (flaw K).
  Open Scope fld_scope.
  Lemma inverse_unique (a b0 b1 b2 c d e0 : arr3 K) :
    (forall j, (j < 3)%nat -> at3 a 0 * at3 b0 j + at3 a 1 * at3 b1 j + at3 a 2 * at3 b2 j = at3 d j) ->
    at3 b0 0 * at3 c 0 + at3 b0 1 * at3 c 1 + at3 b0 2 * at3 c 2 = at3 e0 0 ->
    at3 b1 0 * at3 c 0 + at3 b1 1 * at3 c 1 + at3 b1 2 * at3 c 2 = at3 e0 1 ->
    at3 b2 0 * at3 c 0 + at3 b2 1 * at3 c 1 + at3 b2 2 * at3 c 2 = at3 e0 2 ->
    at3 a 0 * at3 e0 0 + at3 a 1 * at3 e0 1 + at3 a 2 * at3 e0 2 = at3 d 0 * at3 c 0 + at3 d 1 * at3 c 1 + at3 d 2 * at3 c 2.
  Proof. intros H E0 E1 E2. rewrite <- E0, <- E1, <- E2, <- !H by lia. ring. Qed.
  Lemma pick (v : arr3 K) j : (j < 3)%nat -> let d := tab3 (fun k => if (k =? j)%nat then 1 else 0 : K) in
    at3 v 0 * at3 d 0 + at3 v 1 * at3 d 1 + at3 v 2 * at3 d 2 = at3 v j.
  Proof. intros L. destruct j as [|[|[|j]]]; [..|exfalso; lia]; cbn [at3 tab3 Nat.eqb]; ring. Qed.
  Lemma pick' (v : arr3 K) j : (j < 3)%nat -> let d := tab3 (fun k => if (j =? k)%nat then 1 else 0 : K) in
    at3 d 0 * at3 v 0 + at3 d 1 * at3 v 1 + at3 d 2 * at3 v 2 = at3 v j.
  Proof. intros L. destruct j as [|[|[|j]]]; [..|exfalso; lia]; cbn [at3 tab3 Nat.eqb]; ring. Qed.
End Inverse.

Lemma fr_products a b a' b' a'' b'' d : (a * b + a' * b' + a'' * b'') mod r_mod = d mod r_mod ->
  (fr a * fr b + fr a' * fr b' + fr a'' * fr b'' = fr d :> Fr)%fld.
Proof.
  intros H. transitivity (fr (a * b + a' * b' + a'' * b'')).
  - unfold fr. rewrite !of_Z_add, !of_Z_mul. reflexivity.
  - apply Fp_ext. unfold fr. rewrite !fval_of_Z. exact H.
Qed.
Definition product_check (i j : nat) : bool :=
  let e k l := nth l (nth k mds_inverse []) 0 in let g k l := nth l (nth k mds []) 0 in
  ((e i 0%nat * g 0%nat j + e i 1%nat * g 1%nat j + e i 2%nat * g 2%nat j) mod r_mod =? (if (i =? j)%nat then 1 else 0) mod r_mod).
Lemma products_checked : forallb (fun i => forallb (product_check i) (seq 0 3)) (seq 0 3) = true.
Proof. vm_compute. reflexivity. Qed.
Lemma product_id i j : (i < 3)%nat -> (j < 3)%nat ->
  (mds_inv_at i 0 * mds_at 0 j + mds_inv_at i 1 * mds_at 1 j + mds_inv_at i 2 * mds_at 2 j = fr (if (i =? j)%nat then 1 else 0)%Z :> Fr)%fld.
Proof.
  intros Li Lj. apply fr_products. pose proof products_checked as H. rewrite forallb_forall in H. specialize (H i). rewrite forallb_forall in H.
  apply Z.eqb_eq. apply H; apply in_seq; lia.
Qed.
Lemma mds_at_MDS i j : (i < 3)%nat -> (j < 3)%nat -> mds_at i j = at3 (at3 MDS i) j.
Proof. Transparent MDS. intros Li Lj. unfold MDS. rewrite at3_tab3 by exact Li. rewrite at3_tab3 by exact Lj. reflexivity. Opaque MDS. Qed.
Lemma fr_if (b : bool) : fr (if b then 1 else 0) = (if b then f1 else f0 : Fr).
Proof. destruct b; reflexivity. Qed.

(** the matrices of the verifier are the library's, the second being the one the library computes by inversion *)
Theorem C63_matrices : forall sp, P128Pow5T3Bn = Some sp -> forall i j, (i < 3)%nat -> (j < 3)%nat ->
  mds_at i j = at3 (at3 (m_reg sp) i) j /\ mds_inv_at i j = at3 (at3 (m_inv sp) i) j.
Proof.
  intros sp H i j Li Lj. destruct (spec_inv sp H) as (_ & _ & _ & _ & Em).
  assert (E : forall i j, (i < 3)%nat -> (j < 3)%nat -> mds_at i j = at3 (at3 (m_reg sp) i) j) by (intros; rewrite Em; apply mds_at_MDS; assumption).
  split; [apply E; assumption|].
  pose proof (fun k Hk => proj1 (C46_mds_inverse sp H k j Hk Lj)) as R. unfold mat_mul, entry in R.
  set (a := tab3 (mds_inv_at i)). set (cj := tab3 (fun k => at3 (at3 (m_inv sp) k) j)).
  pose proof (inverse_unique Fr a (at3 (m_reg sp) 0) (at3 (m_reg sp) 1) (at3 (m_reg sp) 2) cj
    (tab3 (fun k => if (i =? k)%nat then f1 else f0 : Fr)) (tab3 (fun k => if (k =? j)%nat then f1 else f0 : Fr))) as U.
  rewrite (pick Fr a j Lj) in U. rewrite (pick' Fr cj i Li) in U. unfold a, cj in U. rewrite <- (at3_tab3 (mds_inv_at i) j Lj). rewrite <- (at3_tab3 (fun k => at3 (at3 (m_inv sp) k) j) i Li).
  apply U.
  - intros k Lk. rewrite <- !E by (first [exact Lk|repeat constructor]). rewrite (at3_tab3 (fun k => if (i =? k)%nat then f1 else f0 : Fr) k Lk).
    rewrite <- fr_if. apply product_id; assumption.
  - exact (R 0%nat ltac:(repeat constructor)).
  - exact (R 1%nat ltac:(repeat constructor)).
  - exact (R 2%nat ltac:(repeat constructor)).
Qed.

(** ** hashes *)
Definition round_constant (r j : nat) : Fr := fr (nth (3 * r + j) round_constants 0).
Definition capacity : Fr := fr (2 * 2 ^ 64).
Lemma spec_rc sp : P128Pow5T3Bn = Some sp -> forall r, (r < 64)%nat -> nth_error (rcs sp) r = Some (tab3 (round_constant r)).
Proof.
  intros H r Lr. destruct (spec_inv sp H) as (_ & _ & _ & Erc & _). rewrite Erc.
  Transparent ROUND_CONSTANTS. unfold ROUND_CONSTANTS. Opaque ROUND_CONSTANTS.
  rewrite (map_nth_error (fun i => tab3 (fun j => fr (nth (i * 3 + j) round_constants 0))) r (seq 0 65) (d := r)).
  - unfold round_constant. rewrite (Nat.mul_comm 3 r). reflexivity.
  - rewrite (nth_error_nth' (seq 0 65) 0%nat) by (rewrite seq_length; lia). rewrite seq_nth by lia. reflexivity.
Qed.
Lemma capacity_def : capacity_2 = capacity.
Proof. Transparent capacity_2. reflexivity. Opaque capacity_2. Qed.

(** in a satisfied circuit, of any number of rows, a hash region holds the library's hash of its inputs *)
Theorem C63_hash : forall n c insts advice x y i a b,
  satisfied Fr mds_at mds_inv_at limb_tag n c insts advice -> hash_region Fr n c round_constant capacity x y i a b ->
  poseidon_hash (value Fr n c insts advice x) (value Fr n c insts advice y) = Some (value Fr n c insts advice (hash_output b)).
Proof.
  intros n c insts advice x y i a b S H. destruct C46_builds as (sp & Hsp & H8 & H56 & _). destruct (spec_inv sp Hsp) as (E & _).
  unfold poseidon_hash. rewrite Hsp. cbn [option_map]. f_equal. rewrite capacity_def. symmetry.
  exact (hash_run Fr sp H8 H56 E mds_at mds_inv_at (fun i j Li Lj => proj1 (C63_matrices sp Hsp i j Li Lj)) (fun i j Li Lj => proj2 (C63_matrices sp Hsp i j Li Lj))
    round_constant (spec_rc sp Hsp) n limb_tag c insts advice S capacity x y i a b H).
Qed.

(** conversely such regions can be filled, whatever the inputs: the circuit that is one region, with its inputs and its output copied to the
    instance, is satisfiable exactly when the third instance is the hash of the first two *)
Theorem C63_hash_circuit : forall n insts, (50 <= n)%nat ->
  (hash_region Fr n (hash_circuit Fr round_constant capacity) round_constant capacity (5, 0)%nat (5, 1)%nat 0 1 4 /\
   linked Fr n (hash_circuit Fr round_constant capacity) (hash_output 4) (5, 2)%nat) /\
  ((exists advice, satisfied Fr mds_at mds_inv_at limb_tag n (hash_circuit Fr round_constant capacity) insts advice) <->
   poseidon_hash (nth 0 insts f0) (nth 1 insts f0) = Some (nth 2 insts f0)).
Proof.
  intros n insts Ln. split; [split; [apply hash_layout; exact Ln|apply hash_out; exact Ln]|].
  destruct C46_builds as (sp & Hsp & H8 & H56 & _). destruct (spec_inv sp Hsp) as (E & _).
  pose proof (hash_sat_iff Fr round_constant capacity n Ln sp H8 H56 E mds_at mds_inv_at (fun i j Li Lj => proj1 (C63_matrices sp Hsp i j Li Lj)) (fun i j Li Lj => proj2 (C63_matrices sp Hsp i j Li Lj))
    (spec_rc sp Hsp) (nth 0 insts f0) (nth 1 insts f0) limb_tag insts eq_refl eq_refl) as R.
  rewrite R. unfold poseidon_hash. rewrite Hsp. cbn [option_map]. rewrite capacity_def. split; [intros ->; reflexivity|intros Q; exact (eq_sym (f_equal (fun o => match o with Some v => v | None => f0 end) Q))].
Qed.

(** ** the verifier and hashes *)
Section Verified.
  Variable d : nat.
  Hypothesis d_ok : (3 <= d <= 28)%nat.
  Notation rows := (rows d).
  Variables omega n_inv : Fr.
  Hypothesis omega_half : fpow omega (2 ^ (N.of_nat d - 1)) = (fopp f1 : Fr).
  Hypothesis n_inv_ok : (n_inv * fr (2 ^ Z.of_nat d) = 1 :> Fr)%fld.
  Variable pairing : list (G1 * G2c) -> bool.
  Hypothesis HP : pairing_ok pairing.
  (** a circuit with a hash region whose inputs and output are copied to the instance: whatever the advice, proofs for instances that are not a
      hash are rejected, but for few challenges and secrets *)
  Theorem C63_wrong_hash_rejected : forall c fx sg insts adv i a b k0 k1 k2,
    circuit_ok Fr rows c -> describes Fr rows omega delta c fx sg -> (length insts <= rows)%nat -> (forall j, short Fr rows (adv j)) ->
    hash_region Fr rows c round_constant capacity (5, k0)%nat (5, k1)%nat i a b -> linked Fr rows c (hash_output b) (5, k2)%nat ->
    poseidon_hash (nth k0 insts f0) (nth k1 insts f0) <> Some (nth k2 insts f0) ->
    all_but_few d adv (fun m h evals w w' ch s => forall k, made_from (length insts) d omega n_inv s fx sg k ->
      generic k ch /\ ~ verifies k insts (proof_of s m h evals w w') ch pairing).
  Proof.
    intros c fx sg insts adv i a b k0 k1 k2 Hc Hd Hi Ha Hr Hl Hn.
    apply (C61_soundness d d_ok omega n_inv omega_half n_inv_ok c Hc fx sg Hd insts Hi adv Ha pairing HP).
    intros S. apply Hn. pose proof (C63_hash rows c insts _ _ _ i a b S Hr) as R.
    rewrite (linked_value Fr mds_at mds_inv_at rows limb_tag c insts _ S _ _ Hl) in R. exact R.
  Qed.
  (** the circuit that is one region: proofs for a hash can be made, for all but few challenges, and no others *)
  Theorem C63_hash_verified : (6 <= d)%nat -> exists fx sg, describes Fr rows omega delta (hash_circuit Fr round_constant capacity) fx sg /\
    forall insts, (length insts <= rows)%nat ->
    (poseidon_hash (nth 0 insts f0) (nth 1 insts f0) = Some (nth 2 insts f0) ->
     exists adv, (forall j, short Fr rows (adv j)) /\ can_answer d adv (fun m h evals w w' ch s => forall k, made_from (length insts) d omega n_inv s fx sg k ->
       generic k ch /\ verifies k insts (proof_of s m h evals w w') ch pairing)) /\
    (poseidon_hash (nth 0 insts f0) (nth 1 insts f0) <> Some (nth 2 insts f0) ->
     forall adv, (forall j, short Fr rows (adv j)) -> all_but_few d adv (fun m h evals w w' ch s => forall k, made_from (length insts) d omega n_inv s fx sg k ->
       generic k ch /\ ~ verifies k insts (proof_of s m h evals w w') ch pairing)).
  Proof.
    intros D6. assert (R50 : (50 <= rows)%nat).
    { rewrite rows_pow. apply (Nat.le_trans _ (2 ^ 6)); [cbn; repeat constructor|]. apply Nat.pow_le_mono_r; [discriminate|exact D6]. }
    assert (R7 : (6 < rows)%nat) by (apply (Nat.lt_le_trans _ 50); [lia|exact R50]).
    set (hc := hash_circuit Fr round_constant capacity).
    assert (Hc : circuit_ok Fr rows hc) by (apply hash_ok; exact R50).
    assert (Hcy : cycles Fr rows hc) by (apply hash_cycles; exact R50).
    assert (Hfx : forall j i, (23 <= j)%nat -> fixed Fr hc j i = f0).
    { intros j i L. do 23 (destruct j as [|j]; [exfalso; lia|]). reflexivity. }
    destruct (described Fr rows R7 omega n_inv delta (omega_rows d d_ok _ omega_half) (omega_rows_inj d d_ok _ omega_half) (n_inv_rows d _ n_inv_ok) hc Hfx) as (fx & sg & Hd).
    exists fx, sg. split; [exact Hd|]. intros insts Hi. split.
    - intros Hh. apply (proj2 (proj2 (C63_hash_circuit rows insts R50))) in Hh. destruct Hh as (advice & S).
      destruct (cols_exist Fr rows omega n_inv R7 (omega_rows d d_ok _ omega_half) (omega_rows_inj d d_ok _ omega_half) (n_inv_rows d _ n_inv_ok) 5 advice) as (adv & A1 & A2).
      exists adv. split; [exact A1|].
      apply (C62_completeness d d_ok omega n_inv omega_half n_inv_ok hc Hc Hcy fx sg Hd insts Hi adv A1 pairing HP).
      apply (sat_ext Fr mds_at mds_inv_at limb_tag rows R7 hc Hc insts advice); [|exact S].
      intros j i Lj Li. symmetry. apply A2; assumption.
    - intros Hn adv Ha. destruct (proj1 (C63_hash_circuit rows insts R50)) as (Hr & Hl).
      exact (C63_wrong_hash_rejected hc fx sg insts adv 0%nat 1%nat 4%nat 0%nat 1%nat 2%nat Hc Hd Hi Ha Hr Hl Hn).
  Qed.
End Verified.

(** ** the main gate *)
Section MainRow.
  Variable K : Fld.
  Add Field Kg : (flaw K).
  Open Scope fld_scope.
  (** a row that holds the values [vs], with the coefficients [cs] of the cells, [opt] of the two products and [const]; the next row's cell is
      not used *)
  Definition main_row (e : col -> rot -> K) (cs vs : list K) (const : K) (opt : K * K) : Prop :=
    (forall i, (i < 5)%nat -> e (Adv i) Cur = nth i vs 0 /\ e (Fix_ i) Cur = nth i cs 0) /\
    e (Fix_ 5) Cur = fst opt /\ e (Fix_ 6) Cur = snd opt /\ e (Fix_ 7) Cur = 0 /\ e (Fix_ 8) Cur = const.
  (** the verifier's gate on such a row is the row equation of the circuit model *)
  Theorem C63_row : forall e cs vs const opt, main_row e cs vs const opt -> (main_gate K e = 0 <-> row K cs vs const opt).
  Proof.
    intros e cs vs const opt (V & P1 & P2 & P3 & P4). unfold row.
    match goal with |- _ <-> ?R = 0 => assert (Eq : main_gate K e = R) end.
    { unfold main_gate, a, f. rewrite !(fun i L => proj1 (V i L)), !(fun i L => proj2 (V i L)) by lia. rewrite P1, P2, P3, P4. ring. }
    rewrite Eq. reflexivity.
  Qed.
  (** and its instructions are rows: the result cell is constrained as the model says, however the other cells are filled *)
  Theorem C63_instructions : forall (e : col -> rot -> K) (u v w z : K),
    (main_row e [1; 1; - (1)] [u; v; z] 0 (0, 0) -> (main_gate K e = 0 <-> sem (add u v) z)) /\
    (main_row e [1; - (1); - (1)] [u; v; z] 0 (0, 0) -> (main_gate K e = 0 <-> sem (sub u v) z)) /\
    (main_row e [0; 0; - (1)] [u; v; z] 0 (1, 0) -> (main_gate K e = 0 <-> sem (mul u v) z)) /\
    (main_row e [0; 0; 1; 0; - (1)] [u; v; w; 0; z] 0 (1, 0) -> (main_gate K e = 0 <-> sem (mul_add u v w) z)) /\
    (main_row e [1; - (1)] [u; z] w (0, 0) -> (main_gate K e = 0 <-> sem (add_constant u w) z)) /\
    (main_row e [- (1); - (1)] [u; z] w (0, 0) -> (main_gate K e = 0 <-> sem (neg_with_constant u w) z)) /\
    (main_row e [0; 0] [u; z] (- (1)) (1, 0) -> (main_gate K e = 0 <-> sem (invert_unsafe u) z)) /\
    (main_row e [- (1)] [z] u (0, 0) -> (main_gate K e = 0 <-> sem (assign_constant u) z)) /\
    (main_row e [0; 0; - (1)] [z; z; z] 0 (1, 0) -> (main_gate K e = 0 <-> sem (assign_bit u) z)) /\
    (main_row e [0; 0; 1; 0; - (1)] [w; u; v; w; z] 0 (1, - (1)) -> (main_gate K e = 0 <-> sem (select u v w) z)).
  Proof.
    intros e u v w z.
    assert (G : forall cs vs const opt (p : K) (P : K -> Prop), (row K cs vs const opt <-> P z) ->
      main_row e cs vs const opt -> (main_gate K e = 0 <-> sem (Cell K p P (fun x => Ret x)) z)).
    { intros cs vs const opt p P Q R. rewrite (C63_row e cs vs const opt R), Q. cbn [sem].
      split; [intros H; exists z; split; [exact H|reflexivity]|intros (x & Hx & ->); exact Hx]. }
    assert (Z : forall s t : K, s = t -> (s = 0 <-> t = 0)) by (intros s t ->; reflexivity).
    assert (Y : forall l s t : K, l = s - t -> (l = 0 <-> s = t)).
    { intros l s t ->. split; [intros E; exact (fsub_eq0 K _ _ E)|intros ->; ring]. }
    split; [|split; [|split; [|split; [|split; [|split; [|split; [|split; [|split]]]]]]]]; apply G; unfold row; cbn [nth fst snd].
    1-7: apply Z; ring.
    - transitivity (u = z); [apply Y; ring|split; intros E; exact (eq_sym E)].
    - apply Y. ring.
    - apply Z. ring.
  Qed.
End MainRow.

Print Assumptions C63_matrices.
Print Assumptions C63_hash.
Print Assumptions C63_hash_circuit.
Print Assumptions C63_wrong_hash_rejected.
Print Assumptions C63_hash_verified.
Print Assumptions C63_row.
Print Assumptions C63_instructions.
