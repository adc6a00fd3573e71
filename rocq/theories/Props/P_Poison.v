(** C42, the other direction of the encoding: the circuit accepts instances whose coordinates are not reduced, which the
    client decodes but the contract's key computation always refuses. *)
From Coq Require Import ZArith Znumtheory String List Bool Lia.
From Verif.Base Require Import Fermat Fld Fp EC Primes Curves Group Fq2.
From Verif.Model Require Import Monad Evm Points Dkg Lib Circ IntegerChip DkgCircuit PairingSol GppSol.
From Verif.Spec Require Import Dvrf CircuitSpec Accepts Onchain.
From Verif.Proofs Require Import DkgProofs DvrfProofs SvdwProofs CircuitPoints DkgCircuitProofs Exceptional DkgComplete Rare InstanceProofs OnchainProofs DkgDecode CircuitClient DkgSat Malicious.
From Verif.Props Require Import P_Circuit.
Import ListNotations.
Open Scope Z_scope.

Lemma coord_honest (a : Fq) : coord_encodes a (coord_to_public a).
Proof. rewrite <- wrapv_reduced. exact (proj1 (reduced_encodes _ a (reduced_ok a))). Qed.
Lemma coord_shifted (a : Fq) : val_q a + q_mod < 2 ^ 254 ->
  coord_encodes a [fr ((val_q a + q_mod) mod 2 ^ 136); fr ((val_q a + q_mod) / 2 ^ 136)].
Proof.
  intros H. pose proof (fval_range q_mod a eq_refl : 0 <= val_q a < q_mod) as B. exists (val_q a + q_mod).
  split; [clear -H B; lia|]. split; [|reflexivity]. rewrite <- (of_Z_fval q_mod a) at 2. unfold fq. apply of_Z_eq.
  - fold (val_q a). replace (val_q a + q_mod) with (val_q a + 1 * q_mod) by ring. rewrite Z_mod_plus_full. reflexivity.
Qed.
Lemma g1_honest (P : G1) : P <> g0 -> g1_encodes P (coord_to_public (fst (xy P)) ++ coord_to_public (snd (xy P))).
Proof. intros N. split; [exact N|]. eexists. eexists. split; [reflexivity|]. split; apply coord_honest. Qed.
Lemma g2_honest (P : G2c) : P <> g0 -> exists l, g2_encodes P l.
Proof.
  intros N. eexists. split; [exact N|]. do 4 eexists. split; [reflexivity|]. repeat split; apply coord_honest.
Qed.
Lemma reachable_neq0 {G : Grp} (P aux : G) s : zmul r_mod P = g0 -> reachable P aux s -> zmul (fval (s : Fp r_mod)) P <> g0.
Proof.
  intros O (z & _ & <- & E) H. apply E. right. right. right. rewrite <- H. unfold fr. rewrite (fval_of_Z r_mod z).
  symmetry. apply (zmul_mod G r_mod z P); [discriminate|exact O].
Qed.

Section Reverts.
  Variable in_g2 : G2c -> bool.
  Variable pairing : list (G1 * G2c) -> bool.
  Lemma foldM_stuck {A S} (f : S -> A -> res S) a l1 l2 : (forall s r, f s a <> Ok r) -> forall s r, foldM f s (l1 ++ a :: l2) <> Ok r.
  Proof.
    intros H. induction l1 as [|b l1 IH]; intros s r; cbn [app foldM].
    - destruct (f s a) eqn:E; cbn [bind]; try discriminate. exfalso. exact (H _ _ E).
    - destruct (f s b); cbn [bind]; try discriminate. apply IH.
  Qed.
  Lemma sum_stuck inst l1 l2 : (forall acc r, (let* s := cslice inst 0 POINT_LEN in let* p := readBnG1 s in addition acc p) <> Ok r) ->
    forall r, sum_points (l1 ++ inst :: l2) 0 POINT_LEN <> Ok r.
  Proof. intros H r. unfold sum_points. apply foldM_stuck. exact H. Qed.
  Lemma gpp_stuck inst l1 l2 m gpk : (forall acc r, (let* s := cslice inst 0 POINT_LEN in let* p := readBnG1 s in addition acc p) <> Ok r) ->
    forall r, createGpp in_g2 pairing m gpk (l1 ++ inst :: l2) <> Ok r.
  Proof.
    intros H r. unfold createGpp. set (l := l1 ++ inst :: l2) in *.
    destruct (require (Z.of_nat (length l) <=? m) "too many instances"); cbn [bind]; try discriminate.
    destruct (mul32 4 m); cbn [bind]; try discriminate. destruct (add32 a0 4); cbn [bind]; try discriminate.
    match goal with |- bind ?x _ <> _ => destruct x; cbn [bind]; try discriminate end.
    pose proof (sum_stuck inst l1 l2 H) as X. fold l in X. destruct (sum_points l 0 POINT_LEN); cbn [bind]; try discriminate. exfalso. exact (X _ eq_refl).
  Qed.
End Reverts.
Lemma add_refused acc z y : q_mod <= z -> forall r, addition acc (z, y) <> Ok r.
Proof.
  intros Hz r. unfold addition, decode, canon. cbn [fst snd]. destruct (Z.leb_spec 0 z), (Z.ltb_spec z q_mod); cbn [andb]; try lia;
    destruct (if _ && _ then _ else _); discriminate.
Qed.
Lemma slice_point (a b c d : Fr) rest : cslice (map val_r ([a; b; c; d] ++ rest)) 0 POINT_LEN = Ok [val_r a; val_r b; val_r c; val_r d].
Proof.
  unfold cslice. cbn [app map]. replace (Z.of_nat (length (val_r a :: val_r b :: val_r c :: val_r d :: map val_r rest))) with (4 + Z.of_nat (length (map val_r rest))) by (cbn [length]; lia).
  unfold POINT_LEN. destruct (Z.leb_spec 4 (4 + Z.of_nat (length (map val_r rest)))); [|lia]. reflexivity.
Qed.
Lemma val_small z : 0 <= z < 2 ^ 136 -> val_r (fr z) = z.
Proof. intros H. change (val_r (fr z)) with (z mod r_mod). apply Z.mod_small. pose proof B_r. lia. Qed.
(** the contract cannot add a point whose x coordinate is encoded by x + q *)
Lemma shifted_refused (x : Fq) (ly : list Fr) (y : Fq) rest acc : coord_encodes y ly -> val_q x + q_mod < 2 ^ 254 ->
  let lx := [fr ((val_q x + q_mod) mod 2 ^ 136); fr ((val_q x + q_mod) / 2 ^ 136)] in
  forall r, (let* s := cslice (map val_r ((lx ++ ly) ++ rest)) 0 POINT_LEN in let* p := readBnG1 s in addition acc p) <> Ok r.
Proof.
  intros (zy & By & _ & ->) H lx r. pose proof (fval_range q_mod x eq_refl : 0 <= val_q x < q_mod) as B.
  set (z := val_q x + q_mod) in *. assert (Bz : 0 <= z < 2 ^ 254) by (clear -B H; unfold z in *; lia).
  assert (Qz : q_mod <= z) by (clear -B; unfold z; lia). clearbody z. clear B.
  assert (R : forall u, 0 <= u < 2 ^ 254 -> 0 <= u mod 2 ^ 136 < 2 ^ 136 /\ 0 <= u / 2 ^ 136 < 2 ^ 118 /\ u / 2 ^ 136 * 2 ^ 136 + u mod 2 ^ 136 = u).
  { clear. intros u Hu. split; [apply Z.mod_pos_bound; reflexivity|]. split.
    - split; [apply Z.div_pos; [apply Hu|reflexivity]|]. apply Z.div_lt_upper_bound; [reflexivity|]. exact (proj2 Hu).
    - pose proof (Z.div_mod u (2 ^ 136) ltac:(discriminate)). lia. }
  destruct (R z Bz) as (R1 & R2 & R3). destruct (R zy By) as (S1 & S2 & S3). clear R.
  unfold lx. change (([?a; ?b] ++ [?c; ?d]) ++ rest) with ([a; b; c; d] ++ rest).
  rewrite slice_point. cbn [bind].
  assert (U : forall u, 0 <= u < 2 ^ 118 -> 0 <= u < 2 ^ 136) by (clear; intros u Hu; assert (2 ^ 118 < 2 ^ 136) by reflexivity; lia).
  rewrite (val_small _ R1), (val_small _ (U _ R2)), (val_small _ S1), (val_small _ (U _ S2)).
  assert (M : forall u, u < 2 ^ 254 -> u < M256) by (clear; intros u Hu; assert (2 ^ 254 < M256) by reflexivity; lia).
  rewrite readBnG1_eq; [|exact (proj1 R1)|exact (proj1 R2)|exact (proj1 S1)|exact (proj1 S2)|rewrite R3; exact (M z (proj2 Bz))|rewrite S3; exact (M zy (proj2 By))].
  cbn [bind]. rewrite R3. apply add_refused. exact Qz.
Qed.

Theorem C42_poison poseidon aux1 aux2 cfg coeffs rs pks :
  1 <= threshold cfg -> 1 <= number_of_members cfg < 2 ^ 200 -> table_assignable (g1 : G1) aux1 -> table_assignable (g2 : G2c) aux2 ->
  zlen coeffs = threshold cfg -> zlen pks = number_of_members cfg -> dealing_reachable aux1 aux2 coeffs (number_of_members cfg) ->
  rs <> f0 -> Forall (fun pk : Gk => pk <> g0) pks ->
  val_q (fst (xy (g1mul g1 (poly_at coeffs f0) : G1))) + q_mod < 2 ^ 254 ->
  exists inst, dealing_instance poseidon coeffs rs pks inst /\ accepts poseidon aux1 aux2 cfg inst /\ from_instance cfg inst = Ok (dealt_params poseidon coeffs rs pks, pks) /\
    forall in_g2 pairing m gpk before after keys, createGpp in_g2 pairing m gpk (before ++ map val_r inst :: after) <> Ok keys.
Proof.
  intros Ht Hn T1 T2 Lc Lp R Nr Fp_ Hx. pose proof R as (R0 & R20 & Ri). change (fr 0) with (f0 : Fr) in R0, R20.
  assert (NG : gkmul gk rs <> (g0 : Gk)).
  { intros Z0. apply Nr. apply (smul_inj Gk q_mod q_prime Gk_exponent rs (f0 : Fq) gk gk_neq0). etransitivity; [exact Z0|]. reflexivity. }
  assert (N0 : g1mul g1 (poly_at coeffs f0) <> (g0 : G1)) by exact (reachable_neq0 (G := G1) g1 aux1 _ g1_order R0).
  assert (N20 : g2mul g2 (poly_at coeffs f0) <> (g0 : G2c)) by exact (reachable_neq0 (G := G2c) g2 aux2 _ g2_order R20).
  assert (NI : forall i, In i (zseq (length pks)) -> g1mul g1 (poly_at coeffs (fr i)) <> (g0 : G1)).
  { intros i Hi. apply in_zseq in Hi. apply (reachable_neq0 (G := G1) g1 aux1 _ g1_order). apply Ri. unfold zlen in Lp. clear -Lp Hi. lia. }
  set (P := g1mul g1 (poly_at coeffs f0)) in *. set (x := fst (xy P)) in *.
  set (lga := [fr ((val_q x + q_mod) mod 2 ^ 136); fr ((val_q x + q_mod) / 2 ^ 136)] ++ coord_to_public (snd (xy P))).
  destruct (g2_honest _ N20) as (lg2 & E2).
  assert (E1 : g1_encodes P lga).
  { split; [exact N0|]. eexists. eexists. split; [reflexivity|]. split; [exact (coord_shifted x Hx)|apply coord_honest]. }
  set (lgs := map (fun i => let Q := g1mul g1 (poly_at coeffs (fr i)) in coord_to_public (fst (xy Q)) ++ coord_to_public (snd (xy Q))) (zseq (length pks))).
  assert (ES : Forall2 (fun i l => g1_encodes (g1mul g1 (poly_at coeffs (fr i))) l) (zseq (length pks)) lgs).
  { unfold lgs. clear -NI. induction (zseq (length pks)) as [|i l IH]; cbn [map]; constructor; [apply g1_honest, NI; left; reflexivity|]. apply IH. intros j Hj. apply NI. right; exact Hj. }
  set (rest := concat lgs ++ lg2 ++ gk_coords (gkmul gk rs) ++ map (fun '(i, pk) => (poly_at coeffs (fr i) + poseidon (fst (xy (gkmul pk rs))) (snd (xy (gkmul pk rs))))%fld) (combine (zseq (length pks)) pks) ++ flat_map gk_coords pks).
  assert (D : dealing_instance poseidon coeffs rs pks (lga ++ rest)).
  { exists lga, lgs, lg2. split; [reflexivity|]. split; [exact E1|]. split; [exact ES|]. split; [exact E2|]. split; [exact NG|exact Fp_]. }
  exists (lga ++ rest). split; [exact D|]. split; [|split].
  - apply (C42_exact poseidon aux1 aux2 cfg _ Ht Hn). split; [exact T1|]. split; [exact T2|]. exists coeffs, rs, pks. split; [exact Lc|]. split; [exact Lp|]. split; [exact D|exact R].
  - exact (dealing_decodes poseidon cfg coeffs rs pks _ D Lp).
  - intros in_g2 pairing m gpk before after keys. apply gpp_stuck. intros acc r. unfold lga.
    exact (shifted_refused x (coord_to_public (snd (xy P))) (snd (xy P)) rest acc (coord_honest _) Hx r).
Qed.

(** ** such dealings exist: for every threshold, number of members and keys the constant polynomial 1 *)
Section Const.
  Variable K : Fld.
  Add Field KfPoison : (flaw K).
  Lemma const_zero (x : K) : (f0 + x * f0)%fld = f0. Proof. ring. Qed.
  Lemma const_one (x : K) : (f1 + x * f0)%fld = f1. Proof. ring. Qed.
End Const.
Lemma const_poly k (x : Fr) : poly_at (f1 :: repeat f0 k) x = f1.
Proof.
  rewrite poly_at_peval. cbn [Poly.peval]. assert (E : Poly.peval (repeat (f0 : Fr) k) x = f0).
  { induction k as [|k IH]; cbn [repeat Poly.peval]; [reflexivity|]. rewrite IH. apply (const_zero Fr). }
  rewrite E. apply (const_one Fr).
Qed.
Section Half.
  Variable G : Grp.
  Lemma halve (A : G) : zmul r_mod A = g0 -> zmul ((r_mod + 1) / 2) (A ⊕ A)%grp = A.
  Proof.
    intros O. rewrite zmul_gadd, <- zmul_add. change ((r_mod + 1) / 2 + (r_mod + 1) / 2) with (r_mod + 1). rewrite zmul_add, O, g0_l.
    apply (zmul_1 G).
  Qed.
  (** for all but 15 auxiliary points of order r the tables exist and the scalar 1 is regular *)
  Lemma one_regular (P : G) : P <> g0 -> zmul r_mod P = g0 -> exists aux, table_assignable P aux /\ reachable P aux f1.
  Proof.
    intros NP O. set (lo := lo_part 1). set (hi := hi_part 1).
    destruct (avoid (G := G) (bad_aux G P ++ [zmul (lo - hi) P; (⊖ zmul (lo + hi) P)%grp; zmul ((r_mod + 1) / 2) (zmul (1 - 2 * (lo + hi)) P)]) (map (fun i => zmul i P) (zseq 16))) as (A & IA & NA).
    { apply (multiples_NoDup (G := G) P r_mod); [exact r_prime|exact NP|exact O|reflexivity]. }
    { rewrite map_length, length_zseq, app_length. unfold bad_aux. rewrite app_length, !map_length. cbn [length]. lia. }
    assert (OA : zmul r_mod A = g0).
    { apply in_map_iff in IA as (i & <- & _). rewrite (zmul_comm G r_mod i P), O. apply zmul_g0. }
    exists A. rewrite in_app_iff in NA. split.
    - apply (bad_aux_iff G P A OA). intros I. apply NA. left. exact I.
    - exists 1. split; [split; [discriminate|reflexivity]|]. split; [reflexivity|]. unfold exceptional. fold lo hi. clearbody lo hi.
      intros [E|[E|[E|E]]]; try apply NA; [right; left; exact E|right; right; left|right; right; right; left|].
      + rewrite E. apply gopp_inv.
      + rewrite E. exact (halve A OA).
      + pose proof (zmul_order G r_mod P 1 r_prime NP O E) as D. apply Z.divide_1_r in D. destruct D as [D|D]; discriminate D.
  Qed.
End Half.
Theorem C42_poison_exists poseidon cfg (rs : Fq) (pks : list Gk) : 1 <= threshold cfg -> 1 <= number_of_members cfg < 2 ^ 200 ->
  zlen pks = number_of_members cfg -> rs <> f0 -> Forall (fun pk : Gk => pk <> g0) pks ->
  exists (aux1 : G1) (aux2 : G2c) (inst : list Fr), table_assignable (g1 : G1) aux1 /\ table_assignable (g2 : G2c) aux2 /\
    accepts poseidon aux1 aux2 cfg inst /\ (exists pp, from_instance cfg inst = Ok (pp, pks)) /\
    forall in_g2 pairing m gpk before after keys, createGpp in_g2 pairing m gpk (before ++ map val_r inst :: after) <> Ok keys.
Proof.
  intros Ht Hn Lp Nr F.
  destruct (one_regular G1 g1 g1_neq0 g1_order) as (aux1 & T1 & R1). destruct (one_regular G2c g2 g2_neq0 g2_order) as (aux2 & T2 & R2).
  set (coeffs := (f1 : Fr) :: repeat f0 (Z.to_nat (threshold cfg - 1))).
  assert (V : forall x, poly_at coeffs x = f1) by (intros x; apply const_poly).
  destruct (C42_poison poseidon aux1 aux2 cfg coeffs rs pks Ht Hn T1 T2) as (inst & _ & A & B & C).
  - unfold coeffs, zlen. cbn [length]. rewrite repeat_length. clear -Ht. lia.
  - exact Lp.
  - unfold dealing_reachable. rewrite V. split; [exact R1|]. split; [exact R2|]. intros i _. rewrite V. exact R1.
  - exact Nr.
  - exact F.
  - rewrite V. assert (E : g1mul g1 f1 = g1) by exact (smul_1 G1 r_mod r_prime G1_exponent g1). rewrite E. reflexivity.
  - exists aux1, aux2, inst. split; [exact T1|]. split; [exact T2|]. split; [exact A|]. split; [|exact C]. eexists. exact B.
Qed.
