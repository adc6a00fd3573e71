(** Proofs about src/dkg.rs and src/lib.rs. *)
From Coq Require Import ZArith Znumtheory String List Lia Bool Ring Field Permutation.
From Verif.Base Require Import Fermat Primes Fld Fp EC Curves Group Poly.
From Verif.Model Require Import Monad Evm Strings Points HashEvm Dkg Lib.
From Verif.Spec Require Import Dvrf.
From Verif.Proofs Require Import HashProofs.
Import ListNotations.
Open Scope Z_scope.

(** * monad helpers *)
Lemma mapM_ok {A B} (f : A -> res B) (g : A -> B) l : (forall a, In a l -> f a = Ok (g a)) -> mapM f l = Ok (map g l).
Proof.
  induction l as [|a l IH]; intros H; cbn [mapM map]; auto. rewrite H by (left; auto). cbn [bind].
  rewrite IH by (intros; apply H; right; auto). auto.
Qed.
Lemma foldM_ok {A S} (f : S -> A -> res S) (g : S -> A -> S) l : forall s, (forall s a, In a l -> f s a = Ok (g s a)) -> foldM f s l = Ok (fold_left g l s).
Proof.
  induction l as [|a l IH]; intros s H; cbn [foldM fold_left]; auto. rewrite H by (left; auto). cbn [bind].
  apply IH. intros; apply H; right; auto.
Qed.
Lemma mapM_inv {A B} (f : A -> res B) l : forall l', mapM f l = Ok l' -> Forall2 (fun a b => f a = Ok b) l l'.
Proof.
  induction l as [|a l IH]; intros l' H; cbn [mapM] in H; [injection H as <-; constructor|].
  apply bind_ok in H as (b & H1 & H). apply bind_ok in H as (bs & H2 & H). injection H as <-. constructor; auto.
Qed.
Lemma get_ok {A} (l : list A) i a : 0 <= i -> nth_error l (Z.to_nat i) = Some a -> get l i = Ok a.
Proof. intros H E. unfold get. rewrite (proj2 (Z.ltb_ge i 0)) by auto. rewrite E. auto. Qed.
Lemma get_inv {A} (l : list A) i a : get l i = Ok a -> 0 <= i /\ nth_error l (Z.to_nat i) = Some a.
Proof.
  unfold get. destruct (Z.ltb_spec i 0); [discriminate|]. destruct (nth_error l (Z.to_nat i)); [|discriminate]. intros E. injection E as <-. auto.
Qed.
Lemma get_map {A B} (f : A -> B) l i : get (map f l) i = let* a := get l i in Ok (f a).
Proof.
  unfold get. destruct (i <? 0); auto. rewrite nth_error_map. destruct (nth_error l (Z.to_nat i)); auto.
Qed.
Lemma get_zseq n i : 1 <= i <= Z.of_nat n -> get (zseq n) (i - 1) = Ok i.
Proof.
  intros H. apply get_ok; [lia|]. unfold zseq. rewrite nth_error_map.
  assert (L : (Z.to_nat (i - 1) < length (seq 1 n))%nat) by (rewrite seq_length; lia).
  rewrite (nth_error_nth' _ 0%nat L), seq_nth by (rewrite seq_length in L; lia). cbn [option_map]. f_equal. lia.
Qed.

(** * generic field identities *)
Section PolyIds.
  Variable K : Fld.
  Open Scope fld_scope.
  Add Field KfD : (flaw K).
  Lemma eval_loop (x : K) l : forall e p : K,
    fst (fold_left (fun '(eval, prod) a => (eval + a * prod, prod * x)) l (e, p)) = e + p * peval l x.
  Proof. induction l as [|a l IH]; intros e p; cbn [fold_left peval fst]; [ring|]. rewrite IH. ring. Qed.
  Lemma peval_at1 (l : list K) : peval l 1 = fsum l.
  Proof. induction l as [|a l IH]; cbn [peval]; [reflexivity|]. rewrite fsum_cons, IH. ring. Qed.
  Lemma fold_sum (l : list K) : fold_left fadd l 0 = fsum l.
  Proof. rewrite fold_left_fadd. ring. Qed.
  Lemma add_0_l (x : K) : 0 + x = x. Proof. ring. Qed.
  Lemma pad_cancel (k s : K) : k + s - k = s. Proof. ring. Qed.
  Lemma pad_diff (k k' s : K) : k + s - k' = s + (k - k'). Proof. ring. Qed.
  Lemma num_den (x : K) i l : forall n d : K,
    fold_left (fun '(num, den) k => if negb (feqb k i) then (num * k, den * (k - i)) else (num, den)) l (n, d)
    = (n * fprod (others l i), d * fprod (map (fun k => k - i) (others l i))).
  Proof.
    induction l as [|a l IH]; intros n d; cbn [fold_left].
    - unfold others. cbn [filter map]. rewrite fprod_nil. f_equal; ring.
    - unfold others. cbn [filter]. destruct (negb (feqb a i)); rewrite IH; auto.
      fold (others l i). cbn [map]. rewrite !fprod_cons. f_equal; ring.
  Qed.
  Lemma peval_fsum {A} (f : A -> list K) l x : forall t, (forall a, In a l -> length (f a) = t) ->
    peval (fold_right (fun a acc => padd (f a) acc) [] l) x = fsum (map (fun a => peval (f a) x) l).
  Proof. intros t H. induction l as [|a l IH]; cbn [fold_right map]; [reflexivity|]. rewrite peval_padd, fsum_cons, IH; auto. intros; apply H; right; auto. Qed.
  Lemma psum_length {A} (f : A -> list K) l : forall t, (forall a, In a l -> length (f a) = t) ->
    (length (fold_right (fun a acc => padd (f a) acc) [] l) <= t)%nat.
  Proof.
    intros t H. induction l as [|a l IH]; cbn [fold_right]; [cbn; lia|]. rewrite padd_length, H by (left; auto).
    specialize (IH (fun b Hb => H b (or_intror Hb))). lia.
  Qed.
  Lemma lag_0 xs a : lag xs 0 a = fprod (others xs a) * finv (fprod (map (fun k => k - a) (others xs a))) :> K.
  Proof.
    unfold lag, den. f_equal. f_equal. rewrite <- (map_id (others xs a)) at 2. apply map_ext. intros k. ring.
  Qed.
  Lemma z_times (z c s r : K) : z = c * s + r -> z - c * s = r.
  Proof. intros ->. ring. Qed.
  Lemma poly_step (a p x e : K) : a * p + x * p * e = p * (a + x * e). Proof. ring. Qed.
  Lemma mul_0_r (x : K) : x * 0 = 0. Proof. ring. Qed.
  Lemma mul_comm (x y : K) : x * y = y * x. Proof. ring. Qed.
  Lemma pairing_id (h x s : K) : - h * s + (x * 1 + 0) = 0 <-> x = h * s.
  Proof. split; [intros E; apply fsub_eq0; rewrite <- E; ring|intros ->; ring]. Qed.
  Lemma mul_1_l (x : K) : 1 * x = x. Proof. ring. Qed.
  Lemma lag0_prod {A} (f : A -> K) (x : K) l : (forall a, In a l -> f a - x <> 0) ->
    fprod (map (fun a => f a * finv (f a - x)) l) = fprod (map f l) * finv (fprod (map (fun a => f a - x) l)).
  Proof.
    induction l as [|a l IH]; intros H; cbn [map]; rewrite ?fprod_nil, ?fprod_cons.
    - field. apply f1_neq_0.
    - rewrite IH by (intros; apply H; right; auto). field. split; [|apply H; left; auto].
      apply fprod_neq0. intros y Hy. apply in_map_iff in Hy as (b & <- & Hb). apply H. right; auto.
  Qed.
  (** c from the two response equations *)
  Lemma answer_unique (a b k w s z c : K) : a = z - c * s -> b = z * k - c * w -> k * s - w <> 0 -> c = (b - k * a) * finv (k * s - w).
  Proof. intros -> -> D. field. auto. Qed.
End PolyIds.


Lemma poly_from_peval coeffs x : forall k, poly_from k coeffs x = (fpow x k * peval coeffs x)%fld.
Proof.
  induction coeffs as [|a l IH]; intros k; cbn [poly_from peval].
  - symmetry. apply mul_0_r.
  - rewrite IH, fpow_succ. apply poly_step.
Qed.
Lemma poly_at_peval coeffs x : poly_at coeffs x = peval coeffs x.
Proof. unfold poly_at. rewrite poly_from_peval, fpow_0. apply mul_1_l. Qed.

(** * scalar multiplication on the concrete groups *)
Lemma G2_sub_exponent k : zmul r_mod (zmul k g2) = g0.
Proof. rewrite zmul_comm, g2_order. apply zmul_g0. Qed.
Lemma g1mul_add P (a b : Fr) : g1mul P (a + b)%fld = (g1mul P a ⊕ g1mul P b)%grp.
Proof. exact (smul_add G1 r_mod r_prime G1_exponent a b P). Qed.
Lemma g1mul_sub P (a b : Fr) : g1mul P (a - b)%fld = (g1mul P a ⊕ ⊖ g1mul P b)%grp.
Proof. exact (smul_sub G1 r_mod r_prime G1_exponent a b P). Qed.
Lemma g1mul_mul P (a b : Fr) : g1mul P (a * b)%fld = g1mul (g1mul P b) a.
Proof. exact (smul_mul G1 r_mod r_prime G1_exponent a b P). Qed.
Lemma g1mul_comm P (a b : Fr) : g1mul (g1mul P b) a = g1mul (g1mul P a) b.
Proof. exact (smul_comm G1 r_mod r_prime a b P). Qed.
Lemma g1mul_0 P : g1mul P (f0 : Fr) = g0.
Proof. exact (smul_0 G1 r_mod r_prime G1_exponent P). Qed.
Lemma g1mul_opp P (a : Fr) : g1mul P (- a)%fld = (⊖ g1mul P a)%grp.
Proof. exact (smul_opp G1 r_mod r_prime G1_exponent a P). Qed.
Lemma g1mul_gsum {A} (f : A -> Fr) l P : gsum (map (fun a => g1mul P (f a)) l) = g1mul P (fsum (map f l)).
Proof. exact (gsum_smul G1 r_mod r_prime G1_exponent f l P). Qed.
Lemma g1mul_inj P (a b : Fr) : P <> g0 -> g1mul P a = g1mul P b -> a = b.
Proof. exact (smul_inj G1 r_mod r_prime G1_exponent a b P). Qed.
Lemma gkmul_comm P (a b : Fq) : gkmul (gkmul P b) a = gkmul (gkmul P a) b.
Proof. exact (smul_comm Gk q_mod q_prime a b P). Qed.
Lemma G1_dlog (P : G1) : exists a : Fr, P = g1mul g1 a.
Proof. destruct (G1_cyclic P) as (k & _ & ->). exists (fr k). exact (zmul_smul G1 r_mod r_prime G1_exponent k g1). Qed.

(** multiples of g2 (no statement about other points of the twist) *)
Lemma g2mul_add (a b : Fr) : g2mul g2 (a + b)%fld = (g2mul g2 a ⊕ g2mul g2 b)%grp.
Proof.
  unfold g2mul, smul. change (fval (a + b)%fld) with ((fval (a : Fp r_mod) + fval (b : Fp r_mod)) mod r_mod).
  rewrite zmul_mod; [apply zmul_add|discriminate|exact g2_order].
Qed.
Lemma g2mul_0 : g2mul g2 (f0 : Fr) = g0.
Proof. reflexivity. Qed.
Lemma g2mul_inj (a b : Fr) : g2mul g2 a = g2mul g2 b -> a = b.
Proof.
  intros H. apply Fp_ext. unfold g2mul, smul in H.
  assert (D : zmul (fval (a : Fp r_mod) - fval (b : Fp r_mod)) g2 = g0).
  { rewrite zmul_sub, H. apply gopp_r. }
  apply (zmul_order G2c r_mod g2 _ r_prime g2_neq0 g2_order) in D.
  rewrite <- (fval_mod r_mod a), <- (fval_mod r_mod b).
  destruct D as [k E]. replace (fval (a : Fp r_mod)) with (fval (b : Fp r_mod) + k * r_mod) by lia. apply Z_mod_plus_full.
Qed.
Lemma g2mul_gsum {A} (f : A -> Fr) l : gsum (map (fun a => g2mul g2 (f a)) l) = g2mul g2 (fsum (map f l)).
Proof.
  induction l as [|a l IH]; cbn [map]; [rewrite gsum_nil; symmetry; exact g2mul_0|]. rewrite gsum_cons, fsum_cons, IH, <- g2mul_add. auto.
Qed.

(** * shares *)
Lemma evaluate_poly_ok coeffs i : coeffs <> [] -> evaluate_poly coeffs i = Ok (peval coeffs (fr i)).
Proof.
  destruct coeffs as [|c l]; [congruence|]. intros _. unfold evaluate_poly, zlen.
  rewrite (proj2 (Z.leb_le 1 _)) by (cbn [length]; lia). cbn [assert bind].
  change (get (c :: l) 0) with (Ok c). cbn [bind skipn]. rewrite eval_loop. reflexivity.
Qed.
Lemma fr_1 : fr 1 = f1 :> Fr. Proof. reflexivity. Qed.
Lemma shares_ok n coeffs : coeffs <> [] -> 1 <= n ->
  shares n coeffs = Ok (map (fun i => peval coeffs (fr i)) (zseq (Z.to_nat n))).
Proof.
  intros Hc Hn. unfold shares.
  rewrite (mapM_ok _ (fun i => peval coeffs (fr i))) by (intros; apply evaluate_poly_ok; auto).
  cbn [bind]. f_equal. unfold zseq, range2. replace (Z.to_nat n) with (S (Z.to_nat n - 1)) at 2 by lia.
  cbn [seq map]. rewrite fold_sum, <- peval_at1. reflexivity.
Qed.

(** * encryption of shares *)
Section Enc.
  Variable poseidon : Fr -> Fr -> Fr.
  Definition pad_of (P : Gk) : Fr := poseidon (fst (xy P)) (snd (xy P)).

  Lemma fr_to_fq_ok (r : Fr) : fr_to_fq r = Ok (fq (fval (r : Fp r_mod))).
  Proof.
    unfold fr_to_fq. pose proof (fval_range r_mod r eq_refl). assert (r_mod < q_mod) by reflexivity.
    rewrite (proj2 (Z.ltb_lt _ _)) by lia. auto.
  Qed.
  Definition rs_of (r : Fr) : Fq := fq (fval (r : Fp r_mod)).

  (** everything [DkgMemberParams::new] computes *)
  Lemma member_params_new_ok cfg pks coeffs r : 1 <= number_of_members cfg -> zlen pks = number_of_members cfg -> coeffs <> [] ->
    member_params_new poseidon cfg pks coeffs r =
    Ok (mkMP cfg coeffs (map (fun i => peval coeffs (fr i)) (zseq (length pks))) r pks
          (mkPP (map (fun i => g1mul g1 (peval coeffs (fr i))) (zseq (length pks)))
                (map (fun '(i, pk) => pad_of (gkmul pk (rs_of r)) + peval coeffs (fr i))%fld (combine (zseq (length pks)) pks))
                (gkmul gk (rs_of r)) (g1mul g1 (hd f0 coeffs)) (g2mul g2 (hd f0 coeffs)))).
  Proof.
    intros Hn HL Hc. unfold member_params_new. rewrite HL, Z.eqb_refl. cbn [assert bind].
    destruct coeffs as [|c l]; [congruence|]. change (get (c :: l) 0) with (Ok c). cbn [bind hd].
    rewrite shares_ok by auto. cbn [bind]. rewrite fr_to_fq_ok. cbn [bind].
    assert (En : Z.to_nat (number_of_members cfg) = length pks) by (unfold zlen in HL; lia). rewrite En.
    set (cf := c :: l) in *.
    erewrite (mapM_ok _ (fun i => pad_of (gkmul (nth i pks g0) (rs_of r)) + peval cf (fr (Z.of_nat i + 1)))%fld).
    2: { intros i Hi. apply in_seq in Hi. rewrite get_map.
         rewrite (get_ok pks (Z.of_nat i) (nth i pks g0)).
         2: lia. 2: { rewrite Nat2Z.id. apply nth_error_nth'. lia. }
         cbn [bind]. replace (Z.of_nat i) with (Z.of_nat i + 1 - 1) by lia. rewrite get_zseq by lia. cbn [bind].
         replace (Z.of_nat i + 1 - 1 + 1) with (Z.of_nat i + 1) by lia. reflexivity. }
    cbn [bind]. f_equal. f_equal. rewrite map_map. f_equal.
    (* ciphers *)
    clearbody cf. clear. unfold zseq.
    assert (G : forall pks k, map (fun i => pad_of (gkmul (nth i pks g0) (rs_of r)) + peval cf (fr (Z.of_nat (i + k) + 1)))%fld (seq 0 (length pks))
      = map (fun '(i, pk) => pad_of (gkmul pk (rs_of r)) + peval cf (fr i))%fld (combine (map Z.of_nat (seq (S k) (length pks))) pks)).
    { clear. induction pks as [|pk pks IH]; intros k; cbn [length seq map combine]; auto. f_equal.
      - cbn [nth]. do 3 f_equal. lia.
      - rewrite <- (IH (S k)), <- seq_shift, map_map. apply map_ext. intros i. cbn [nth]. do 4 f_equal. lia. }
    rewrite <- (G pks 0%nat). apply map_ext. intros i. do 4 f_equal. lia.
  Qed.

  (** the key agreed for a slot is the same on both sides *)
  Lemma dh_agree k r : key_pair k -> gkmul (mk_pk k) (rs_of r) = gkmul (gkmul gk (rs_of r)) (mk_sk k).
  Proof. intros H. unfold key_pair in H. rewrite H. apply gkmul_comm. Qed.
End Enc.
