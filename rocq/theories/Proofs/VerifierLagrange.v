(** The Lagrange part of the verifier: x^n, the Lagrange polynomials at x and the value of the instance column. *)
From Coq Require Import ZArith NArith List String Bool Lia Field.
From Verif.Base Require Import Fld Fp Primes Curves Group.
From Verif.Model Require Import Monad Evm Yul Halo2VerifierSol VerifierCall.
From Verif.Spec Require Import Plonk.
From Verif.Proofs Require Import YulSim YulSym VerifierSetup VerifierTools VerifierGates.
Import ListNotations.
Open Scope string_scope.
Open Scope Z_scope.

Section Lag.
  Variable vka : Z. (* the address of the key *)
  Variable K : Fld.
  Variable ofz : Z -> K.
  Hypothesis ofz0 : ofz 0 = f0.
  Hypothesis ofz1 : ofz 1 = f1.
  Hypothesis ofzm1 : ofz (r_mod - 1) = fopp f1.
  Variable G : Type.
  Variable padd : G -> G -> G.
  Variable psmul : K -> G -> G.
  Variable pt : Z -> G.
  Variable ev : Z -> K.
  Variable kc : nat -> Z.
  Variable vkp : Z -> G.
  Variables n_inv omega omega_inv omega_inv_l : K.
  Variables theta beta gamma y x zeta nu mu : K.
  Notation sexec := (sexec K ofz G padd psmul pt ev).
  Notation SMac := (SM K ofz G padd psmul pt ev).
  Notation sb := (sbase K G (kcx kc) vkp n_inv omega omega_inv omega_inv_l theta beta gamma y x zeta nu mu).
  Notation e0 := (senv K ofz G padd psmul pt ev vka).
  Add Field Kf : (flaw K).
  Open Scope fld_scope.

  Notation reaches := (reaches K ofz G padd psmul pt ev sb).

  Definition sq (v : K) : K := v * v.
  Definition e1 (xn : K) : vars SMac := ("x_n", F xn : val SMac) :: ("x", F x : val SMac) :: ("k", C 18 : val SMac) :: e0.
  Lemma s1 : sexec e0 (Smem [] sb True) (part 0 4 main_05) = Cont (e1 (Nat.iter 18 sq x)) (Smem [] sb True).
  Proof. reflexivity. Qed.

  Fixpoint pw (i : nat) : K := match i with O => omega_inv_l | S i => pw i * omega end.
  Definition END : Z := 0x12e0 + 32 * 55.
  Definition e2 (xn : K) : vars SMac :=
    ("x_n_minus_1", F (xn + ofz (r_mod - 1)) : val SMac) :: ("mptr_end", C END : val SMac) :: ("mptr", C END : val SMac) ::
    ("omega", F omega : val SMac) :: e1 xn.
  Lemma s2 xn : sexec (e1 xn) (Smem [] sb True) (part 4 11 main_05) =
    Cont (e2 xn) (Smem (words 0x12e0 55 (fun i => x + - pw i) ++ [(END, F (xn + ofz (r_mod - 1)))])%list sb True).
  Proof. reflexivity. Qed.

  Lemma s3 xn v : sexec (e2 xn) (Smem (words 0x12e0 56 v) sb True) (part 11 12 main_05) =
    Cont (e2 xn) (Smem (words 0x12e0 56 (binv v 55) ++ batch_junk 0x19e0 55 v)%list sb True).
  Proof. reflexivity. Qed.
  Lemma s3' xn v : reaches (e2 xn) (words 0x12e0 56 v) (part 11 12 main_05) (e2 xn) (words 0x12e0 56 (binv v 55)).
  Proof. eexists; split; [apply s3|]. apply covers_app. reflexivity. Qed.

  Definition e4 (xn lic : K) : vars SMac :=
    ("l_i_common", F lic : val SMac) :: ("x_n_minus_1", F (xn + ofz (r_mod - 1)) : val SMac) :: ("mptr_end", C END : val SMac) ::
    ("mptr", C END : val SMac) :: ("omega", F omega : val SMac) :: e1 xn.
  Lemma s4 xn u : let lic := (xn + ofz (r_mod - 1)) * n_inv in
    sexec (e2 xn) (Smem (words 0x12e0 56 u) sb True) (part 12 15 main_05) =
    Cont (e4 xn lic) (Smem (words 0x12e0 55 (fun i => lic * (u i * pw i)) ++ [(END, F (u 55%nat))])%list sb True).
  Proof. reflexivity. Qed.

  Notation lag_words := (lag_words K G).
  Lemma s5 xn lic t :
    cont SMac (sexec (e4 xn lic) (Smem (words 0x12e0 56 t) sb True) (part 15 40 main_05))
       (fun en m => Cont (skipn (List.length en - 4) en) m) =
    Cont e0 (Smem (lag_words xn (t 55%nat) (t 0%nat) (fold_left (fun s i => s + t i) [2; 3; 4; 5]%nat (t 1%nat)) (t 6%nat)
      (fold_left (fun s i => s + t (6 + i)%nat * ev (0x1224 + 32 * Z.of_nat i)) (seq 0 49) (ofz 0))
      ++ map (fun i => (0x12e0 + 32 * Z.of_nat i, F (t i))%Z) (seq 6 50))%list sb True).
  Proof. reflexivity. Qed.

  Definition after (xn : K) (t : nat -> K) : list (Z * sv K G) :=
    lag_words xn (t 55%nat) (t 0%nat) (fold_left (fun s i => s + t i) [2; 3; 4; 5]%nat (t 1%nat)) (t 6%nat)
      (fold_left (fun s i => s + t (6 + i)%nat * ev (0x1224 + 32 * Z.of_nat i)) (seq 0 49) (ofz 0)).
  Lemma cont_inv (o : outcome SMac) (h : vars SMac -> vars SMac) (en : vars SMac) m : cont SMac o (fun e m => Cont (h e) m) = Cont en m ->
    exists e, o = Cont e m /\ h e = en.
  Proof. destruct o; cbn; intros E; try discriminate. injection E as <- <-. eauto. Qed.
  Lemma s5' xn lic t : exists en, reaches (e4 xn lic) (words 0x12e0 56 t) (part 15 40 main_05) en (after xn t) /\
    skipn (List.length en - 4) en = e0.
  Proof.
    destruct (cont_inv _ (fun en => skipn (List.length en - 4) en) _ _ (s5 xn lic t)) as (en & E & S). exists en. split; [|exact S].
    eexists; split; [exact E|]. apply covers_app. reflexivity.
  Qed.

  (** *** What the words are *)
  Notation n := (2 ^ 18)%N.
  Hypothesis omega_l : omega_inv_l * fpow omega 6 = 1.
  Hypothesis omega_n : fpow omega n = 1.
  Hypothesis x_n : fpow x n <> 1.
  Lemma sq_pow k (v : K) : Nat.iter k sq v = fpow v (2 ^ N.of_nat k).
  Proof.
    induction k as [|k IH]; [change (2 ^ N.of_nat 0)%N with 1%N; cbn; ring|].
    cbn [Nat.iter nat_rect]. fold (Nat.iter k sq v). rewrite IH, Nnat.Nat2N.inj_succ, N.pow_succ_r'. unfold sq.
    replace (2 * 2 ^ N.of_nat k)%N with (2 ^ N.of_nat k + 2 ^ N.of_nat k)%N by lia. rewrite fpow_add. reflexivity.
  Qed.
  Lemma pw_spec i : pw i = omega_inv_l * fpow omega (N.of_nat i).
  Proof.
    induction i as [|i IH]; cbn [pw]; [change (N.of_nat 0) with 0%N; rewrite fpow_0; ring|].
    rewrite IH, Nnat.Nat2N.inj_succ, fpow_succ. ring.
  Qed.
  Lemma omega_nz : omega <> 0.
  Proof. intros E. apply (f1_neq_0 K). rewrite <- omega_l, E. cbn. ring. Qed.
  Lemma pw_back k : (k <= 6)%nat -> pw (6 - k) = w_back K omega k.
  Proof.
    intros Hk. unfold w_back. apply inv_unique. rewrite pw_spec, <- omega_l.
    replace 6%N with (N.of_nat (6 - k) + N.of_nat k)%N by lia. rewrite fpow_add. ring.
  Qed.
  Lemma pw_at i : pw (6 + i) = w_at K omega i.
  Proof.
    unfold w_at. rewrite pw_spec. replace (N.of_nat (6 + i)) with (6 + N.of_nat i)%N by lia. rewrite fpow_add.
    transitivity (omega_inv_l * fpow omega 6 * fpow omega (N.of_nat i)); [ring|]. rewrite omega_l. ring.
  Qed.
  Lemma fpow_1 N' : fpow (1 : K) N' = 1.
  Proof. induction N' as [|N' IH] using N.peano_ind; [apply fpow_0|]. rewrite fpow_succ, IH. ring. Qed.
  Lemma omega_il_n : fpow omega_inv_l n = 1.
  Proof.
    assert (E : fpow (omega_inv_l * fpow omega 6) n = 1) by (rewrite omega_l; apply fpow_1).
    rewrite fpow_mul_base in E. rewrite <- E. replace (fpow (fpow omega 6) n) with (1 : K); [ring|].
    rewrite <- fpow_mul, N.mul_comm, fpow_mul, omega_n. symmetry. apply fpow_1.
  Qed.
  Lemma pw_n i : fpow (pw i) n = 1.
  Proof.
    rewrite pw_spec, fpow_mul_base, omega_il_n, <- fpow_mul, N.mul_comm, fpow_mul, omega_n, fpow_1. ring.
  Qed.
  Notation xn := (fpow x n).
  Definition denoms (i : nat) : K := if Nat.ltb i 55 then x + - pw i else xn + ofz (r_mod - 1).
  Lemma denoms_nz i : denoms i <> 0.
  Proof.
    unfold denoms. destruct (Nat.ltb i 55).
    - intros E. apply x_n. replace x with (pw i); [apply pw_n|]. symmetry. apply fsub_eq0. rewrite <- E. ring.
    - rewrite ofzm1. intros E. apply x_n. apply fsub_eq0. rewrite <- E. ring.
  Qed.
  Definition lag_t (i : nat) : K :=
    if Nat.ltb i 55 then (xn + ofz (r_mod - 1)) * n_inv * (binv denoms 55 i * pw i) else binv denoms 55 55.
  Lemma lag_t_ok i : (i < 55)%nat -> lag_t i = lagrange K n n_inv (pw i) x.
  Proof.
    intros Hi. unfold lag_t. replace (Nat.ltb i 55) with true by (symmetry; apply Nat.ltb_lt, Hi).
    rewrite binv_ok; [|intros; apply denoms_nz|lia|lia]. unfold lagrange, denoms.
    replace (Nat.ltb i 55) with true by (symmetry; apply Nat.ltb_lt, Hi).
    rewrite ofzm1, fdiv_def. replace (x + - pw i) with (x - pw i) by ring. ring.
  Qed.
  Lemma lag_last : lag_t 0 = l_last K omega n n_inv x.
  Proof. rewrite lag_t_ok by lia. unfold l_last. change (pw 0) with (pw (6 - 6)). rewrite pw_back by lia. reflexivity. Qed.
  Lemma lag_0 : lag_t 6 = l_0 K n n_inv x.
  Proof. rewrite lag_t_ok by lia. unfold l_0. change 6%nat with (6 + 0)%nat. rewrite pw_at. reflexivity. Qed.
  Lemma lag_blind : fold_left (fun s i => s + lag_t i) [2; 3; 4; 5]%nat (lag_t 1%nat) = l_blind K omega n n_inv x.
  Proof.
    cbn [fold_left]. unfold l_blind. cbn [blinding seq map fold_right]. rewrite !lag_t_ok by lia.
    change (pw 1) with (pw (6 - 5)). change (pw 2) with (pw (6 - 4)). change (pw 3) with (pw (6 - 3)). change (pw 4) with (pw (6 - 2)).
    change (pw 5) with (pw (6 - 1)). rewrite !pw_back by lia. ring.
  Qed.
  Lemma lag_inv : lag_t 55 = finv (xn - 1).
  Proof.
    change (lag_t 55) with (binv denoms 55 55). rewrite binv_ok; [|intros; apply denoms_nz|lia|lia].
    change (denoms 55) with (xn + ofz (r_mod - 1)). rewrite ofzm1. f_equal. ring.
  Qed.
  Definition insts : list K := map (fun i => ev (0x1224 + 32 * Z.of_nat i)) (seq 0 49).
  Lemma combine_map {A B} (g : A -> B) l : combine l (map g l) = map (fun i => (i, g i)) l.
  Proof. induction l as [|a l IH]; cbn; [reflexivity|]. rewrite IH. reflexivity. Qed.
  Lemma fold_sum (g : nat -> K) l acc : fold_left (fun s i => s + g i) l acc = acc + fold_right fadd 0 (map g l).
  Proof. revert acc. induction l as [|a l IH]; intros acc; cbn; [ring|]. rewrite IH. ring. Qed.
  Lemma lag_insts : fold_left (fun s i => s + lag_t (6 + i)%nat * ev (0x1224 + 32 * Z.of_nat i)) (seq 0 49) (ofz 0) =
    instance_at K omega n n_inv insts x.
  Proof.
    rewrite (fold_sum (fun i => lag_t (6 + i)%nat * ev (0x1224 + 32 * Z.of_nat i))), ofz0.
    unfold instance_at, insts. rewrite map_length, seq_length, combine_map, map_map.
    transitivity (fold_right fadd 0 (map (fun i => lag_t (6 + i)%nat * ev (0x1224 + 32 * Z.of_nat i)) (seq 0 49))); [ring|].
    f_equal. apply map_ext_in. intros i Hi. apply in_seq in Hi. cbn [fst snd]. rewrite lag_t_ok by lia. rewrite pw_at. reflexivity.
  Qed.
  Lemma covers_all (w : list (Z * sv K G)) : covers sb w (Smem w sb True).
  Proof. pose proof (covers_app K G sb w [] eq_refl) as H. rewrite app_nil_r in H. exact H. Qed.
  Lemma r1 : reaches e0 [] (part 0 4 main_05) (e1 xn) [].
  Proof. eexists; split; [|apply covers_all]. rewrite s1, sq_pow. reflexivity. Qed.
  Lemma words_split (f g : nat -> K) (h : K) : (forall i, (i < 55)%nat -> f i = g i) -> f 55%nat = h ->
    (words 0x12e0 55 g ++ [(END, F h)] = words (G := G) 0x12e0 56 f)%list.
  Proof.
    intros E <-. unfold words. rewrite (seq_app 55 1), map_app. f_equal. apply map_ext_in. intros i Hi. apply in_seq in Hi.
    rewrite E by lia. reflexivity.
  Qed.
  Lemma r2 : reaches (e1 xn) [] (part 4 11 main_05) (e2 xn) (words 0x12e0 56 denoms).
  Proof.
    eexists; split; [apply s2|]. rewrite (words_split denoms); [apply covers_all| |reflexivity].
    intros i Hi. unfold denoms. apply Nat.ltb_lt in Hi. rewrite Hi. reflexivity.
  Qed.
  Lemma r3 : reaches (e2 xn) (words 0x12e0 56 denoms) (part 11 12 main_05) (e2 xn) (words 0x12e0 56 (binv denoms 55)).
  Proof. apply s3'. Qed.
  Lemma r4 : reaches (e2 xn) (words 0x12e0 56 (binv denoms 55)) (part 12 15 main_05) (e4 xn ((xn + ofz (r_mod - 1)) * n_inv)) (words 0x12e0 56 lag_t).
  Proof.
    eexists; split; [apply s4|]. rewrite (words_split lag_t); [apply covers_all| |reflexivity].
    intros i Hi. unfold lag_t. apply Nat.ltb_lt in Hi. rewrite Hi. reflexivity.
  Qed.
  Definition lag_spec : list (Z * sv K G) :=
    lag_words xn (finv (xn - 1)) (l_last K omega n n_inv x) (l_blind K omega n n_inv x) (l_0 K n n_inv x) (instance_at K omega n n_inv insts x).
  Lemma r5 : exists en, reaches (e4 xn ((xn + ofz (r_mod - 1)) * n_inv)) (words 0x12e0 56 lag_t) (part 15 40 main_05) en lag_spec /\
    skipn (List.length en - 4) en = e0.
  Proof.
    destruct (s5' xn ((xn + ofz (r_mod - 1)) * n_inv) lag_t) as (en & H & S). exists en. split; [|exact S].
    unfold after in H. rewrite lag_last, lag_0, lag_blind, lag_inv, lag_insts in H. exact H.
  Qed.
End Lag.
