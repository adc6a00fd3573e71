(** Running the verifier on symbolic inputs: forgetting memory words that are no longer needed; batch inversion. *)
From Coq Require Import ZArith NArith List String Bool Lia Field.
From Verif.Base Require Import Fld Fp Primes Curves Group.
From Verif.Model Require Import Monad Evm Yul Halo2VerifierSol.
From Verif.Spec Require Import Plonk.
From Verif.Proofs Require Import YulSim YulSym VerifierSetup.
Import ListNotations.
Open Scope string_scope.
Open Scope Z_scope.

Definition block_body (s : stmt) : list stmt := match s with Block l => l | _ => [] end.
Definition part (i j : nat) (s : stmt) : list stmt := firstn (j - i) (skipn i (block_body s)).

Section Tools.
  Variable K : Fld.
  Variable ofz : Z -> K.
  Variable G : Type.
  Variable padd : G -> G -> G.
  Variable psmul : K -> G -> G.
  Variable pt : Z -> G.
  Variable ev : Z -> K.
  Variable sb : Z -> option (sv K G).
  Notation sexec := (sexec K ofz G padd psmul pt ev).
  Notation SMac := (SM K ofz G padd psmul pt ev).
  Add Field Kf : (flaw K).
  Open Scope fld_scope.

  (** [m] holds at least what the words [w] over the base say *)
  Definition covers (w : list (Z * sv K G)) (m : smem K G) : Prop :=
    cnd m /\ bs m = sb /\ (forall a v, alook a w = Some v -> alook a (wr m) = Some v) /\
    (forall a, alook a (wr m) <> None -> alook a w = None -> sb a = None).
  Lemma alook_in a v (l : list (Z * sv K G)) : alook a l = Some v -> In (a, v) l.
  Proof.
    induction l as [|[b u] l IH]; cbn; [discriminate|]. destruct (Z.eqb_spec a b) as [->|]; [|auto].
    intros E; injection E as ->. auto.
  Qed.
  Definition none {A} (o : option A) : bool := match o with None => true | _ => false end.
  Lemma covers_check w m : cnd m -> bs m = sb -> Forall (fun p => alook (fst p) (wr m) = Some (snd p)) w ->
    forallb (fun a => negb (none (alook a w)) || none (sb a)) (map fst (wr m)) = true -> covers w m.
  Proof.
    intros H1 H2 H3 H4. unfold covers. repeat split; auto.
    - intros a v E. rewrite Forall_forall in H3. exact (H3 _ (alook_in _ _ _ E)).
    - intros a Ha E. rewrite forallb_forall in H4. destruct (alook a (wr m)) as [v|] eqn:Ev; [|congruence].
      specialize (H4 a (in_map fst _ _ (alook_in _ _ _ Ev))). rewrite E in H4. cbn in H4. destruct (sb a); [discriminate|reflexivity].
  Qed.
  Definition reaches (en : vars SMac) (w : list (Z * sv K G)) (l : list stmt) (en' : vars SMac) (w' : list (Z * sv K G)) : Prop :=
    exists m, sexec en (Smem w sb True) l = Cont en' m /\ covers w' m.
  Lemma alook_app a (w j : list (Z * sv K G)) : alook a (w ++ j)%list = match alook a w with Some v => Some v | None => alook a j end.
  Proof. induction w as [|[b u] w IH]; cbn; [reflexivity|]. destruct (a =? b)%Z; auto. Qed.
  Lemma covers_app w j : forallb (fun a => negb (none (alook a w)) || none (sb a)) (map fst j) = true ->
    covers w (Smem (w ++ j)%list sb True).
  Proof.
    intros H. repeat split; cbn [bs wr].
    - intros a v E. rewrite alook_app, E. reflexivity.
    - intros a Ha E. rewrite alook_app, E in Ha. destruct (alook a j) as [v|] eqn:Ev; [|congruence].
      rewrite forallb_forall in H. specialize (H a (in_map fst _ _ (alook_in _ _ _ Ev))). rewrite E in H. cbn in H.
      destruct (sb a); [discriminate|reflexivity].
  Qed.
  Definition words (base : Z) (n : nat) (v : nat -> K) : list (Z * sv K G) :=
    map (fun i => (base + 32 * Z.of_nat i, F (v i))%Z) (seq 0 n).

  (** batch inversion *)
  Section Batch.
    Variable v : nat -> K.
    Fixpoint gp (i : nat) : K := match i with O => v 0 | S i => gp i * v (S i) end.
    Variable n : nat.
    (** the accumulated inverse after k steps back from index n *)
    Fixpoint back (k : nat) : K := match k with O => finv (gp n) | S k => back k * v (n - k)%nat end.
    Definition binv (i : nat) : K :=
      match i with O => back (n - 1)%nat * v 1%nat | 1%nat => back (n - 1)%nat * v 0%nat | S j => back (n - i)%nat * gp j end.
    Hypothesis nz : forall i, (i <= n)%nat -> v i <> 0.
    Hypothesis n1 : (1 <= n)%nat.
    Lemma gp_nz i : (i <= n)%nat -> gp i <> 0.
    Proof. induction i as [|i IH]; intros H; cbn; [apply nz; lia|]. apply fmul_neq0; [apply IH; lia|apply nz; lia]. Qed.
    Lemma back_gp k : (k <= n)%nat -> back k * gp (n - k) = 1.
    Proof.
      induction k as [|k IH]; intros H; cbn [back].
      - rewrite Nat.sub_0_r. apply finv_l, gp_nz. lia.
      - rewrite <- IH by lia. replace (n - k)%nat with (S (n - S k)) by lia. cbn [gp]. ring.
    Qed.
    Lemma inv_unique (a b : K) : a * b = 1 -> a = finv b.
    Proof.
      intros H. assert (N : b <> 0). { intros ->. apply (f1_neq_0 K). rewrite <- H. ring. }
      apply (fmul_cancel_l K b _ _ N). replace (b * a) with (1 : K) by (rewrite <- H; ring). symmetry. field. exact N.
    Qed.
    Lemma binv_ok i : (i <= n)%nat -> binv i = finv (v i).
    Proof.
      intros H. apply inv_unique. unfold binv. destruct i as [|[|i]].
      - rewrite <- (back_gp (n - 1)) by lia. replace (n - (n - 1))%nat with 1%nat by lia. cbn [gp]. ring.
      - rewrite <- (back_gp (n - 1)) by lia. replace (n - (n - 1))%nat with 1%nat by lia. cbn [gp]. ring.
      - rewrite <- (back_gp (n - S (S i))) by lia. replace (n - (n - S (S i)))%nat with (S (S i)) by lia. cbn [gp]. ring.
    Qed.
  End Batch.
  (** what the inversion leaves in its scratch space *)
  Definition batch_junk (base : Z) (n : nat) (v : nat -> K) : list (Z * sv K G) :=
    let top := (base + 32 * Z.of_nat (n - 1))%Z in
    (words base (n - 1) (fun i => gp v (S i)) ++
     [(top, F (finv (gp v n))); (top + 0x20, C 0x20); (top + 0x40, C 0x20); (top + 0x60, F (gp v n)); (top + 0x80, C (r_mod - 2));
      (top + 0xa0, C r_mod)]%Z)%list.
End Tools.
Arguments covers {K G}. Arguments words {K G}. Arguments gp {K}. Arguments back {K}. Arguments binv {K}. Arguments batch_junk {K G}.
Ltac sym_eval t := eval lazy -[car fadd fmul fopp finv f0 f1 fsub fdiv] in t.
