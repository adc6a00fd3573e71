(** Raising the bound on the number of iterations of loops changes nothing in a run that does not get stuck; loops with an invariant. *)
From Coq Require Import ZArith List String Bool Lia.
From Verif.Model Require Import Yul.
From Verif.Proofs Require Import YulSim.
Import ListNotations.
Open Scope Z_scope.

Section Fuel.
  Variable M : machine.
  Variables cA cB : calls M.
  Hypothesis Hc : forall f vs m r, cA f vs m = Some r -> cB f vs m = Some r.
  Variables l1 l2 : nat.
  Hypothesis Hl : (l1 <= l2)%nat.
  Definition upto (a b : outcome M) : Prop := a <> Stuck -> b = a.
  Lemma upto_refl o : upto o o. Proof. intros _. reflexivity. Qed.
  Lemma upto_stuck b : upto Stuck b. Proof. intros H. contradiction. Qed.
  Lemma upto_cont a b f g : upto a b -> (forall e m, upto (f e m) (g e m)) -> upto (cont M a f) (cont M b g).
  Proof.
    intros Ha Hf. destruct a as [e m|m v w| |]; try (intros _; rewrite (Ha ltac:(discriminate)); reflexivity).
    - rewrite (Ha ltac:(discriminate)). apply Hf.
    - apply upto_stuck.
  Qed.
  Lemma upto_leave e a b : upto a b -> upto (leave M e a) (leave M e b).
  Proof.
    intros Ha. destruct a as [e1 m|m v w| |]; try (rewrite (Ha ltac:(discriminate)); apply upto_refl). apply upto_stuck.
  Qed.
  Lemma upto_loop c b b' : (forall e m, upto (b e m) (b' e m)) -> forall n n' e m, (n <= n')%nat -> upto (loop M n c b e m) (loop M n' c b' e m).
  Proof.
    intros Hb. induction n as [|n IH]; intros n' e m Hn; [apply upto_stuck|]. destruct n' as [|n']; [lia|]. cbn [loop].
    destruct (c e m) as [[|]|]; [|apply upto_refl|apply upto_refl]. apply upto_cont; [apply Hb|]. intros. apply IH. lia.
  Qed.
  Lemma upto_rhs e m r x : eval_rhs M cA e m r = Some x -> eval_rhs M cB e m r = Some x.
  Proof. destruct r; cbn; unfold obind; auto. destruct (evals M e m args); auto. Qed.
  Lemma upto_step : forall s e m, upto (step M cA l1 e m s) (step M cB l2 e m s).
  Proof.
    apply (stmt_ind2 (fun s => forall e m, upto (step M cA l1 e m s) (step M cB l2 e m s)) (fun l => forall e m, upto (exec M cA l1 e m l) (exec M cB l2 e m l)));
      try (intros; apply upto_refl).
    - intros s l Hs HL e m. rewrite !exec_cons. apply upto_cont; auto.
    - intros xs r e m. cbn [step]. destruct (eval_rhs M cA e m r) as [x|] eqn:E; [rewrite (upto_rhs _ _ _ _ E); apply upto_refl|apply upto_stuck].
    - intros xs r e m. cbn [step]. destruct (eval_rhs M cA e m r) as [x|] eqn:E; [rewrite (upto_rhs _ _ _ _ E); apply upto_refl|apply upto_stuck].
    - intros l HL e m. rewrite !step_block. apply upto_leave, HL.
    - intros i c p b Hi Hp Hb e m. rewrite !step_for. apply upto_leave, upto_cont; [apply Hi|]. intros e1 m1.
      apply upto_loop; [|exact Hl]. intros e2 m2. apply upto_cont; [apply upto_leave, Hb|]. intros. apply Hp.
    - intros c l HL e m. rewrite !step_if. destruct (test M e m c) as [[|]|]; [apply upto_leave, HL|apply upto_refl|apply upto_stuck].
  Qed.
  Lemma upto_exec l : forall e m, upto (exec M cA l1 e m l) (exec M cB l2 e m l).
  Proof. induction l as [|s l IH]; intros e m; [apply upto_refl|]. rewrite !exec_cons. apply upto_cont; [apply upto_step|]. intros; apply IH. Qed.
End Fuel.
Lemma func_more M l1 l2 fs f vs m r : (l1 <= l2)%nat -> run_func M l1 fs f vs m = Some r -> run_func M l2 fs f vs m = Some r.
Proof.
  intros Hl. unfold run_func, obind. destruct (find _ fs) as [[n fn]|]; [|discriminate].
  destruct (declares M (f_params fn) vs []) as [e|]; [|discriminate]. destruct (declares M (f_rets fn) _ e) as [e1|]; [|discriminate].
  pose proof (upto_exec M (fun _ _ _ => None) (fun _ _ _ => None) ltac:(auto) l1 l2 Hl (f_body fn) e1 m) as H. unfold upto in H.
  destruct (exec M _ l1 e1 m (f_body fn)) as [e2 m2| | |]; try discriminate. rewrite H by discriminate. auto.
Qed.
Theorem run_more M l1 l2 fs e m l : (l1 <= l2)%nat -> run M l1 fs e m l <> Stuck -> run M l2 fs e m l = run M l1 fs e m l.
Proof. intros Hl. apply upto_exec; [|exact Hl]. intros f vs m' r. apply func_more, Hl. Qed.
Corollary run_more_cont M l1 l2 fs e m l e' m' : (l1 <= l2)%nat -> run M l1 fs e m l = Cont e' m' -> run M l2 fs e m l = Cont e' m'.
Proof. intros Hl E. rewrite (run_more M l1 l2) by (try rewrite E; try discriminate; exact Hl). exact E. Qed.

(** a loop with an invariant, counted by the number of iterations done *)
Lemma loop_inv M (c : vars M -> memory M -> option bool) (b : vars M -> memory M -> outcome M) (Inv : nat -> vars M -> memory M -> Prop) (N : nat) :
  (forall i e m, (i < N)%nat -> Inv i e m -> c e m = Some true /\ exists e' m', b e m = Cont e' m' /\ Inv (S i) e' m') ->
  (forall e m, Inv N e m -> c e m = Some false) ->
  forall n e m, (N < n)%nat -> Inv 0%nat e m -> exists e' m', loop M n c b e m = Cont e' m' /\ Inv N e' m'.
Proof.
  intros Hs He n e m Hn H0.
  assert (G : forall k i n e m, (i + k = N)%nat -> (k < n)%nat -> Inv i e m -> exists e' m', loop M n c b e m = Cont e' m' /\ Inv N e' m').
  { clear n e m Hn H0. induction k as [|k IH]; intros i n e m Hi Hn HI.
    - assert (i = N) by lia. subst i. destruct n as [|n]; [lia|]. cbn [loop]. rewrite (He _ _ HI). eauto.
    - destruct n as [|n]; [lia|]. cbn [loop]. destruct (Hs i e m ltac:(lia) HI) as (-> & e' & m' & -> & HI'). cbn [cont].
      apply (IH (S i)); [lia|lia|exact HI']. }
  apply (G N 0%nat); auto.
Qed.
