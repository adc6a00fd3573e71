(** Simulation between two machines running the same Yul program. *)
From Coq Require Import ZArith List String Bool Lia.
From Verif.Model Require Import Yul.
Import ListNotations.
Open Scope Z_scope.

Section StmtInd.
  Variable P : stmt -> Prop.
  Variable Q : list stmt -> Prop.
  Hypothesis Qnil : Q [].
  Hypothesis Qcons : forall s l, P s -> Q l -> Q (s :: l).
  Hypothesis HLet : forall xs r, P (Let xs r).
  Hypothesis HSet : forall xs r, P (Set_ xs r).
  Hypothesis HMstore : forall a v, P (Mstore a v).
  Hypothesis HMstore8 : forall a v, P (Mstore8 a v).
  Hypothesis HExt : forall a b c d, P (Extcodecopy a b c d).
  Hypothesis HPop : forall x, P (Pop x).
  Hypothesis HBlock : forall l, Q l -> P (Block l).
  Hypothesis HFor : forall i c p b, Q i -> Q p -> Q b -> P (For i c p b).
  Hypothesis HIf : forall c l, Q l -> P (If c l).
  Hypothesis HRevert : forall a b, P (Revert a b).
  Hypothesis HReturn : forall a b, P (Return a b).
  Fixpoint stmt_ind2 (s : stmt) : P s :=
    let go := fix go (l : list stmt) : Q l :=
      match l with [] => Qnil | s :: l => Qcons s l (stmt_ind2 s) (go l) end in
    match s with
    | Let xs r => HLet xs r
    | Set_ xs r => HSet xs r
    | Mstore a v => HMstore a v
    | Mstore8 a v => HMstore8 a v
    | Extcodecopy a b c d => HExt a b c d
    | Pop x => HPop x
    | Block l => HBlock l (go l)
    | For i c p b => HFor i c p b (go i) (go p) (go b)
    | If c l => HIf c l (go l)
    | Revert a b => HRevert a b
    | Return a b => HReturn a b
    end.
  Fixpoint stmts_ind2 (l : list stmt) : Q l :=
    match l with [] => Qnil | s :: l => Qcons s l (stmt_ind2 s) (stmts_ind2 l) end.
End StmtInd.

Section Unfold.
  Variable M : machine.
  Variable call : calls M.
  Variable limit : nat.
  Notation step := (step M call limit).
  Notation exec := (exec M call limit).
  Lemma step_block e m l : step e m (Block l) = leave M e (exec e m l).
  Proof. reflexivity. Qed.
  Lemma step_for e m i c p b : step e m (For i c p b) =
    leave M e (cont M (exec e m i) (loop M limit (fun e m => test M e m c)
                     (fun e m => cont M (leave M e (exec e m b)) (fun e m => exec e m p)))).
  Proof. reflexivity. Qed.
  Lemma step_if e m c l : step e m (If c l) =
    match test M e m c with Some true => leave M e (exec e m l) | Some false => Cont e m | None => Stuck end.
  Proof. reflexivity. Qed.
  Lemma exec_cons e m s l : exec e m (s :: l) = cont M (step e m s) (fun e m => exec e m l).
  Proof. reflexivity. Qed.
  Lemma exec_app e m l1 l2 : exec e m (l1 ++ l2) = cont M (exec e m l1) (fun e m => exec e m l2).
  Proof.
    revert e m. induction l1 as [|s l1 IH]; intros e m; cbn [app]; [reflexivity|].
    rewrite !exec_cons. destruct (step e m s); cbn; auto.
  Qed.
End Unfold.

Section Sim.
  Variables A B : machine.
  Variable Rv : val A -> val B -> Prop.
  Variable Rm : memory A -> memory B -> Prop.
  Variable good : memory A -> Prop.

  Definition simv (x : option (val A)) (y : option (val B)) : Prop :=
    forall v, x = Some v -> exists v', y = Some v' /\ Rv v v'.
  (** a memory operation of A from [m]: keeps [good] backwards, and is matched by B *)
  Definition simm (m : memory A) (x : option (memory A)) (y : option (memory B)) : Prop :=
    forall m1, x = Some m1 -> good m1 -> good m /\ exists m1', y = Some m1' /\ Rm m1 m1'.

  Hypothesis H_num : forall z, Rv (num A z) (num B z).
  Hypothesis H_bin : forall o a b a' b', Rv a a' -> Rv b b' -> simv (bin A o a b) (bin B o a' b').
  Hypothesis H_ter : forall o a b n a' b' n', Rv a a' -> Rv b b' -> Rv n n' -> simv (ter A o a b n) (ter B o a' b' n').
  Hypothesis H_isz : forall a a', Rv a a' -> simv (isz A a) (isz B a').
  Hypothesis H_truth : forall a a' b, Rv a a' -> truth A a = Some b -> truth B a' = Some b.
  Hypothesis H_mload : forall m m' a a', Rm m m' -> Rv a a' -> simv (mload A m a) (mload B m' a').
  Hypothesis H_cdload : forall a a', Rv a a' -> simv (cdload A a) (cdload B a').
  Hypothesis H_keccak : forall m m' a a' l l', Rm m m' -> Rv a a' -> Rv l l' -> simv (keccak_op A m a l) (keccak_op B m' a' l').
  Hypothesis H_mstore : forall m m' a a' v v', Rm m m' -> Rv a a' -> Rv v v' -> simm m (mstore A m a v) (mstore B m' a' v').
  Hypothesis H_mstore8 : forall m m' a a' v v', Rm m m' -> Rv a a' -> Rv v v' -> simm m (mstore8 A m a v) (mstore8 B m' a' v').
  Hypothesis H_ext : forall m m' a a' d d' s s' l l', Rm m m' -> Rv a a' -> Rv d d' -> Rv s s' -> Rv l l' ->
    simm m (extcodecopy A m a d s l) (extcodecopy B m' a' d' s' l').
  Definition sims (m : memory A) (x : option (val A * memory A)) (y : option (val B * memory B)) : Prop :=
    forall v m1, x = Some (v, m1) -> good m1 -> good m /\ exists v' m1', y = Some (v', m1') /\ Rv v v' /\ Rm m1 m1'.
  Hypothesis H_static : forall m m' a a' b b' c c' d d' e e', Rm m m' -> Rv a a' -> Rv b b' -> Rv c c' -> Rv d d' -> Rv e e' ->
    sims m (static A m a b c d e) (static B m' a' b' c' d' e').
  (** going back: the new memory being good, so was the old one, whatever B does *)
  Definition backm (m : memory A) (x : option (memory A)) : Prop := forall m1, x = Some m1 -> good m1 -> good m.
  Hypothesis K_mstore : forall m a v, backm m (mstore A m a v).
  Hypothesis K_mstore8 : forall m a v, backm m (mstore8 A m a v).
  Hypothesis K_ext : forall m a d s l, backm m (extcodecopy A m a d s l).
  Hypothesis K_static : forall m a b c d e v m1, static A m a b c d e = Some (v, m1) -> good m1 -> good m.

  Definition Re : vars A -> vars B -> Prop := Forall2 (fun x y => fst x = fst y /\ Rv (snd x) (snd y)).

  Lemma Re_length e e' : Re e e' -> List.length e = List.length e'.
  Proof. induction 1; cbn; congruence. Qed.
  Lemma lookup_sim x e e' : Re e e' -> simv (lookup A x e) (lookup B x e').
  Proof.
    induction 1 as [|[y v] [y' v'] e e' [H1 H2] _ IH]; cbn in *; [intros w; discriminate|]. subst y'.
    destruct (String.eqb x y); [|exact IH]. intros w E; injection E as <-. eauto.
  Qed.
  Lemma assign_sim x v v' e e' e1 : Re e e' -> Rv v v' -> assign A x v e = Some e1 ->
    exists e1', assign B x v' e' = Some e1' /\ Re e1 e1'.
  Proof.
    intros H Hv; revert e1. induction H as [|[y w] [y' w'] e e' [H1 H2] H IH]; intros e1 E; cbn in *; [discriminate|]. subst y'.
    destruct (String.eqb x y).
    - injection E as <-. eexists; split; [reflexivity|]. constructor; [split; auto|exact H].
    - destruct (assign A x v e) as [e2|]; [|discriminate]. injection E as <-.
      destruct (IH _ eq_refl) as (e2' & -> & H3). eexists; split; [reflexivity|]. constructor; [split; auto|exact H3].
  Qed.
  Lemma assigns_sim xs vs vs' e e' e1 : Re e e' -> Forall2 Rv vs vs' -> assigns A xs vs e = Some e1 ->
    exists e1', assigns B xs vs' e' = Some e1' /\ Re e1 e1'.
  Proof.
    intros H Hv; revert xs e e' e1 H. induction Hv as [|v v' vs vs' Hv _ IH]; intros [|x xs] e e' e1 H E; cbn in *; try discriminate.
    - injection E as <-; eauto.
    - destruct (assign A x v e) as [e2|] eqn:E2; [|discriminate].
      destruct (assign_sim _ _ _ _ _ _ H Hv E2) as (e2' & -> & H2). eauto.
  Qed.
  Lemma declares_sim xs vs vs' e e' e1 : Re e e' -> Forall2 Rv vs vs' -> declares A xs vs e = Some e1 ->
    exists e1', declares B xs vs' e' = Some e1' /\ Re e1 e1'.
  Proof.
    intros H Hv; revert xs e e' e1 H. induction Hv as [|v v' vs vs' Hv _ IH]; intros [|x xs] e e' e1 H E; cbn in *; try discriminate.
    - injection E as <-; eauto.
    - apply (IH xs ((x, v) :: e) ((x, v') :: e')); [constructor; [split; auto|exact H]|exact E].
  Qed.

  Lemma eval_sim e e' m m' x : Re e e' -> Rm m m' -> simv (eval A e m x) (eval B e' m' x).
  Proof.
    intros He Hm. induction x; cbn; unfold obind.
    - intros v E; injection E as <-; eauto.
    - apply lookup_sim; exact He.
    - intros v E. destruct (eval A e m x1) as [a|]; [|discriminate]. destruct (IHx1 _ eq_refl) as (a' & -> & Ha).
      destruct (eval A e m x2) as [b|]; [|discriminate]. destruct (IHx2 _ eq_refl) as (b' & -> & Hb).
      exact (H_bin o a b a' b' Ha Hb v E).
    - intros v E. destruct (eval A e m x1) as [a|]; [|discriminate]. destruct (IHx1 _ eq_refl) as (a' & -> & Ha).
      destruct (eval A e m x2) as [b|]; [|discriminate]. destruct (IHx2 _ eq_refl) as (b' & -> & Hb).
      destruct (eval A e m x3) as [n|]; [|discriminate]. destruct (IHx3 _ eq_refl) as (n' & -> & Hn).
      exact (H_ter o a b n a' b' n' Ha Hb Hn v E).
    - intros v E. destruct (eval A e m x) as [a|]; [|discriminate]. destruct (IHx _ eq_refl) as (a' & -> & Ha).
      exact (H_isz a a' Ha v E).
    - intros v E. destruct (eval A e m x) as [a|]; [|discriminate]. destruct (IHx _ eq_refl) as (a' & -> & Ha).
      exact (H_mload m m' a a' Hm Ha v E).
    - intros v E. destruct (eval A e m x) as [a|]; [|discriminate]. destruct (IHx _ eq_refl) as (a' & -> & Ha).
      exact (H_cdload a a' Ha v E).
    - intros v E. destruct (eval A e m x1) as [a|]; [|discriminate]. destruct (IHx1 _ eq_refl) as (a' & -> & Ha).
      destruct (eval A e m x2) as [b|]; [|discriminate]. destruct (IHx2 _ eq_refl) as (b' & -> & Hb).
      exact (H_keccak m m' a a' b b' Hm Ha Hb v E).
  Qed.
  Lemma evals_sim e e' m m' xs vs : Re e e' -> Rm m m' -> evals A e m xs = Some vs ->
    exists vs', evals B e' m' xs = Some vs' /\ Forall2 Rv vs vs'.
  Proof.
    intros He Hm; revert vs. induction xs as [|x xs IH]; intros vs E; cbn in *; unfold obind in *.
    - injection E as <-; eauto.
    - destruct (eval A e m x) as [v|] eqn:Ev; [|discriminate]. destruct (eval_sim _ _ _ _ _ He Hm _ Ev) as (v' & -> & Hv).
      destruct (evals A e m xs) as [ws|]; [|discriminate]. injection E as <-. destruct (IH _ eq_refl) as (ws' & -> & Hw). eauto.
  Qed.
  Lemma test_sim e e' m m' c b : Re e e' -> Rm m m' -> test A e m c = Some b -> test B e' m' c = Some b.
  Proof.
    unfold test, obind. intros He Hm E. destruct (eval A e m c) as [v|] eqn:Ev; [|discriminate].
    destruct (eval_sim _ _ _ _ _ He Hm _ Ev) as (v' & -> & Hv). eapply H_truth; eauto.
  Qed.

  Section Calls.
    Variable cA : calls A.
    Variable cB : calls B.
    Variable limit : nat.
    Hypothesis H_back : forall f vs m ws m1, cA f vs m = Some (ws, m1) -> good m1 -> good m.
    Hypothesis H_call : forall f vs vs' m m' ws m1, Rm m m' -> Forall2 Rv vs vs' -> cA f vs m = Some (ws, m1) -> good m1 ->
      exists ws' m1', cB f vs' m' = Some (ws', m1') /\ Forall2 Rv ws ws' /\ Rm m1 m1'.

    Lemma rhs_back e m r ws m1 : eval_rhs A cA e m r = Some (ws, m1) -> good m1 -> good m.
    Proof.
      destruct r; cbn; unfold obind; intros E G.
      - destruct (eval A e m e0); [|discriminate]. injection E as <- <-; exact G.
      - destruct (evals A e m args); [|discriminate]. eauto.
      - repeat match type of E with
          | match ?t with Some _ => _ | None => None end = _ => destruct t eqn:?E; [|discriminate]
          | (let '(_, _) := ?p in _) = _ => destruct p
          end.
        injection E as <- <-. eapply K_static; eauto.
    Qed.
    Lemma rhs_sim e e' m m' r ws m1 : Re e e' -> Rm m m' -> eval_rhs A cA e m r = Some (ws, m1) -> good m1 ->
      exists ws' m1', eval_rhs B cB e' m' r = Some (ws', m1') /\ Forall2 Rv ws ws' /\ Rm m1 m1'.
    Proof.
      intros He Hm. destruct r; cbn; unfold obind; intros E G.
      - destruct (eval A e m e0) as [v|] eqn:Ev; [|discriminate]. destruct (eval_sim _ _ _ _ _ He Hm _ Ev) as (v' & -> & Hv).
        injection E as <- <-; eauto 8.
      - destruct (evals A e m args) as [vs|] eqn:Ev; [|discriminate].
        destruct (evals_sim _ _ _ _ _ _ He Hm Ev) as (vs' & -> & Hv). eapply H_call; eauto.
      - destruct (eval A e m e0) as [v0|] eqn:E0; [|discriminate]. destruct (eval_sim _ _ _ _ _ He Hm _ E0) as (v0' & -> & R0).
        destruct (eval A e m addr) as [v1|] eqn:E1; [|discriminate]. destruct (eval_sim _ _ _ _ _ He Hm _ E1) as (v1' & -> & R1).
        destruct (eval A e m inp) as [v2|] eqn:E2; [|discriminate]. destruct (eval_sim _ _ _ _ _ He Hm _ E2) as (v2' & -> & R2).
        destruct (eval A e m insize) as [v3|] eqn:E3; [|discriminate]. destruct (eval_sim _ _ _ _ _ He Hm _ E3) as (v3' & -> & R3).
        destruct (eval A e m outp) as [v4|] eqn:E4; [|discriminate]. destruct (eval_sim _ _ _ _ _ He Hm _ E4) as (v4' & -> & R4).
        destruct (eval A e m outsize) as [v5|] eqn:E5; [|discriminate]. destruct (eval_sim _ _ _ _ _ He Hm _ E5) as (v5' & -> & R5).
        destruct (static A m v1 v2 v3 v4 v5) as [[b m2]|] eqn:E6; [|discriminate].
        destruct (bin A AND v0 b) as [v|] eqn:E7; [|discriminate]. injection E as <- <-.
        destruct (H_static _ _ _ _ _ _ _ _ _ _ _ _ Hm R1 R2 R3 R4 R5 _ _ E6 G) as (_ & b' & m2' & -> & Rb & Rm2).
        destruct (H_bin _ _ _ _ _ R0 Rb _ E7) as (v' & -> & Rv'). eauto 8.
    Qed.

    (** a run of A that continues to a good memory *)
    Definition back (m : memory A) (o : outcome A) : Prop := match o with Cont _ m1 => good m1 -> good m | _ => True end.
    Definition sim (o : outcome A) (o' : outcome B) : Prop :=
      match o with Cont e m => good m -> exists e' m', o' = Cont e' m' /\ Re e e' /\ Rm m m' | _ => True end.

    Lemma back_leave m e o : back m o -> back m (leave A e o).
    Proof. destruct o; cbn; auto. Qed.
    Lemma skipn_Re n e e' : Re e e' -> Re (skipn n e) (skipn n e').
    Proof. intros H; revert n; induction H; intros [|n]; cbn; try constructor; auto. Qed.
    Lemma sim_leave e e' o o' : Re e e' -> sim o o' -> sim (leave A e o) (leave B e' o').
    Proof.
      destruct o as [e1 m1| | |]; cbn; auto. intros He H G. destruct (H G) as (e2 & m2 & -> & H2 & H3). cbn.
      rewrite (Re_length _ _ He), (Re_length _ _ H2). do 2 eexists; split; [reflexivity|]. split; [apply skipn_Re; exact H2|exact H3].
    Qed.
    Lemma back_cont m o f : back m o -> (forall e m1, back m1 (f e m1)) -> back m (cont A o f).
    Proof. destruct o as [e m1| | |]; cbn; auto. intros H Hf. specialize (Hf e m1). destruct (f e m1); cbn in *; auto. Qed.
    Lemma sim_cont o o' f f' : sim o o' -> (forall e m, back m (f e m)) ->
      (forall e e' m m', Re e e' -> Rm m m' -> sim (f e m) (f' e' m')) -> sim (cont A o f) (cont B o' f').
    Proof.
      destruct o as [e m| | |]; cbn; auto. intros H Hb Hf.
      specialize (Hb e m). destruct (f e m) as [e2 m2| | |] eqn:E; cbn; auto. cbn in Hb. intros G.
      destruct (H (Hb G)) as (e' & m' & -> & H1 & H2). cbn. specialize (Hf e e' m m' H1 H2). rewrite E in Hf. exact (Hf G).
    Qed.

    Lemma loop_back n c b : (forall e m, back m (b e m)) -> forall e m, back m (loop A n c b e m).
    Proof.
      intros Hb. induction n as [|n IH]; intros e m; cbn; [exact I|].
      destruct (c e m) as [[|]|]; cbn; auto. apply back_cont; auto.
    Qed.
    Lemma loop_sim n c c' b b' :
      (forall e m, back m (b e m)) ->
      (forall e e' m m' x, Re e e' -> Rm m m' -> c e m = Some x -> c' e' m' = Some x) ->
      (forall e e' m m', Re e e' -> Rm m m' -> sim (b e m) (b' e' m')) ->
      forall e e' m m', Re e e' -> Rm m m' -> sim (loop A n c b e m) (loop B n c' b' e' m').
    Proof.
      intros Hb Hc Hs. induction n as [|n IH]; intros e e' m m' He Hm; cbn; [exact I|].
      destruct (c e m) as [x|] eqn:E; [|exact I]. rewrite (Hc _ _ _ _ _ He Hm E). destruct x.
      - apply sim_cont; auto. intros; apply loop_back; auto.
      - cbn. intros _. eauto.
    Qed.

    Lemma back_all :
      (forall s e m, back m (step A cA limit e m s)).
    Proof.
      apply (stmt_ind2 (fun s => forall e m, back m (step A cA limit e m s)) (fun l => forall e m, back m (exec A cA limit e m l))).
      - intros e m; cbn; auto.
      - intros s l Hs Hl e m. rewrite exec_cons. apply back_cont; auto.
      - intros xs r e m. cbn. destruct (eval_rhs A cA e m r) as [[vs m1]|] eqn:E; [|exact I].
        destruct (declares A xs vs e); cbn; [|exact I]. intros G. eapply rhs_back; eauto.
      - intros xs r e m. cbn. destruct (eval_rhs A cA e m r) as [[vs m1]|] eqn:E; [|exact I].
        destruct (assigns A xs vs e); cbn; [|exact I]. intros G. eapply rhs_back; eauto.
      - intros a v e m. cbn. unfold obind. destruct (eval A e m a); [|exact I]. destruct (eval A e m v); [|exact I].
        destruct (mstore A m v0 v1) eqn:E; cbn; [|exact I]. eapply K_mstore; eauto.
      - intros a v e m. cbn. unfold obind. destruct (eval A e m a); [|exact I]. destruct (eval A e m v); [|exact I].
        destruct (mstore8 A m v0 v1) eqn:E; cbn; [|exact I]. eapply K_mstore8; eauto.
      - intros a b c d e m. cbn. unfold obind. destruct (eval A e m a); [|exact I]. destruct (eval A e m b); [|exact I].
        destruct (eval A e m c); [|exact I]. destruct (eval A e m d); [|exact I].
        destruct (extcodecopy A m v v0 v1 v2) eqn:E; cbn; [|exact I]. eapply K_ext; eauto.
      - intros x e m. cbn. destruct (eval A e m x); cbn; auto.
      - intros l Hl e m. rewrite step_block. apply back_leave, Hl.
      - intros i c p b Hi Hp Hb e m. rewrite step_for. apply back_leave, back_cont; [apply Hi|]. intros e1 m1.
        apply loop_back. intros e2 m2. apply back_cont; [apply back_leave, Hb|]. intros; apply Hp.
      - intros c l Hl e m. rewrite step_if. destruct (test A e m c) as [[|]|]; cbn; auto. apply back_leave, Hl.
      - intros a b e m. exact I.
      - intros a b e m. cbn. destruct (eval A e m a), (eval A e m b); exact I.
    Qed.
    Lemma exec_back l : forall e m, back m (exec A cA limit e m l).
    Proof.
      induction l as [|s l IH]; intros e m; [cbn; auto|]. rewrite exec_cons. apply back_cont; auto. apply back_all.
    Qed.

    Lemma sim_all : forall s e e' m m', Re e e' -> Rm m m' -> sim (step A cA limit e m s) (step B cB limit e' m' s).
    Proof.
      apply (stmt_ind2 (fun s => forall e e' m m', Re e e' -> Rm m m' -> sim (step A cA limit e m s) (step B cB limit e' m' s))
        (fun l => forall e e' m m', Re e e' -> Rm m m' -> sim (exec A cA limit e m l) (exec B cB limit e' m' l))).
      - intros e e' m m' He Hm; cbn; eauto.
      - intros s l Hs Hl e e' m m' He Hm. rewrite !exec_cons. apply sim_cont; auto. intros; apply exec_back.
      - intros xs r e e' m m' He Hm. cbn. destruct (eval_rhs A cA e m r) as [[vs m1]|] eqn:E; [|exact I].
        destruct (declares A xs vs e) as [e1|] eqn:E1; cbn; [|exact I]. intros G.
        destruct (rhs_sim _ _ _ _ _ _ _ He Hm E G) as (vs' & m1' & -> & Hv & Hm1).
        destruct (declares_sim _ _ _ _ _ _ He Hv E1) as (e1' & -> & H1). cbn. eauto.
      - intros xs r e e' m m' He Hm. cbn. destruct (eval_rhs A cA e m r) as [[vs m1]|] eqn:E; [|exact I].
        destruct (assigns A xs vs e) as [e1|] eqn:E1; cbn; [|exact I]. intros G.
        destruct (rhs_sim _ _ _ _ _ _ _ He Hm E G) as (vs' & m1' & -> & Hv & Hm1).
        destruct (assigns_sim _ _ _ _ _ _ He Hv E1) as (e1' & -> & H1). cbn. eauto.
      - intros a v e e' m m' He Hm. cbn. unfold obind. destruct (eval A e m a) as [x|] eqn:E1; [|exact I].
        destruct (eval_sim _ _ _ _ _ He Hm _ E1) as (x' & -> & Hx).
        destruct (eval A e m v) as [y|] eqn:E2; [|exact I]. destruct (eval_sim _ _ _ _ _ He Hm _ E2) as (y' & -> & Hy).
        destruct (mstore A m x y) eqn:E; cbn; [|exact I]. intros G.
        destruct (H_mstore _ _ _ _ _ _ Hm Hx Hy _ E G) as (_ & m1' & -> & H1). cbn. eauto.
      - intros a v e e' m m' He Hm. cbn. unfold obind. destruct (eval A e m a) as [x|] eqn:E1; [|exact I].
        destruct (eval_sim _ _ _ _ _ He Hm _ E1) as (x' & -> & Hx).
        destruct (eval A e m v) as [y|] eqn:E2; [|exact I]. destruct (eval_sim _ _ _ _ _ He Hm _ E2) as (y' & -> & Hy).
        destruct (mstore8 A m x y) eqn:E; cbn; [|exact I]. intros G.
        destruct (H_mstore8 _ _ _ _ _ _ Hm Hx Hy _ E G) as (_ & m1' & -> & H1). cbn. eauto.
      - intros a b c d e e' m m' He Hm. cbn. unfold obind. destruct (eval A e m a) as [x|] eqn:E1; [|exact I].
        destruct (eval_sim _ _ _ _ _ He Hm _ E1) as (x' & -> & Hx).
        destruct (eval A e m b) as [y|] eqn:E2; [|exact I]. destruct (eval_sim _ _ _ _ _ He Hm _ E2) as (y' & -> & Hy).
        destruct (eval A e m c) as [z|] eqn:E3; [|exact I]. destruct (eval_sim _ _ _ _ _ He Hm _ E3) as (z' & -> & Hz).
        destruct (eval A e m d) as [w|] eqn:E4; [|exact I]. destruct (eval_sim _ _ _ _ _ He Hm _ E4) as (w' & -> & Hw).
        destruct (extcodecopy A m x y z w) eqn:E; cbn; [|exact I]. intros G.
        destruct (H_ext _ _ _ _ _ _ _ _ _ _ Hm Hx Hy Hz Hw _ E G) as (_ & m1' & -> & H1). cbn. eauto.
      - intros x e e' m m' He Hm. cbn. destruct (eval A e m x) as [v|] eqn:E; [|exact I].
        destruct (eval_sim _ _ _ _ _ He Hm _ E) as (v' & -> & _). cbn. eauto.
      - intros l Hl e e' m m' He Hm. rewrite !step_block. apply sim_leave; auto.
      - intros i c p b Hi Hp Hb e e' m m' He Hm. rewrite !step_for. apply sim_leave; auto. apply sim_cont; auto.
        + intros. apply loop_back. intros. apply back_cont; [apply back_leave, exec_back|]. intros; apply exec_back.
        + intros e1 e1' m1 m1' He1 Hm1. apply loop_sim; auto.
          * intros. apply back_cont; [apply back_leave, exec_back|]. intros; apply exec_back.
          * intros e2 e2' m2 m2' x He2 Hm2. apply test_sim; auto.
          * intros e2 e2' m2 m2' He2 Hm2. apply sim_cont; [apply sim_leave; auto| |].
            -- intros; apply exec_back.
            -- intros; apply Hp; auto.
      - intros c l Hl e e' m m' He Hm. rewrite !step_if. destruct (test A e m c) as [x|] eqn:E; [|exact I].
        rewrite (test_sim _ _ _ _ _ _ He Hm E). destruct x; [apply sim_leave; auto|]. cbn; eauto.
      - intros; exact I.
      - intros a b e e' m m' He Hm. cbn. destruct (eval A e m a), (eval A e m b); exact I.
    Qed.
    Lemma exec_sim l : forall e e' m m', Re e e' -> Rm m m' -> sim (exec A cA limit e m l) (exec B cB limit e' m' l).
    Proof.
      induction l as [|s l IH]; intros e e' m m' He Hm; [cbn; eauto|]. rewrite !exec_cons.
      apply sim_cont; auto. - apply sim_all; auto. - intros; apply exec_back.
    Qed.
  End Calls.

  Lemma run_func_back limit fs f vs m ws m1 : run_func A limit fs f vs m = Some (ws, m1) -> good m1 -> good m.
  Proof.
    unfold run_func, obind. destruct (find _ fs) as [[n fn]|]; [|discriminate].
    destruct (declares A (f_params fn) vs []) as [e|]; [|discriminate].
    destruct (declares A (f_rets fn) _ e) as [e1|]; [|discriminate].
    pose proof (exec_back (fun _ _ _ => None) limit ltac:(discriminate) (f_body fn) e1 m) as H.
    destruct (exec A _ limit e1 m (f_body fn)) as [e2 m2| | |]; try discriminate.
    destruct (evals A e2 m2 _) as [us|]; [|discriminate]. intros E G; injection E as <- <-. exact (H G).
  Qed.
  Lemma run_func_sim limit fs f vs vs' m m' ws m1 : Rm m m' -> Forall2 Rv vs vs' -> run_func A limit fs f vs m = Some (ws, m1) ->
    good m1 -> exists ws' m1', run_func B limit fs f vs' m' = Some (ws', m1') /\ Forall2 Rv ws ws' /\ Rm m1 m1'.
  Proof.
    intros Hm Hv. unfold run_func, obind. destruct (find _ fs) as [[n fn]|]; [|discriminate].
    destruct (declares A (f_params fn) vs []) as [e|] eqn:E1; [|discriminate].
    destruct (declares_sim _ _ _ [] [] _ (Forall2_nil _) Hv E1) as (e' & -> & He).
    destruct (declares A (f_rets fn) _ e) as [e1|] eqn:E2; [|discriminate].
    assert (Hz : Forall2 Rv (map (fun _ => num A 0) (f_rets fn)) (map (fun _ => num B 0) (f_rets fn)))
      by (clear E2; induction (f_rets fn); cbn; constructor; auto).
    destruct (declares_sim _ _ _ _ _ _ He Hz E2) as (e1' & -> & He1).
    pose proof (exec_sim (fun _ _ _ => None) (fun _ _ _ => None) limit ltac:(discriminate) ltac:(discriminate) (f_body fn) e1 e1' m m' He1 Hm) as H.
    destruct (exec A _ limit e1 m (f_body fn)) as [e2 m2| | |]; try discriminate.
    destruct (evals A e2 m2 _) as [us|] eqn:E3; [|discriminate]. intros E G; injection E as <- <-.
    destruct (H G) as (e2' & m2' & -> & He2 & Hm2).
    destruct (evals_sim _ _ _ _ _ _ He2 Hm2 E3) as (us' & -> & Hu). eauto.
  Qed.
  Theorem run_sim limit fs l e e' m m' e1 m1 : Re e e' -> Rm m m' -> run A limit fs e m l = Cont e1 m1 -> good m1 ->
    exists e1' m1', run B limit fs e' m' l = Cont e1' m1' /\ Re e1 e1' /\ Rm m1 m1'.
  Proof.
    intros He Hm E G. unfold run in *.
    pose proof (exec_sim (run_func A limit fs) (run_func B limit fs) limit (run_func_back limit fs)) as H.
    specialize (H (fun f vs vs' m m' ws m1 Hm Hv E G => run_func_sim limit fs f vs vs' m m' ws m1 Hm Hv E G) l e e' m m' He Hm).
    rewrite E in H. exact (H G).
  Qed.
End Sim.
