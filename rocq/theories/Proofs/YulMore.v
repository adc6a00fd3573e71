(** Two facts about programs: variables that are not mentioned do not matter; loads from constant call data positions can be moved. *)
From Coq Require Import ZArith List String Bool Lia.
From Verif.Model Require Import Yul.
From Verif.Proofs Require Import YulSim.
Import ListNotations.
Open Scope string_scope.
Open Scope Z_scope.

(** *** Variables that are not mentioned *)
Section Weaken.
  Variable M : machine.
  Variable x0 : string.
  Variable v0 : val M.
  Definition other (x : string) : bool := negb (String.eqb x x0).
  Fixpoint fresh_e (x : expr) : bool :=
    match x with
    | Num _ => true
    | Var x => other x
    | Bin _ a b | Keccak a b => fresh_e a && fresh_e b
    | Ter _ a b n => fresh_e a && fresh_e b && fresh_e n
    | Iszero a | Mload a | Cdload a => fresh_e a
    end.
  Definition fresh_r (r : rhs) : bool :=
    match r with
    | E x => fresh_e x
    | Call _ l => forallb fresh_e l
    | AndStatic a b c d e f => fresh_e a && fresh_e b && fresh_e c && fresh_e d && fresh_e e && fresh_e f
    end.
  Fixpoint fresh (s : stmt) : bool :=
    match s with
    | Let xs r | Set_ xs r => forallb other xs && fresh_r r
    | Mstore a v | Mstore8 a v => fresh_e a && fresh_e v
    | Extcodecopy a b c d => fresh_e a && fresh_e b && fresh_e c && fresh_e d
    | Pop x => fresh_e x
    | Block l => forallb fresh l
    | For i c p b => forallb fresh i && fresh_e c && forallb fresh p && forallb fresh b
    | If c l => fresh_e c && forallb fresh l
    | Revert _ _ => true
    | Return a l => fresh_e a && fresh_e l
    end.
  Notation t := [(x0, v0)].
  Definition addt (o : outcome M) : outcome M := match o with Cont e m => Cont (e ++ t)%list m | o => o end.
  Lemma look_t x e : other x = true -> lookup M x (e ++ t)%list = lookup M x e.
  Proof.
    intros H. induction e as [|[y v] e IH]; cbn [lookup app]; [|rewrite IH; reflexivity].
    unfold other in H. destruct (String.eqb x x0); [discriminate H|reflexivity].
  Qed.
  Lemma eval_t e m x : fresh_e x = true -> eval M (e ++ t)%list m x = eval M e m x.
  Proof.
    induction x; cbn [fresh_e eval]; intros H; repeat (apply andb_true_iff in H as [H ?]);
      repeat match goal with IH : fresh_e ?a = true -> _, H : fresh_e ?a = true |- _ => specialize (IH H); rewrite IH end; try reflexivity.
    exact (look_t x e H).
  Qed.
  Lemma evals_t e m l : forallb fresh_e l = true -> evals M (e ++ t)%list m l = evals M e m l.
  Proof.
    induction l as [|x l IH]; cbn [forallb evals]; intros H; [reflexivity|]. apply andb_true_iff in H as [H1 H2].
    rewrite (eval_t e m x H1), (IH H2). reflexivity.
  Qed.
  Lemma rhs_t cl e m r : fresh_r r = true -> eval_rhs M cl (e ++ t)%list m r = eval_rhs M cl e m r.
  Proof.
    destruct r; cbn [fresh_r eval_rhs]; intros H; [rewrite (eval_t e m e0 H); reflexivity|rewrite (evals_t e m args H); reflexivity|].
    repeat (apply andb_true_iff in H as [H ?]). repeat (rewrite eval_t by assumption). reflexivity.
  Qed.
  Lemma assign_t x v e : other x = true -> assign M x v (e ++ t)%list = option_map (fun e => (e ++ t)%list) (assign M x v e).
  Proof.
    intros H. induction e as [|[y w] e IH]; cbn [assign app].
    - unfold other in H. destruct (String.eqb x x0); [discriminate H|reflexivity].
    - destruct (String.eqb x y); [reflexivity|]. rewrite IH. destruct (assign M x v e); reflexivity.
  Qed.
  Lemma assigns_t xs : forall vs e, forallb other xs = true -> assigns M xs vs (e ++ t)%list = option_map (fun e => (e ++ t)%list) (assigns M xs vs e).
  Proof.
    induction xs as [|x xs IH]; intros [|v vs] e H; cbn [assigns]; try reflexivity. cbn [forallb] in H. apply andb_true_iff in H as [H1 H2].
    rewrite (assign_t x v e H1). destruct (assign M x v e) as [e1|]; cbn [option_map]; [apply IH, H2|reflexivity].
  Qed.
  Lemma declares_t xs : forall vs e, declares M xs vs (e ++ t)%list = option_map (fun e => (e ++ t)%list) (declares M xs vs e).
  Proof.
    induction xs as [|x xs IH]; intros [|v vs] e; cbn [declares]; try reflexivity. exact (IH vs ((x, v) :: e)).
  Qed.
  Lemma leave_t e o : leave M (e ++ t)%list (addt o) = addt (leave M e o).
  Proof.
    destruct o; cbn [addt leave]; try reflexivity. f_equal. rewrite !app_length, skipn_app. cbn [List.length].
    replace (List.length e0 + 1 - (List.length e + 1))%nat with (List.length e0 - List.length e)%nat by lia.
    replace (List.length e0 - List.length e - List.length e0)%nat with 0%nat by lia. reflexivity.
  Qed.
  Lemma cont_t o f g : (forall e m, g (e ++ t)%list m = addt (f e m)) -> cont M (addt o) g = addt (cont M o f).
  Proof. intros H. destruct o; cbn [addt cont]; [apply H|reflexivity|reflexivity|reflexivity]. Qed.
  Lemma loop_t n c c' b b' : (forall e m, c' (e ++ t)%list m = c e m) -> (forall e m, b' (e ++ t)%list m = addt (b e m)) ->
    forall e m, loop M n c' b' (e ++ t)%list m = addt (loop M n c b e m).
  Proof.
    intros Hc Hb. induction n as [|n IH]; intros e m; cbn [loop]; [reflexivity|]. rewrite Hc.
    destruct (c e m) as [[|]|]; [|reflexivity|reflexivity]. rewrite Hb. apply cont_t. exact IH.
  Qed.
  Section Steps.
    Variable cl : calls M.
    Variable lim : nat.
    Definition good_s (s : stmt) : Prop := fresh s = true -> forall e m, step M cl lim (e ++ t)%list m s = addt (step M cl lim e m s).
    Definition good_l (l : list stmt) : Prop := forallb fresh l = true -> forall e m, exec M cl lim (e ++ t)%list m l = addt (exec M cl lim e m l).
    Lemma step_t s : good_s s.
    Proof.
      apply (stmt_ind2 good_s good_l); unfold good_s, good_l; cbn [fresh forallb].
      - intros _ e m. reflexivity.
      - intros s0 l Hs Hl H e m. apply andb_true_iff in H as [H1 H2]. rewrite !exec_cons, (Hs H1). apply cont_t. exact (Hl H2).
      - intros xs r H e m. apply andb_true_iff in H as [_ H]. cbn [step]. rewrite (rhs_t cl e m r H).
        destruct (eval_rhs M cl e m r) as [[vs m1]|]; [|reflexivity]. rewrite declares_t. destruct (declares M xs vs e); reflexivity.
      - intros xs r H e m. apply andb_true_iff in H as [H0 H]. cbn [step]. rewrite (rhs_t cl e m r H).
        destruct (eval_rhs M cl e m r) as [[vs m1]|]; [|reflexivity]. rewrite (assigns_t xs vs e H0). destruct (assigns M xs vs e); reflexivity.
      - intros a v H e m. apply andb_true_iff in H as [H1 H2]. cbn [step]. rewrite (eval_t e m a H1), (eval_t e m v H2).
        match goal with |- ok_mem _ _ ?o = _ => destruct o; reflexivity end.
      - intros a v H e m. apply andb_true_iff in H as [H1 H2]. cbn [step]. rewrite (eval_t e m a H1), (eval_t e m v H2).
        match goal with |- ok_mem _ _ ?o = _ => destruct o; reflexivity end.
      - intros a b c d H e m. repeat (apply andb_true_iff in H as [H ?]). cbn [step]. repeat (rewrite eval_t by assumption).
        match goal with |- ok_mem _ _ ?o = _ => destruct o; reflexivity end.
      - intros x H e m. cbn [step]. rewrite (eval_t e m x H). destruct (eval M e m x); reflexivity.
      - intros l IH H e m. rewrite !step_block, (IH H). apply leave_t.
      - intros i c p b IHi IHp IHb H e m. repeat (apply andb_true_iff in H as [H ?]). rewrite !step_for, IHi by assumption.
        rewrite <- leave_t. f_equal. apply cont_t. apply loop_t.
        + intros e1 m1. unfold test. rewrite eval_t by assumption. reflexivity.
        + intros e1 m1. rewrite IHb by assumption. rewrite leave_t. apply cont_t. apply IHp. assumption.
      - intros c l IH H e m. apply andb_true_iff in H as [H1 H2]. rewrite !step_if. unfold test. rewrite (eval_t e m c H1).
        destruct (obind (eval M e m c) (truth M)) as [[|]|]; [|reflexivity|reflexivity]. rewrite (IH H2). apply leave_t.
      - intros a l _ e m. reflexivity.
      - intros a l H e m. apply andb_true_iff in H as [H1 H2]. cbn [step]. rewrite (eval_t e m a H1), (eval_t e m l H2).
        destruct (eval M e m a), (eval M e m l); reflexivity.
    Qed.
    Lemma exec_t l : good_l l.
    Proof.
      induction l as [|s l IH]; intros H e m; [reflexivity|]. cbn [forallb] in H. apply andb_true_iff in H as [H1 H2].
      rewrite !exec_cons, (step_t s H1). apply cont_t. exact (IH H2).
    Qed.
  End Steps.
  Theorem run_fresh lim fs l e m : forallb fresh l = true -> run M lim fs (e ++ t)%list m l = addt (run M lim fs e m l).
  Proof. intros H. apply exec_t. exact H. Qed.
End Weaken.

(** *** Loads from constant positions, moved *)
Definition with_cd (M : machine) (cd : val M -> option (val M)) : machine :=
  Machine (val M) (memory M) (num M) (bin M) (ter M) (isz M) (truth M) (mload M) (mstore M) (mstore8 M) cd (keccak_op M) (static M) (extcodecopy M).

Section Move.
  Variable d : Z.
  Fixpoint down_e (x : expr) : expr :=
    match x with
    | Num z => Num z
    | Var x => Var x
    | Bin o a b => Bin o (down_e a) (down_e b)
    | Ter o a b n => Ter o (down_e a) (down_e b) (down_e n)
    | Iszero a => Iszero (down_e a)
    | Mload a => Mload (down_e a)
    | Cdload (Num a) => Cdload (Num (a - d))
    | Cdload a => Cdload (down_e a)
    | Keccak a b => Keccak (down_e a) (down_e b)
    end.
  Definition down_r (r : rhs) : rhs :=
    match r with
    | E x => E (down_e x)
    | Call f l => Call f (map down_e l)
    | AndStatic a b c d e f => AndStatic (down_e a) (down_e b) (down_e c) (down_e d) (down_e e) (down_e f)
    end.
  Fixpoint down (s : stmt) : stmt :=
    match s with
    | Let xs r => Let xs (down_r r)
    | Set_ xs r => Set_ xs (down_r r)
    | Mstore a v => Mstore (down_e a) (down_e v)
    | Mstore8 a v => Mstore8 (down_e a) (down_e v)
    | Extcodecopy a b c d => Extcodecopy (down_e a) (down_e b) (down_e c) (down_e d)
    | Pop x => Pop (down_e x)
    | Block l => Block (map down l)
    | For i c p b => For (map down i) (down_e c) (map down p) (map down b)
    | If c l => If (down_e c) (map down l)
    | Revert a b => Revert a b
    | Return a b => Return (down_e a) (down_e b)
    end.
  (** all loads are from constant positions ([any = true]), or there are none; only functions without loads are called *)
  Variable fs : list (string * func).
  Fixpoint const_e (any : bool) (x : expr) : bool :=
    match x with
    | Num _ | Var _ => true
    | Bin _ a b | Keccak a b => const_e any a && const_e any b
    | Ter _ a b n => const_e any a && const_e any b && const_e any n
    | Iszero a | Mload a => const_e any a
    | Cdload (Num _) => any
    | Cdload _ => false
    end.
  Section Const.
    Variable any : bool.
    Variable callee : string -> bool.
    Definition const_r (r : rhs) : bool :=
      match r with
      | E x => const_e any x
      | Call f l => callee f && forallb (const_e any) l
      | AndStatic a b c d e f => const_e any a && const_e any b && const_e any c && const_e any d && const_e any e && const_e any f
      end.
    Fixpoint const (s : stmt) : bool :=
      match s with
      | Let xs r | Set_ xs r => const_r r
      | Mstore a v | Mstore8 a v => const_e any a && const_e any v
      | Extcodecopy a b c d => const_e any a && const_e any b && const_e any c && const_e any d
      | Pop x => const_e any x
      | Block l => forallb const l
      | For i c p b => forallb const i && const_e any c && forallb const p && forallb const b
      | If c l => const_e any c && forallb const l
      | Revert _ _ => true
      | Return a l => const_e any a && const_e any l
      end.
  End Const.
  Definition no_loads (f : string) : bool :=
    match find (fun p => String.eqb f (fst p)) fs with Some (_, f) => forallb (const false (fun _ => false)) (f_body f) | None => false end.

  Variable M : machine.
  Variables cd cdo : val M -> option (val M).
  Hypothesis Hcd : forall a, cdo (num M (a - d)) = cd (num M a).
  Notation A := (with_cd M cd).
  Notation B := (with_cd M cdo).
  Definition conv (o : outcome A) : outcome B :=
    match o with Cont e m => Cont (M := B) e m | Ret m a l => Ret (M := B) m a l | Rev => Rev | Stuck => Stuck end.
  Lemma lookup_m x e : lookup B x e = lookup A x e.
  Proof. reflexivity. Qed.
  Lemma eval_m any e m x : const_e any x = true -> eval B e m (down_e x) = eval A e m x.
  Proof.
    induction x; cbn [const_e down_e eval]; intros H.
    1: reflexivity. 1: apply lookup_m.
    1-4, 6: repeat (apply andb_true_iff in H as [H ?]);
      repeat match goal with IH : const_e _ ?a = true -> _, H : const_e _ ?a = true |- _ => specialize (IH H); rewrite IH end; reflexivity.
    destruct x; try discriminate H. cbn [eval obind]. exact (Hcd z).
  Qed.
  Lemma down_none x : const_e false x = true -> down_e x = x.
  Proof.
    induction x; cbn [const_e down_e]; intros H; try reflexivity;
      try (repeat (apply andb_true_iff in H as [H ?]);
      repeat match goal with IH : const_e _ ?a = true -> _, H : const_e _ ?a = true |- _ => specialize (IH H); rewrite IH end; reflexivity).
    destruct x; discriminate H.
  Qed.
  Lemma evals_m any e m l : forallb (const_e any) l = true -> evals B e m (map down_e l) = evals A e m l.
  Proof.
    induction l as [|x l IH]; cbn [forallb evals map]; intros H; [reflexivity|]. apply andb_true_iff in H as [H1 H2].
    rewrite (eval_m any e m x H1), (IH H2). reflexivity.
  Qed.
  Lemma assigns_m xs vs e : assigns B xs vs e = assigns A xs vs e.
  Proof. reflexivity. Qed.
  Lemma declares_m xs vs e : declares B xs vs e = declares A xs vs e.
  Proof. reflexivity. Qed.
  Lemma leave_m e o : leave B e (conv o) = conv (leave A e o).
  Proof. destruct o; reflexivity. Qed.
  Lemma cont_m o f g : (forall e m, g e m = conv (f e m)) -> cont B (conv o) g = conv (cont A o f).
  Proof. intros H. destruct o; cbn [conv cont]; [apply H|reflexivity|reflexivity|reflexivity]. Qed.
  Lemma loop_m n c c' b b' : (forall e m, c' e m = c e m) -> (forall e m, b' e m = conv (b e m)) ->
    forall e m, loop B n c' b' e m = conv (loop A n c b e m).
  Proof.
    intros Hc Hb. induction n as [|n IH]; intros e m; cbn [loop]; [reflexivity|]. rewrite Hc.
    destruct (c e m) as [[|]|]; [|reflexivity|reflexivity]. rewrite Hb. apply cont_m. exact IH.
  Qed.
  Section Steps.
    Variable any : bool.
    Variable callee : string -> bool.
    Variables (ca : calls A) (cb : calls B).
    Hypothesis Hcall : forall f vs m, callee f = true -> cb f vs m = ca f vs m.
    Variable lim : nat.
    Lemma rhs_m e m r : const_r any callee r = true -> eval_rhs B cb e m (down_r r) = eval_rhs A ca e m r.
    Proof.
      destruct r; cbn [const_r eval_rhs down_r]; intros H.
      - rewrite (eval_m any e m e0 H). reflexivity.
      - apply andb_true_iff in H as [H1 H2]. rewrite (evals_m any e m args H2). destruct (evals A e m args) as [vs|]; [|reflexivity].
        exact (Hcall f vs m H1).
      - repeat (apply andb_true_iff in H as [H ?]). repeat (rewrite (eval_m any) by assumption). reflexivity.
    Qed.
    Definition moves_s (s : stmt) : Prop := const any callee s = true -> forall e m, step B cb lim e m (down s) = conv (step A ca lim e m s).
    Definition moves_l (l : list stmt) : Prop :=
      forallb (const any callee) l = true -> forall e m, exec B cb lim e m (map down l) = conv (exec A ca lim e m l).
    Lemma step_m s : moves_s s.
    Proof.
      apply (stmt_ind2 moves_s moves_l); unfold moves_s, moves_l; cbn [const forallb down map].
      - intros _ e m. reflexivity.
      - intros s0 l Hs Hl H e m. apply andb_true_iff in H as [H1 H2]. rewrite !exec_cons, (Hs H1). apply cont_m. exact (Hl H2).
      - intros xs r H e m. cbn [step]. rewrite (rhs_m e m r H).
        destruct (eval_rhs A ca e m r) as [[vs m1]|]; [|reflexivity]. rewrite declares_m. destruct (declares A xs vs e); reflexivity.
      - intros xs r H e m. cbn [step]. rewrite (rhs_m e m r H).
        destruct (eval_rhs A ca e m r) as [[vs m1]|]; [|reflexivity]. rewrite assigns_m. destruct (assigns A xs vs e); reflexivity.
      - intros a v H e m. apply andb_true_iff in H as [H1 H2]. cbn [step]. rewrite (eval_m any e m a H1), (eval_m any e m v H2).
        match goal with |- _ = conv (ok_mem _ _ ?o) => change (ok_mem B e o = conv (ok_mem A e o)); destruct o; reflexivity end.
      - intros a v H e m. apply andb_true_iff in H as [H1 H2]. cbn [step]. rewrite (eval_m any e m a H1), (eval_m any e m v H2).
        match goal with |- _ = conv (ok_mem _ _ ?o) => change (ok_mem B e o = conv (ok_mem A e o)); destruct o; reflexivity end.
      - intros a b c d' H e m. repeat (apply andb_true_iff in H as [H ?]). cbn [step]. repeat (rewrite (eval_m any) by assumption).
        match goal with |- _ = conv (ok_mem _ _ ?o) => change (ok_mem B e o = conv (ok_mem A e o)); destruct o; reflexivity end.
      - intros x H e m. cbn [step]. rewrite (eval_m any e m x H). destruct (eval A e m x); reflexivity.
      - intros l IH H e m. rewrite !step_block, (IH H). apply leave_m.
      - intros i c p b IHi IHp IHb H e m. repeat (apply andb_true_iff in H as [H ?]). rewrite !step_for, IHi by assumption.
        rewrite <- leave_m. f_equal. apply cont_m. apply loop_m.
        + intros e1 m1. unfold test. rewrite (eval_m any) by assumption. reflexivity.
        + intros e1 m1. rewrite IHb by assumption. rewrite leave_m. apply cont_m. apply IHp. assumption.
      - intros c l IH H e m. apply andb_true_iff in H as [H1 H2]. rewrite !step_if. unfold test. rewrite (eval_m any e m c H1).
        change (obind (eval A e m c) (truth B)) with (obind (eval A e m c) (truth A)).
        generalize (obind (eval A e m c) (truth A)). intros o. destruct o as [[|]|]; [|reflexivity|reflexivity]. rewrite (IH H2). apply leave_m.
      - intros a l _ e m. reflexivity.
      - intros a l H e m. apply andb_true_iff in H as [H1 H2]. cbn [step]. rewrite (eval_m any e m a H1), (eval_m any e m l H2).
        destruct (eval A e m a), (eval A e m l); reflexivity.
    Qed.
    Lemma exec_m l : moves_l l.
    Proof.
      induction l as [|s l IH]; intros H e m; [reflexivity|]. cbn [forallb] in H. apply andb_true_iff in H as [H1 H2].
      cbn [map]. rewrite !exec_cons, (step_m s H1). apply cont_m. exact (IH H2).
    Qed.
  End Steps.
  Lemma down_r_same callee r : const_r false callee r = true -> down_r r = r.
  Proof.
    destruct r; cbn [const_r down_r]; intros H.
    - rewrite (down_none e H). reflexivity.
    - apply andb_true_iff in H as [_ H]. f_equal. induction args as [|x l IH]; [reflexivity|]. cbn [forallb map] in *.
      apply andb_true_iff in H as [H1 H2]. rewrite (down_none x H1), (IH H2). reflexivity.
    - repeat (apply andb_true_iff in H as [H ?]). rewrite !down_none by assumption. reflexivity.
  Qed.
  Definition same_s callee (s : stmt) : Prop := const false callee s = true -> down s = s.
  Definition same_l callee (l : list stmt) : Prop := forallb (const false callee) l = true -> map down l = l.
  Lemma down_same callee s : same_s callee s.
  Proof.
    apply (stmt_ind2 (same_s callee) (same_l callee)); unfold same_s, same_l; cbn [const forallb down map]; intros;
      repeat match goal with H : (_ && _)%bool = true |- _ => apply andb_true_iff in H as [? ?] end;
      repeat (rewrite down_none by assumption); repeat (erewrite down_r_same by eassumption); try reflexivity;
      repeat match goal with IH : ?c = true -> _ = _, H : ?c = true |- _ => rewrite (IH H); clear IH end; reflexivity.
  Qed.
  Lemma down_sames callee l : same_l callee l.
  Proof.
    induction l as [|s l IH]; intros H; [reflexivity|]. cbn [forallb map] in *. apply andb_true_iff in H as [H1 H2].
    rewrite (down_same callee s H1), (IH H2). reflexivity.
  Qed.
  Lemma obind_ext {X Y} (o : option X) (f g : X -> option Y) : (forall x, f x = g x) -> obind o f = obind o g.
  Proof. intros H. destruct o; [apply H|reflexivity]. Qed.
  Lemma func_m lim f vs m : no_loads f = true -> run_func B lim fs f vs m = run_func A lim fs f vs m.
  Proof.
    unfold no_loads, run_func. destruct (find (fun p => String.eqb f (fst p)) fs) as [[n g]|]; [|discriminate]. intros H.
    refine (obind_ext (declares A (f_params g) vs []) _ _ (fun e => _)).
    refine (obind_ext (declares A (f_rets g) (map (fun _ => num A 0) (f_rets g)) e) _ _ (fun e1 => _)).
    pose proof (exec_m false (fun _ => false) (fun _ _ _ => None) (fun _ _ _ => None) (fun _ _ _ E => ltac:(discriminate E)) lim (f_body g) H e1 m) as X.
    rewrite (down_sames _ _ H) in X. change (exec B (fun _ _ _ => None) lim e1 m (f_body g) = conv (exec A (fun _ _ _ => None) lim e1 m (f_body g))) in X.
    rewrite X. generalize (exec A (fun _ _ _ => None) lim e1 m (f_body g)). intros o. destruct o as [e2 m2| | |]; cbn [conv]; try reflexivity.
    refine (f_equal (fun o => obind o (fun vs => Some (vs, m2))) _).
    generalize (f_rets g). intros l. induction l as [|x l IH]; cbn [map evals eval]; [reflexivity|].
    change (lookup B x e2) with (lookup A x e2). refine (obind_ext _ _ _ (fun v => _)). exact (f_equal (fun o => obind o (fun vs => Some (v :: vs))) IH).
  Qed.
  Theorem run_down lim l e m e1 m1 : forallb (const true no_loads) l = true -> run A lim fs e m l = Cont e1 m1 ->
    run B lim fs e m (map down l) = Cont (M := B) e1 m1.
  Proof.
    intros H E. unfold run in *.
    rewrite (exec_m true no_loads (run_func A lim fs) (run_func B lim fs) (fun f vs m Hf => func_m lim f vs m Hf) lim l H e m), E. reflexivity.
  Qed.
End Move.
