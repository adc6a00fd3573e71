(** The end of the verifier: the pairing, and the result. *)
From Coq Require Import ZArith List String Bool Lia.
From Verif.Base Require Import Fld Fp EC Primes Curves Group.
From Verif.Model Require Import Monad Evm Points PairingSol Yul Halo2VerifierSol VerifierCall.
From Verif.Proofs Require Import YulSim VerifierSetup.
Import ListNotations.
Open Scope string_scope.
Open Scope Z_scope.

Section Tail.
  Variable keccak : bytes -> Z.
  Variable in_g2 : G2c -> bool.
  Variable pairing : list (G1 * G2c) -> bool.
  Variable calldata : list Z.
  Variable code : Z -> list Z.
  Variable lim : nat.
  Notation B := (EVM keccak in_g2 pairing calldata code).
  Definition tail : list stmt := [main_09; main_10; main_11; main_12; main_13].
  Definition pair_words (m : mem) : list Z :=
    [m 0x1420; m 0x1440; m 0x860; m 0x880; m 0x8a0; m 0x8c0; m 0x1460; m 0x1480; m 0x8e0; m 0x900; m 0x920; m 0x940].
  (** the verifier returns the word 1 *)
  Definition returns_one (o : outcome B) : Prop := exists m, o = Ret (M := B) m 0 0x20 /\ m 0 = 1.
  Lemma st_mstore cl l (e : vars B) (m : mem) a v (va vv : Z) : eval B e m a = Some va -> eval B e m v = Some vv -> aligned va = true ->
    step B cl l e m (Mstore a v) = Cont (M := B) e (upd m va vv).
  Proof. intros H1 H2 H3. cbn [step]. rewrite H1, H2. cbn [obind mstore EVM]. unfold m_store. rewrite H3. reflexivity. Qed.
  Lemma pair_call (m : mem) (vk : Z) :
    m 0x7a0 = 0 ->
    let e := [("success", 1); ("r", r_mod); ("q", q_mod); ("vk", vk)] in
    exists m', run B lim functions e m [main_09; main_10] =
      Cont (M := B) [("success", match decode_pairs in_g2 (pair_words m) with Some l => if pairing l then 1 else 0 | None => 0 end);
            ("r", r_mod); ("q", q_mod); ("vk", vk)] m'.
  Proof.
    intros H0 e. unfold e. clear e.
    assert (E9 : run B lim functions [("success", 1); ("r", r_mod); ("q", q_mod); ("vk", vk)] m [main_09] =
       Cont (M := B) [("success", 1); ("r", r_mod); ("q", q_mod); ("vk", vk)] m).
    { unfold run. rewrite exec_cons. unfold main_09. rewrite step_if.
      match goal with |- context [test ?M ?e ?m ?c] => replace (test M e m c) with (Some (negb (m 0x7a0 =? 0))) by reflexivity end.
      rewrite H0. reflexivity. }
    change [main_09; main_10] with ([main_09] ++ [main_10])%list. unfold run in *. rewrite exec_app, E9. cbn [cont]. clear E9 H0.
    cbn [exec]. unfold main_10. cbn [step eval_rhs].
    match goal with |- context [match obind ?a ?f with _ => _ end] => replace (obind a f) with
      (run_func B lim functions "ec_pairing" [1; m 0x1420; m 0x1440; m 0x1460; m 0x1480] m) by reflexivity end.
    assert (E : exists m', run_func B lim functions "ec_pairing" [1; m 0x1420; m 0x1440; m 0x1460; m 0x1480] m =
      Some ([match decode_pairs in_g2 (pair_words m) with Some l => if pairing l then 1 else 0 | None => 0 end], m')).
    { change (run_func B lim functions "ec_pairing" [1; m 0x1420; m 0x1440; m 0x1460; m 0x1480] m) with
        (match exec B (fun _ _ _ => None) lim
           [("ret", 0); ("rhs_y", m 0x1480); ("rhs_x", m 0x1460); ("lhs_y", m 0x1440); ("lhs_x", m 0x1420); ("success", 1)] m (f_body fn_ec_pairing) with
         | Cont e m => obind (evals B e m [Var "ret"]) (fun vs => Some (vs, m)) | _ => None end).
      cbn [f_body fn_ec_pairing].
      rewrite exec_cons, (st_mstore _ _ _ m _ _ 0 (m 0x1420)) by reflexivity. cbn [cont].
      set (m1 := upd m _ _).
      rewrite exec_cons, (st_mstore _ _ _ m1 _ _ 0x20 (m 0x1440)) by reflexivity. cbn [cont].
      set (m2 := upd m1 _ _).
      rewrite exec_cons, (st_mstore _ _ _ m2 _ _ 0x40 (m 0x860)) by reflexivity. cbn [cont].
      set (m3 := upd m2 _ _).
      rewrite exec_cons, (st_mstore _ _ _ m3 _ _ 0x60 (m 0x880)) by reflexivity. cbn [cont].
      set (m4 := upd m3 _ _).
      rewrite exec_cons, (st_mstore _ _ _ m4 _ _ 0x80 (m 0x8a0)) by reflexivity. cbn [cont].
      set (m5 := upd m4 _ _).
      rewrite exec_cons, (st_mstore _ _ _ m5 _ _ 0xa0 (m 0x8c0)) by reflexivity. cbn [cont].
      set (m6 := upd m5 _ _).
      rewrite exec_cons, (st_mstore _ _ _ m6 _ _ 0xc0 (m 0x1460)) by reflexivity. cbn [cont].
      set (m7 := upd m6 _ _).
      rewrite exec_cons, (st_mstore _ _ _ m7 _ _ 0xe0 (m 0x1480)) by reflexivity. cbn [cont].
      set (m8 := upd m7 _ _).
      rewrite exec_cons, (st_mstore _ _ _ m8 _ _ 0x100 (m 0x8e0)) by reflexivity. cbn [cont].
      set (m9 := upd m8 _ _).
      rewrite exec_cons, (st_mstore _ _ _ m9 _ _ 0x120 (m 0x900)) by reflexivity. cbn [cont].
      set (m10 := upd m9 _ _).
      rewrite exec_cons, (st_mstore _ _ _ m10 _ _ 0x140 (m 0x920)) by reflexivity. cbn [cont].
      set (m11 := upd m10 _ _).
      rewrite exec_cons, (st_mstore _ _ _ m11 _ _ 0x160 (m 0x940)) by reflexivity. cbn [cont].
      set (m12 := upd m11 _ _).
      assert (W : words_at m12 0 (Z.to_nat (0x180 / 32)) = pair_words m) by reflexivity.
      assert (S : m_static in_g2 pairing m12 8 0 0x180 0 0x20 =
        Some match decode_pairs in_g2 (pair_words m) with Some l => (1, upd m12 0 (if pairing l then 1 else 0)) | None => (0, m12) end).
      { unfold m_static. change (negb (aligned 0 && aligned 0)) with false. change (8 =? 5) with false. change (8 =? 6) with false.
        change (8 =? 7) with false. change (8 =? 8) with true. change ((0x180 mod 0xc0 =? 0) && (0x20 =? 0x20)) with true. cbv iota.
        rewrite W. reflexivity. }
      clear W. rewrite exec_cons. cbn [step eval_rhs eval obind lookup String.eqb Ascii.eqb Bool.eqb num EVM static].
      rewrite S. clear S. cbn [obind].
      destruct (decode_pairs in_g2 (pair_words m)) as [l|]; [destruct (pairing l)|]; cbn [obind]; eexists; reflexivity. }
    destruct E as (m' & ->). exists m'. reflexivity.
  Qed.
  Lemma run_tail (m : mem) (vk : Z) : m 0x7a0 = 0 ->
    let o := run B lim functions [("success", 1); ("r", r_mod); ("q", q_mod); ("vk", vk)] m tail in
    match decode_pairs in_g2 (pair_words m) with Some l => if pairing l then returns_one o else o = Rev | None => o = Rev end.
  Proof.
    intros H0 o. destruct (pair_call m vk H0) as (m' & E). unfold o, tail, run in *.
    change [main_09; main_10; main_11; main_12; main_13] with ([main_09; main_10] ++ [main_11; main_12; main_13])%list.
    rewrite exec_app, E. cbn [cont]. 
    destruct (decode_pairs in_g2 (pair_words m)) as [l|]; [destruct (pairing l)|]; [|reflexivity|reflexivity].
    exists (upd m' 0 1). split; reflexivity.
  Qed.
End Tail.
