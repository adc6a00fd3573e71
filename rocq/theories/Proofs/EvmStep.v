(** Running pieces of Yul programs on the EVM by hand: addresses and words below 2^256, scalars as field elements, loops with an invariant. *)
From Coq Require Import ZArith List String Bool Lia.
From Verif.Base Require Import Fld Fp EC Primes Curves Group.
From Verif.Model Require Import Monad Evm Points PairingSol Dkg Yul.
From Verif.Proofs Require Import InstanceProofs OnchainProofs YulSim YulSym YulFuel.
Import ListNotations.
Open Scope string_scope.
Open Scope Z_scope.

Lemma add_small a b : 0 <= a + b < W256 -> word_bin ADD a b = a + b.
Proof. intros H. apply Z.mod_small, H. Qed.
Lemma sub_small a b : 0 <= a - b < W256 -> word_bin SUB a b = a - b.
Proof. intros H. apply Z.mod_small, H. Qed.
Lemma mul_small a b : 0 <= a * b < W256 -> word_bin MUL a b = a * b.
Proof. intros H. apply Z.mod_small, H. Qed.
Lemma lt_true a b : a < b -> word_bin LT a b = 1.
Proof. intros H. unfold word_bin. apply Z.ltb_lt in H. rewrite H. reflexivity. Qed.
Lemma lt_false a b : b <= a -> word_bin LT a b = 0.
Proof. intros H. unfold word_bin. apply Z.ltb_ge in H. rewrite H. reflexivity. Qed.
Lemma mulmod_fr z w : word_ter MULMOD z w r_mod = vr (fr z * fr w)%fld.
Proof. unfold word_ter. change (r_mod =? 0) with false. cbv iota. unfold mulmod. rewrite <- vr_fr. apply f_equal. apply of_Z_mul. Qed.
Lemma addmod_fr z w : word_ter ADDMOD z w r_mod = vr (fr z + fr w)%fld.
Proof. unfold word_ter. change (r_mod =? 0) with false. cbv iota. unfold addmod. rewrite <- vr_fr. apply f_equal. apply of_Z_add. Qed.
Lemma mul_vr (a b : Fr) : word_ter MULMOD (vr a) (vr b) r_mod = vr (a * b)%fld.
Proof. rewrite mulmod_fr, !fr_vr. reflexivity. Qed.
Lemma add_vr (a b : Fr) : word_ter ADDMOD (vr a) (vr b) r_mod = vr (a + b)%fld.
Proof. rewrite addmod_fr, !fr_vr. reflexivity. Qed.
Lemma sub_vr (a b : Fr) : word_ter ADDMOD (vr a) (word_bin SUB r_mod (vr b)) r_mod = vr (a + - b)%fld.
Proof.
  rewrite sub_small by (pose proof (vr_range b); pose proof r_W; lia). rewrite addmod_fr, fr_vr, neg_rep. reflexivity.
Qed.
Lemma sub1_vr (a : Fr) : word_ter ADDMOD (vr a) (word_bin SUB r_mod 1) r_mod = vr (a + fr (r_mod - 1))%fld.
Proof. rewrite sub_small by (split; [discriminate|reflexivity]). rewrite addmod_fr, fr_vr. reflexivity. Qed.
Lemma load_al m a : a mod 32 = 0 -> m_load m a = Some (m a).
Proof. intros H. unfold m_load, aligned. rewrite H. reflexivity. Qed.
Lemma store_al m a v : a mod 32 = 0 -> m_store m a v = Some (upd m a v).
Proof. intros H. unfold m_store, aligned. rewrite H. reflexivity. Qed.
Lemma al_mul i : (32 * i) mod 32 = 0. Proof. rewrite Z.mul_comm. apply Z.mod_mul. lia. Qed.
Lemma al_add a b : a mod 32 = 0 -> b mod 32 = 0 -> (a + b) mod 32 = 0.
Proof. intros H1 H2. rewrite Z.add_mod, H1, H2 by lia. reflexivity. Qed.
Lemma al_sub a b : a mod 32 = 0 -> b mod 32 = 0 -> (a - b) mod 32 = 0.
Proof. intros H1 H2. rewrite Zminus_mod, H1, H2. reflexivity. Qed.
Ltac al := lazymatch goal with
  | |- (_ - _) mod _ = _ => apply al_sub; al
  | |- (_ + _) mod _ = _ => first [assumption | apply al_add; al]
  | |- (32 * _) mod _ = _ => apply al_mul
  | _ => first [assumption | reflexivity]
  end.

Section For.
  Variable M : machine.
  Variable call : calls M.
  Variable lim : nat.
  Lemma for_inv e m init c post body e1 m1 (env : nat -> vars M) (P : nat -> memory M -> Prop) N :
    exec M call lim e m init = Cont e1 m1 -> e1 = env 0%nat -> P 0%nat m1 -> (N < lim)%nat ->
    (forall i m, (i < N)%nat -> P i m -> test M (env i) m c = Some true /\
       exists e' m' m2, leave M (env i) (exec M call lim (env i) m body) = Cont e' m' /\ exec M call lim e' m' post = Cont (env (S i)) m2 /\ P (S i) m2) ->
    (forall m, P N m -> test M (env N) m c = Some false) ->
    exists m', step M call lim e m (For init c post body) = Cont (skipn (List.length (env N) - List.length e) (env N)) m' /\ P N m'.
  Proof.
    intros E1 -> H0 Hn Hs He. rewrite step_for, E1. cbn [cont].
    destruct (loop_inv M (fun e m => test M e m c) (fun e m => cont M (leave M e (exec M call lim e m body)) (fun e m => exec M call lim e m post))
      (fun i e m => e = env i /\ P i m) N) with (n := lim) (e := env 0%nat) (m := m1) as (e' & m' & El & -> & HP).
    - intros i e' m' Hi (-> & HP). destruct (Hs i m' Hi HP) as (Ht & e2 & m2 & m3 & Eb & Ep & HP'). split; [exact Ht|].
      exists (env (S i)), m3. rewrite Eb. cbn [cont]. auto.
    - intros e' m' (-> & HP). auto.
    - exact Hn.
    - auto.
    - exists m'. rewrite El. cbn [leave]. auto.
  Qed.
End For.
(** evaluation of everything but words and memory *)
Ltac ev := lazy [exec step eval eval_rhs evals lookup assign assigns declares obind cont leave ok_env ok_mem test option_map map
  String.eqb Ascii.eqb Bool.eqb EVM val memory num bin ter isz truth mload mstore mstore8 cdload keccak_op static extcodecopy
  skipn List.length Nat.sub f_params f_rets f_body].
Ltac ev_in H := lazy [exec step eval eval_rhs evals lookup assign assigns declares obind cont leave ok_env ok_mem test option_map map
  String.eqb Ascii.eqb Bool.eqb EVM val memory num bin ter isz truth mload mstore mstore8 cdload keccak_op static extcodecopy
  skipn List.length Nat.sub f_params f_rets f_body] in H.
