(** The verifier on symbolic inputs: the proof, the instances, the key and the challenges as field elements and points. *)
From Coq Require Import ZArith List String Bool Lia.
From Verif.Base Require Import Fld Fp Primes Curves Group.
From Verif.Model Require Import Monad Evm Yul Halo2VerifierSol VerifierCall.
From Verif.Proofs Require Import YulSim YulSym.
Import ListNotations.
Open Scope string_scope.
Open Scope Z_scope.


(** [kc] with the words of the deployed keys: 49 instances, 2^18 rows *)
Definition kcx (kc : nat -> Z) (i : nat) : Z := match i with 1%nat => 49 | 2%nat => 18 | _ => kc i end.
Section Setup.
  Variable K : Fld.
  Variable ofz : Z -> K.
  Variable G : Type.
  Variable padd : G -> G -> G.
  Variable psmul : K -> G -> G.
  (** calldata: points and scalars by the position of their (first) word *)
  Variable pt : Z -> G.
  Variable ev : Z -> K.
  Definition between (a b c : Z) : bool := (a <=? b) && (b <? c).
  Definition point_word (base a : Z) : sv K G := if (a - base) mod 64 =? 0 then X (pt a) else Y (pt (a - 32)).
  Definition scd (a : Z) : option (sv K G) :=
    if negb (a mod 32 =? 4) then None
    else if between 0x84 a 0x7c4 then Some (point_word 0x84 a)
    else if between 0x7c4 a 0x1184 then Some (F (ev a))
    else if between 0x1184 a 0x1204 then Some (point_word 0x1184 a)
    else if between 0x1224 a 0x1844 then Some (F (ev a))
    else None.
  (** memory after the key was loaded: points of the key by the position of their first word; scalars; challenges *)
  (** ... and, for the two points of G2, by the number of the word *)
  Variable kc : nat -> Z.
  Variable vkp : Z -> G.
  Variables n_inv omega omega_inv omega_inv_l : K.
  Variables theta beta gamma y x zeta nu mu : K.
  Definition key_word (a : Z) : sv K G := if (a - 0x820) mod 64 =? 0 then X (vkp a) else Y (vkp (a - 32)).
  Definition sbase (a : Z) : option (sv K G) :=
    if negb (aligned a) then None
    else if between 0x960 a 0x1160 || between 0x820 a 0x860 then Some (key_word a)
    else if a =? 0x06e0 then Some (C (kc 1%nat)) else if a =? 0x0700 then Some (C (kc 2%nat))
    else if a =? 0x0720 then Some (F n_inv) else if a =? 0x0740 then Some (F omega)
    else if a =? 0x0760 then Some (F omega_inv) else if a =? 0x0780 then Some (F omega_inv_l)
    else if a =? 0x07a0 then Some (C 0)
    else if between 0x860 a 0x960 then Some (C (kc (Z.to_nat ((a - 0x6c0) / 32))))
    else if a =? 0x1160 then Some (F theta) else if a =? 0x1180 then Some (F beta)
    else if a =? 0x11a0 then Some (F gamma) else if a =? 0x11c0 then Some (F y)
    else if a =? 0x11e0 then Some (F x) else if a =? 0x1200 then Some (F zeta)
    else if a =? 0x1220 then Some (F nu) else if a =? 0x1240 then Some (F mu)
    else None.
  Lemma sbase_low a v : sbase a = Some v -> a < 0x12e0.
  Proof.
    unfold sbase, between. destruct (negb (aligned a)); [discriminate|].
    repeat match goal with
    | |- context [?b <=? a] => destruct (Z.leb_spec b a)
    | |- context [a <? ?b] => destruct (Z.ltb_spec a b)
    | |- context [a =? ?b] => destruct (Z.eqb_spec a b)
    end; cbn [andb orb]; intros E; try discriminate E; lia.
  Qed.
  Definition SM : machine := SYM K ofz G padd psmul scd.
  Definition sexec (e : vars SM) (m : smem K G) (l : list stmt) : outcome SM := run SM LIMIT functions e m l.
  Definition senv (vka : Z) : vars SM := [("success", C 1); ("r", C r_mod); ("q", C q_mod); ("vk", C vka)].
End Setup.
Lemma sbase_ext K G kc kc' vkp n_inv omega omega_inv omega_inv_l theta beta gamma y x zeta nu mu a : (forall i, kc i = kc' i) ->
  sbase K G kc vkp n_inv omega omega_inv omega_inv_l theta beta gamma y x zeta nu mu a =
  sbase K G kc' vkp n_inv omega omega_inv omega_inv_l theta beta gamma y x zeta nu mu a.
Proof. intros H. unfold sbase. rewrite !H. reflexivity. Qed.
