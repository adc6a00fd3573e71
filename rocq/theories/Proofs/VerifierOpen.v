(** The opening part of the verifier: the commitment to the quotient, and the two points that go to the pairing. *)
From Coq Require Import ZArith NArith List String Bool Lia Field.
From Verif.Base Require Import Fld Fp Primes Curves Group.
From Verif.Model Require Import Monad Evm Yul Halo2VerifierSol VerifierCall.
From Verif.Spec Require Import Plonk.
From Verif.Proofs Require Import YulSim YulSym VerifierSetup VerifierTools VerifierGates.
Import ListNotations.
Open Scope string_scope.
Open Scope Z_scope.

Section Open.
  Variable vka : Z. (* the address of the key *)
  Variable K : Fld.
  Variable ofz : Z -> K.
  Variable G : Type.
  Variable padd : G -> G -> G.
  Variable psmul : K -> G -> G.
  Variable pt : Z -> G.
  Variable ev : Z -> K.
  Variable kc : nat -> Z.
  Variable vkp : Z -> G.
  Variables n_inv omega omega_inv omega_inv_l : K.
  Variables theta beta gamma y x zeta nu mu : K.
  Notation sexec := (sexec K ofz G padd psmul pt ev).
  Notation SMac := (SM K ofz G padd psmul pt ev).
  Notation sb := (sbase K G kc vkp n_inv omega omega_inv omega_inv_l theta beta gamma y x zeta nu mu).
  Notation e0 := (senv K ofz G padd psmul pt ev vka).
  Open Scope fld_scope.
  Local Notation "f ! n" := (f n%nat) (at level 9, n at level 0, only parsing).
  Notation reaches := (reaches K ofz G padd psmul pt ev sb).

  Ltac reach :=
    lazymatch goal with
    | |- VerifierTools.reaches _ _ _ _ _ _ _ _ ?en ?w ?l _ _ =>
        let ws := sym_eval (match sexec en (Smem w sb True) l with Cont _ m => wr m | _ => [] end) in
        let c := sym_eval (match sexec en (Smem w sb True) l with Cont _ m => cnd m | _ => False end) in
        exists (Smem ws sb c); split; [reflexivity|]
    end;
    apply covers_check; [cbn [cnd]; repeat split|reflexivity|repeat constructor|reflexivity].

  (** main_07 *)
  Definition quotient (xn : K) : G :=
    fold_left (fun acc i => padd (psmul xn acc) (pt (0x784 - 64 * Z.of_nat i))) (seq 1 4) (pt 0x784).
  Definition W0 (hev : K) (H : G) : list (Z * sv K G) := [(0x13a0, F hev); (0x13c0, X H); (0x13e0, Y H)]%Z.
  Lemma run_main_07 xn hev : reaches e0 [(0x12e0, F xn); (0x13a0, F hev)]%Z [main_07] e0 (W0 hev (quotient xn)).
  Proof. reach. Qed.

  Variable hev : K.
  Variable H : G.
  Notation w0 := (W0 hev H).
  Definition pts (i : nat) : K :=
    match i with 0%nat => x * omega_inv * omega_inv * omega_inv * omega_inv * omega_inv * omega_inv
            | 1%nat => x * omega_inv | 2%nat => x | _ => x * omega end.
  Definition diffs (d : nat -> K) (i : nat) : K :=
    match i with 0%nat => d!0 | 1%nat => d!0 * d!1 * d!3 | 2%nat => d!0 * d!1 | 3%nat => d!1 | _ => d!0 * d!3 end.
  Definition w1 (p d : nat -> K) : list (Z * sv K G) :=
    (words 0x3c0 4 p ++ words 0x440 4 d ++ [(0x4c0%Z, F (d!1 * d!2 * d!3))] ++ words 0x4e0 5 (diffs d) ++ [(0, F (d!0))]%Z)%list.
  Lemma o0 : reaches e0 w0 (part 0 2 main_08) e0 (w0 ++ w1 pts (fun i => mu + - pts i))%list.
  Proof. reach. Qed.
  Definition coefs (p d : nat -> K) (i : nat) : K :=
    match i with
    | 0%nat => d!0
    | 1%nat => (p!1 + - p!2) * (p!1 + - p!3) * d!1 | 2%nat => (p!2 + - p!1) * (p!2 + - p!3) * d!2 | 3%nat => (p!3 + - p!1) * (p!3 + - p!2) * d!3
    | 4%nat => ofz 1 * d!2
    | 5%nat => (p!2 + - p!3) * d!2 | 6%nat => (p!3 + - p!2) * d!3
    | 7%nat => (p!0 + - p!2) * (p!0 + - p!3) * d!0 | 8%nat => (p!2 + - p!0) * (p!2 + - p!3) * d!2 | 9%nat => (p!3 + - p!0) * (p!3 + - p!2) * d!3
    | 10%nat => (p!1 + - p!2) * d!1 | _ => (p!2 + - p!1) * d!2
    end.
  Definition w2 (d cf : nat -> K) : list (Z * sv K G) :=
    ([(0x4c0%Z, F (d!1 * d!2 * d!3))] ++ words 0x4e0 5 (diffs d) ++ words 0 12 cf)%list.
  Lemma o1 p d : reaches e0 (w0 ++ w1 p d)%list (part 2 7 main_08) e0 (w0 ++ w2 d (coefs p d))%list.
  Proof. reach. Qed.
  Definition w3 (s : K) (sc u : nat -> K) : list (Z * sv K G) :=
    ([(0x4c0%Z, F s)] ++ words 0x4e0 5 sc ++ words 0 12 u)%list.
  Definition scales (d : nat -> K) (di : K) (i : nat) : K := match i with O => di | _ => diffs d i * di end.
  Lemma o2 d cf : let u := binv cf 11 in
    reaches e0 (w0 ++ w2 d cf)%list (part 7 8 main_08) e0 (w0 ++ w3 (d!1 * d!2 * d!3) (scales d (u!0)) u)%list.
  Proof. intros u; subst u. reach. Qed.

  (** the columns: values and commitments *)
  Definition ei (c : col) (r : rot) : K := match c with Quot => hev | _ => ev (eval_pos c r) end.
  Definition com_index (c : col) : nat :=
    (fix go (l : list col) : nat := match l with [] => 0%nat | c' :: l => if col_eq_dec c c' then 0%nat else S (go l) end) commitments.
  Definition cm (c : col) : G :=
    match c with
    | Quot => H
    | Fix_ i => vkp (0x960 + 64 * Z.of_nat i)
    | Sig i => vkp (0x960 + 64 * Z.of_nat (23 + i))
    | c => pt (0x84 + 64 * Z.of_nat (com_index c))
    end.
  Definition rset (j : nat) : list rot := fst (nth j rotation_sets ([], [])).
  Definition cset (j : nat) : list col := snd (nth j rotation_sets ([], [])).
  Definition uset (u : nat -> K) (j : nat) : list K :=
    match j with 0%nat => [u!1; u!2; u!3] | 1%nat => [u!4] | 2%nat => [u!5; u!6] | 3%nat => [u!7; u!8; u!9] | _ => [u!10; u!11] end.
  Definition row (us : list K) (c : col) (rs : list rot) (acc : K) : K :=
    fold_left (fun acc p => acc + fst p * ei c (snd p)) (combine us rs) acc.
  Definition horner (us : list K) (rs : list rot) (cs : list col) : K :=
    match rev cs with [] => ofz 0 | c :: cs => fold_left (fun acc c => row us c rs (acc * zeta)) cs (row us c rs (ofz 0)) end.
  Definition revals (sc u : nat -> K) (j : nat) : K :=
    match j with O => horner (uset u j) (rset j) (cset j) | _ => horner (uset u j) (rset j) (cset j) * sc j end.
  Definition sums (u : nat -> K) (j : nat) : K := match uset u j with a :: l => fold_left (@fadd K) l a | [] => ofz 0 end.
  Definition w4 (s : K) (sc re sm : nat -> K) : list (Z * sv K G) :=
    ([(0x4c0%Z, F s)] ++ words 0x4e0 5 sc ++ words 0x580 5 re ++ words 0x620 5 sm)%list.
  Lemma o3 s sc u : reaches e0 (w0 ++ w3 s sc u)%list (part 8 18 main_08) e0 (w0 ++ w4 s sc (revals sc u) (sums u))%list.
  Proof. reach. Qed.
  Definition total (re si : nat -> K) : K := fold_left (fun acc j => acc * nu + si j * re j) [3; 2; 1; 0]%nat (si!4 * re!4).
  Definition w5 (s : K) (sc : nat -> K) (R : K) : list (Z * sv K G) :=
    ([(0x4c0%Z, F s)] ++ words 0x4e0 5 sc ++ [(0x1400%Z, F R)])%list.
  Lemma o5 s sc re sm :
    reaches e0 (w0 ++ w4 s sc re sm)%list (part 18 19 main_08) e0 (w0 ++ w5 s sc (total re (binv sm 4)))%list.
  Proof. reach. Qed.
  Definition phorner (cs : list col) : G :=
    match rev cs with [] => pt 0 | c :: cs => fold_left (fun acc c => padd (psmul zeta acc) (cm c)) cs (cm c) end.
  Definition nus (j : nat) : K := Nat.iter (j - 1) (fun v => v * nu) nu.
  Definition msm (s : K) (sc : nat -> K) (R : K) : G :=
    padd (padd (padd (fold_left (fun acc j => padd acc (psmul (nus j * sc j) (phorner (cset j)))) [1; 2; 3; 4]%nat (phorner (cset 0)))
                     (psmul (- R) (vkp 0x820)))
               (psmul (- s) (pt 0x1184)))
         (psmul mu (pt 0x11c4)).
  Definition w6 (L R : G) : list (Z * sv K G) := [(0x1420, X L); (0x1440, Y L); (0x1460, X R); (0x1480, Y R)]%Z.
  Lemma o6 s sc R : reaches e0 (w0 ++ w5 s sc R)%list (part 19 20 main_08) e0 (w6 (msm s sc R) (pt 0x11c4)).
  Proof. reach. Qed.
End Open.
