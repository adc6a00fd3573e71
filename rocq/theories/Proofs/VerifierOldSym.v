(** The arithmetic part of contracts/Halo2Verifier-3-5-g2.sol on symbolic inputs: it is that of contracts/Halo2Verifier.sol with the
    call data one word further to the left. *)
From Coq Require Import ZArith NArith List String Bool Lia.
From Verif.Base Require Import Fld Fp Primes Curves Group.
From Verif.Model Require Import Monad Evm Yul Halo2VerifierSol VerifierCall Halo2VerifierOldSol.
From Verif.Spec Require Import Plonk.
From Verif.Proofs Require Import YulSim YulSym YulMore VerifierSetup VerifierTools VerifierGates VerifierLagrange VerifierOpen.
Import ListNotations.
Open Scope string_scope.
Open Scope Z_scope.

Lemma old_functions_same : old_functions = functions. Proof. reflexivity. Qed.

Section Old.
  Variable vka : Z.
  Variable K : Fld.
  Variable ofz : Z -> K.
  Variable G : Type.
  Variable padd : G -> G -> G.
  Variable psmul : K -> G -> G.
  Variable pt : Z -> G.
  Variable ev : Z -> K.
  Variable kc0 : nat -> Z.
  Notation kc := (kcx kc0).
  Variable vkp : Z -> G.
  Variables n_inv omega omega_inv omega_inv_l : K.
  Variables theta beta gamma y x zeta nu mu : K.
  Notation SMac := (SM K ofz G padd psmul pt ev).
  Definition SMo : machine := SYM K ofz G padd psmul (fun a => scd K G pt ev (a + 32)).
  Notation sb := (sbase K G kc vkp n_inv omega omega_inv omega_inv_l theta beta gamma y x zeta nu mu).
  Notation e0 := (senv K ofz G padd psmul pt ev vka).
  Notation reaches := (reaches K ofz G padd psmul pt ev sb).
  Definition oexec (e : vars SMo) (m : smem K G) (l : list stmt) : outcome SMo := run SMo LIMIT functions e m l.
  Definition reaches_o (en : vars SMo) (w : list (Z * sv K G)) (l : list stmt) (en' : vars SMo) (w' : list (Z * sv K G)) : Prop :=
    exists m, oexec en (Smem w sb True) l = Cont en' m /\ covers sb w' m.
  Lemma reaches_down en w l en' w' l' : reaches en w l en' w' -> forallb (const true (no_loads functions)) l = true -> l' = map (down 32) l ->
    reaches_o en w l' en' w'.
  Proof.
    intros (m & E & Cv) H ->. exists m. split; [|exact Cv].
    refine (run_down 32 functions SMac (cdload SMac) (cdload SMo) _ LIMIT l en (Smem w sb True) en' m H E).
    intros a. cbn [cdload SMo SYM num SM]. f_equal. lia.
  Qed.
  Ltac down_ H := refine (reaches_down _ _ _ _ _ _ H _ _); reflexivity.
  Open Scope fld_scope.

  (** main_05 *)
  Notation e4 := (e4 vka K ofz G padd psmul pt ev omega x).
  Notation after := (after K ofz G ev).
  Lemma old_s5 xn lic t :
    cont SMo (oexec (e4 xn lic) (Smem (words 0x12e0 56 t) sb True) (part 15 40 old_main_05))
       (fun en m => Cont (M := SMo) (skipn (List.length en - 4) en) m) =
    Cont (M := SMo) e0 (Smem (after xn t ++ map (fun i => (0x12e0 + 32 * Z.of_nat i, F (t i))%Z) (seq 6 50))%list sb True).
  Proof. reflexivity. Qed.
  Lemma old_cont_inv (o : outcome SMo) (h : vars SMo -> vars SMo) (en : vars SMo) m : cont SMo o (fun e m => Cont (M := SMo) (h e) m) = Cont (M := SMo) en m ->
    exists e, o = Cont (M := SMo) e m /\ h e = en.
  Proof. destruct o; cbn [cont]; intros E; try discriminate. injection E as <- <-. eauto. Qed.
  Lemma old_s5' xn lic t : exists en, reaches_o (e4 xn lic) (words 0x12e0 56 t) (part 15 40 old_main_05) en (after xn t) /\
    skipn (List.length en - 4) en = e0.
  Proof.
    destruct (old_cont_inv _ (fun en => skipn (List.length en - 4) en) _ _ (old_s5 xn lic t)) as (en & E & S). exists en. split; [|exact S].
    eexists; split; [exact E|]. apply covers_app. reflexivity.
  Qed.

  Notation n := (2 ^ 18)%N.
  Lemma old_r5 : ofz 0 = f0 -> ofz (r_mod - 1) = fopp f1 ->
    omega_inv_l * fpow omega 6 = 1 -> fpow omega n = 1 -> fpow x n <> 1 ->
    exists en, reaches_o (e4 (fpow x n) ((fpow x n + ofz (r_mod - 1)) * n_inv)) (words 0x12e0 56 (lag_t K ofz n_inv omega omega_inv_l x))
      (part 15 40 old_main_05) en (lag_spec K G ev n_inv omega x) /\
    skipn (List.length en - 4) en = e0.
  Proof.
    intros Z0 Z1 W1 W2 X.
    destruct (old_s5' (fpow x n) ((fpow x n + ofz (r_mod - 1)) * n_inv) (lag_t K ofz n_inv omega omega_inv_l x)) as (en & R & S).
    exists en. split; [|exact S]. unfold VerifierLagrange.after in R.
    rewrite lag_last, lag_0, lag_blind, lag_inv, lag_insts in R by assumption. exact R.
  Qed.

  Ltac oreach :=
    lazymatch goal with
    | |- reaches_o ?en ?w ?l _ _ =>
        let ws := sym_eval (match oexec en (Smem w sb True) l with Cont _ m => wr m | _ => [] end) in
        let c := sym_eval (match oexec en (Smem w sb True) l with Cont _ m => cnd m | _ => False end) in
        exists (Smem ws sb c); split; [reflexivity|]
    end;
    apply covers_check; [cbn [cnd]; repeat split|reflexivity|repeat constructor|reflexivity].
  (** main_07, main_08 *)
  Lemma old_run_07 xn hev : reaches_o e0 [(0x12e0, F xn); (0x13a0, F hev)]%Z [old_main_07] e0 (W0 K G hev (quotient K G padd psmul pt xn)).
  Proof. oreach. Qed.
  Variable hev : K.
  Variable H : G.
  Notation w0 := (W0 K G hev H).
  Lemma old_o3 s sc u : reaches_o e0 (w0 ++ w3 K G s sc u)%list (part 8 18 old_main_08) e0
    (w0 ++ w4 K G s sc (revals K ofz ev zeta hev sc u) (sums K ofz u))%list.
  Proof. oreach. Qed.
  Lemma old_o6 s sc R : reaches_o e0 (w0 ++ w5 K G s sc R)%list (part 19 20 old_main_08) e0
    (w6 K G (msm K G padd psmul pt vkp zeta nu mu H s sc R) (pt 0x11c4)).
  Proof. oreach. Qed.
End Old.
