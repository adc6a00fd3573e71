(** Round by round, over an abstract field: a circuit that is satisfied has a proof for all but few challenges. *)
From Coq Require Import ZArith NArith Nnat List Lia Field Bool.
From Verif.Base Require Import Fld Fp Poly Group.
From Verif.Spec Require Import Few Plonk PlonkCircuit.
From Verif.Proofs Require Import FewProofs GrandProduct GrandComplete RowLagrange ConstraintSound RowSound RowComplete OpenSound OpenComplete PlonkSoundK.
Import ListNotations.

Lemma sets_opened : forallb (fun s => forallb (fun r => forallb (fun cl => match cl with Quot => if rot_eq_dec r Cur then true else false | _ => opened cl r end) (snd s)) (fst s)) rotation_sets = true.
Proof. reflexivity. Qed.

Section Complete.
  Variable K : Fld.
  Open Scope fld_scope.
  Add Field kf : (flaw K).
  Hypothesis finite : exists all : list K, NoDup all /\ forall x, In x all.
  Variables mds mds_inv : nat -> nat -> K.
  Variables delta tag : K.
  Variable n : nat.
  Variables omega n_inv : K.
  Hypothesis n8 : (8 <= n)%nat.
  Hypothesis omega_n : fpow omega (N.of_nat n) = 1.
  Hypothesis omega_inj : forall i j, (i < n)%nat -> (j < n)%nat -> fpow omega (N.of_nat i) = fpow omega (N.of_nat j) -> i = j.
  Hypothesis n_inv_ok : n_inv * fsum (map (fun _ => 1 : K) (seq 0 n)) = 1.
  Notation w i := (fpow omega (N.of_nat i)).
  Notation u := (usable n).
  Variable c : circuit K.
  Hypothesis Hc : circuit_ok K n c.
  Hypothesis Hinj : cycles K n c.
  Variables fx sg : nat -> list K.
  Hypothesis Hd : describes K n omega delta c fx sg.
  Variable insts : list K.
  Hypothesis Hinsts : (length insts <= n)%nat.
  Variable adv : nat -> list K.
  Hypothesis Hadv : forall i, short K n (adv i).

  Theorem plonk_complete : satisfied K mds mds_inv tag n c insts (fun j i => in_row K omega (adv j) i) ->
    forall theta, exists A' S', (forall i, short K n (A' i)) /\ (forall i, short K n (S' i)) /\
    except (5 * u) (fun beta => except (14 * u) (fun gamma => exists Z L, (forall i, short K n (Z i)) /\ (forall i, short K n (L i)) /\ forall R, short K n R ->
    forall y, exists H, (forall i, short K n (H i)) /\
    forall X, X <> 0 -> fpow X (N.of_nat n) <> 1 -> forall e : col -> rot -> K,
      (forall cl r, opened cl r = true -> e cl r = peval (column K fx sg (Messages K adv A' S' Z L R) cl) (point K omega X r)) ->
    forall zeta nu, exists W, short K n W /\ forall mu, (forall r, mu <> point K omega X r) -> exists W', short K n W' /\
    forall s, lin K (point K omega X) (claim K mds mds_inv delta tag n omega n_inv insts e theta beta gamma y X)
      (fun cl => peval (full_column K n fx sg (Messages K adv A' S' Z L R) H X cl) s) zeta nu mu (peval W s) (peval W' s) = s * peval W' s)).
  Proof.
    intros Hsat theta. pose proof (n7 n n8) as N7.
    destruct (row_complete K mds mds_inv delta tag n omega n_inv N7 omega_n omega_inj n_inv_ok c Hc Hinj fx sg Hd insts Hinsts adv Hsat theta) as (A' & S' & HA & HS & RC).
    exists A', S'. split; [exact HA|]. split; [exact HS|]. revert RC. apply except_impl. intros beta RC. revert RC. apply except_impl. intros gamma (Z & L & HZ & HL & RC).
    exists Z, L. split; [exact HZ|]. split; [exact HL|]. intros R HR y. specialize (RC R). set (m := Messages K adv A' S' Z L R) in *.
    assert (SM : all_short K n m) by (repeat split; assumption).
    assert (CZ : forall i, (i < n)%nat -> comb K mds mds_inv delta tag n omega n_inv (column K fx sg m) insts theta beta gamma y (w i) = 0).
    { intros i Li. specialize (RC i Li). unfold comb. rewrite (cons_row K mds mds_inv delta tag n omega n_inv N7 omega_n omega_inj n_inv_ok (column K fx sg m) insts Hinsts theta beta gamma i Li).
      rewrite horner. rewrite (peval_zeros K (rev _)); [ring|]. intros v Hv. apply in_rev in Hv. rewrite Forall_forall in RC. exact (RC v Hv). }
    destruct (quotient_exists K n omega omega_n omega_inj _ ltac:(lia)
      (pf_comb K mds mds_inv delta tag n omega n_inv N7 (column K fx sg m) (fun cl => column_short K delta n omega n8 c fx sg Hd insts Hinsts m cl SM) insts Hinsts theta beta gamma y) CZ) as (H & HH & EH).
    exists H. split; [exact HH|]. intros X X0 Xn e He zeta nu.
    apply (open_complete K (point K omega X) (fun r r' => points_distinct K n omega n8 omega_n omega_inj X r r' X0)
      (claim K mds mds_inv delta tag n omega n_inv insts e theta beta gamma y X) (full_column K n fx sg m H X) n ltac:(lia)
      (fun cl => full_short K delta n omega n8 c fx sg Hd m H X cl SM (fun i _ => HH i))).
    intros s cl r Hs Hr Hcl. pose proof sets_opened as SO. rewrite forallb_forall in SO. specialize (SO s Hs). rewrite forallb_forall in SO. specialize (SO r Hr).
    rewrite forallb_forall in SO. specialize (SO cl Hcl).
    destruct cl; cbn [claim full_column]; try exact (He _ _ SO).
    destruct (rot_eq_dec r Cur) as [->|]; [|discriminate SO]. rewrite hlist_val. cbn [point]. unfold qv.
    rewrite (combined_opened K mds mds_inv delta tag e (ev K omega (column K fx sg m) X) He).
    rewrite (off_inst K n omega n_inv N7 omega_n omega_inj n_inv_ok X Xn), (off_0 K n omega n_inv N7 omega_n omega_inj n_inv_ok X Xn), (off_last K n omega n_inv N7 omega_n omega_inj n_inv_ok X Xn), (off_blind K n omega n_inv N7 omega_n omega_inj n_inv_ok X Xn).
    specialize (EH X). assert (D : fpow X (N.of_nat n) - 1 <> 0) by (intros E; apply Xn; apply (fsub_eq0 K); exact E).
    transitivity (comb K mds mds_inv delta tag n omega n_inv (column K fx sg m) insts theta beta gamma y X / (fpow X (N.of_nat n) - 1)); [reflexivity|].
    rewrite EH. unfold hval. field. exact D.
  Qed.
End Complete.
