(** Round by round, over an abstract field: a circuit that is not satisfied is accepted for few challenges only. *)
From Coq Require Import ZArith NArith Nnat List Lia Field Bool.
From Verif.Base Require Import Fld Fp Poly Group.
From Verif.Spec Require Import Few Plonk PlonkCircuit.
From Verif.Proofs Require Import FewProofs GrandProduct RowLagrange ConstraintSound RowSound OpenSound.
Import ListNotations.

Definition cr_eq_dec (x y : col * rot) : {x = y} + {x <> y}. Proof. decide equality; [apply rot_eq_dec|apply col_eq_dec]. Defined.
Definition opened (cl : col) (r : rot) : bool := if in_dec cr_eq_dec (cl, r) openings then true else false.
Definition in_sets (cl : col) (r : rot) : bool :=
  existsb (fun s => (if in_dec rot_eq_dec r (fst s) then true else false) && (if in_dec col_eq_dec cl (snd s) then true else false)) rotation_sets.
Lemma opened_sets : forallb (fun cr => in_sets (fst cr) (snd cr)) ((Quot, Cur) :: openings) = true. Proof. reflexivity. Qed.
Lemma in_sets_spec cl r : in_sets cl r = true -> exists s, In s rotation_sets /\ In r (fst s) /\ In cl (snd s).
Proof.
  intros H. apply existsb_exists in H as (s & Hs & H). apply andb_true_iff in H as (H1 & H2). exists s. split; [exact Hs|].
  destruct (in_dec rot_eq_dec r (fst s)); [|discriminate H1]. destruct (in_dec col_eq_dec cl (snd s)); [|discriminate H2]. split; assumption.
Qed.

Section ExtO.
  Variable K : Fld.
  Variables mds mds_inv : nat -> nat -> K.
  Variables delta tag : K.
  Variables e e' : col -> rot -> K.
  Hypothesis H : forall cl r, opened cl r = true -> e cl r = e' cl r.
  Variables inst l0 ll lb theta beta gamma x : K.
  Lemma constraints_opened : constraints K mds mds_inv delta tag e inst l0 ll lb theta beta gamma x = constraints K mds mds_inv delta tag e' inst l0 ll lb theta beta gamma x.
  Proof.
    unfold constraints, permutation, partial_rounds, pad_and_add, lookup. cbn [app map seq flat_map].
    unfold main_gate, full_round, permutation_step, active, look_table, unmixed, middle, pow5.
    cbn [look_input fold_right map seq permuted Nat.add]. unfold a, f.
    repeat match goal with |- context [e ?cl ?r] => rewrite (H cl r eq_refl) end. reflexivity.
  Qed.
  Lemma combined_opened y : combined K mds mds_inv delta tag e inst l0 ll lb theta beta gamma x y = combined K mds mds_inv delta tag e' inst l0 ll lb theta beta gamma x y.
  Proof. unfold combined. rewrite constraints_opened. reflexivity. Qed.
End ExtO.

Section Sound.
  Variable K : Fld.
  Open Scope fld_scope.
  Add Field kf : (flaw K).
  Hypothesis finite : exists all : list K, NoDup all /\ forall x, In x all.
  Variables mds mds_inv : nat -> nat -> K.
  Variables delta tag : K.
  Variable n : nat.
  Variables omega n_inv : K.
  Hypothesis n8 : (8 <= n)%nat.
  Hypothesis omega_n : fpow omega (N.of_nat n) = 1.
  Hypothesis omega_inj : forall i j, (i < n)%nat -> (j < n)%nat -> fpow omega (N.of_nat i) = fpow omega (N.of_nat j) -> i = j.
  Hypothesis n_inv_ok : n_inv * fsum (map (fun _ => 1 : K) (seq 0 n)) = 1.
  Notation w i := (fpow omega (N.of_nat i)).
  Notation u := (usable n).
  Hypothesis labels : forall j j' i i', (j < 9)%nat -> (j' < 9)%nat -> (i < n)%nat -> (i' < n)%nat ->
    fpow delta (N.of_nat j) * w i = fpow delta (N.of_nat j') * w i' -> j = j' /\ i = i'.
  Lemma n7 : (6 < n)%nat. Proof. lia. Qed.

  Definition hlist (H : nat -> list K) (X : K) : list K := fold_right (fun i acc => padd (H i) (pscale K (fpow X (N.of_nat n)) acc)) [] (seq 0 pieces).
  Lemma hlist_val H X s : peval (hlist H X) s = fold_right (fun i acc => peval (H i) s + fpow X (N.of_nat n) * acc) 0 (seq 0 pieces).
  Proof.
    unfold hlist. generalize (seq 0 pieces). intros l. induction l as [|i l IH]; [reflexivity|]. cbn [fold_right]. rewrite peval_padd, peval_pscale, IH. reflexivity.
  Qed.
  Lemma hlist_short H X : (forall i, (i < pieces)%nat -> (length (H i) <= n)%nat) -> (length (hlist H X) <= n)%nat.
  Proof.
    intros HH. unfold hlist. assert (G : forall l, (forall i, In i l -> (i < pieces)%nat) -> (length (fold_right (fun i acc => padd (H i) (pscale K (fpow X (N.of_nat n)) acc)) [] l) <= n)%nat).
    { induction l as [|i l IH]; intros Hl; [cbn; lia|]. cbn [fold_right]. rewrite padd_length. unfold pscale at 1. rewrite map_length.
      specialize (HH i (Hl i (or_introl eq_refl))). specialize (IH (fun j Hj => Hl j (or_intror Hj))). lia. }
    apply G. intros i Hi. apply in_seq in Hi. lia.
  Qed.
  Lemma points_distinct X r r' : X <> 0 -> r <> r' -> point K omega X r - point K omega X r' <> 0.
  Proof.
    intros X0 D E. apply D. apply (fsub_eq0 K) in E.
    assert (P : forall r, point K omega X r = X * point K omega (w 0) r).
    { intros r0. destruct r0; cbn [point]; rewrite (w_0 K omega); ring. }
    rewrite (P r), (P r') in E. apply (fmul_cancel_l K X _ _ X0) in E. rewrite !(point_row K n omega n7 omega_n) in E.
    assert (L : forall r, (row_at n 0 r < n)%nat).
    { intros r0. destruct r0; cbn [row_at]; try (apply Nat.mod_upper_bound; lia). lia. }
    apply (omega_inj _ _ (L r) (L r')) in E.
    assert (R : forall r, row_at n 0 r = match r with Prev => n - 1 | Cur => 0 | Next => 1 | Last => n - 6 end%nat).
    { intros r0. unfold row_at, usable, blinding. destruct r0; rewrite ?Nat.add_0_l; try (apply Nat.mod_small; lia). reflexivity. }
    rewrite !R in E. destruct r, r'; try reflexivity; exfalso; lia.
  Qed.

  Variable c : circuit K.
  Hypothesis Hc : circuit_ok K n c.
  Variables fx sg : nat -> list K.
  Hypothesis Hd : describes K n omega delta c fx sg.
  Variable insts : list K.
  Hypothesis Hinsts : (length insts <= n)%nat.
  Variable adv : nat -> list K.
  Hypothesis Hadv : forall i, short K n (adv i).

  (** what the quotient must be, given the values claimed *)
  Definition qv (e : col -> rot -> K) theta beta gamma y X : K :=
    combined K mds mds_inv delta tag e (instance_at K omega (N.of_nat n) n_inv insts X) (l_0 K (N.of_nat n) n_inv X)
      (l_last K omega (N.of_nat n) n_inv X) (l_blind K omega (N.of_nat n) n_inv X) theta beta gamma X y / (fpow X (N.of_nat n) - 1).
  Definition claim (e : col -> rot -> K) theta beta gamma y X (cl : col) (r : rot) : K :=
    match cl with Quot => qv e theta beta gamma y X | _ => e cl r end.
  Definition full_column m H X (cl : col) : list K := match cl with Quot => hlist H X | _ => column K fx sg m cl end.
  Lemma full_short m H X cl : all_short K n m -> (forall i, (i < pieces)%nat -> (length (H i) <= n)%nat) -> (length (full_column m H X cl) <= n)%nat.
  Proof.
    intros (M1 & M2 & M3 & M4 & M5 & M6) HH. destruct Hd as (D1 & D2).
    destruct cl; cbn [full_column column]; [apply M1|apply (D1 i)|apply (D2 i)|apply M4|apply M5|apply M2|apply M3|apply hlist_short; exact HH|exact M6].
  Qed.
  Lemma column_short m cl : all_short K n m -> (length (column K fx sg m cl) <= n)%nat.
  Proof.
    intros (M1 & M2 & M3 & M4 & M5 & M6). destruct Hd as (D1 & D2).
    destruct cl; cbn [column]; [apply M1|apply (D1 i)|apply (D2 i)|apply M4|apply M5|apply M2|apply M3|cbn; lia|exact M6].
  Qed.

  Theorem plonk_sound : ~ satisfied K mds mds_inv tag n c insts (fun j i => in_row K omega (adv j) i) ->
    except u (fun theta => forall A' S', (forall i, short K n (A' i)) -> (forall i, short K n (S' i)) ->
    except (9 * u) (fun beta => except (18 * u) (fun gamma => forall Z L R, (forall i, short K n (Z i)) -> (forall i, short K n (L i)) -> short K n R ->
    except 42 (fun y => forall H, (forall i, (i < pieces)%nat -> short K n (H i)) ->
    except (7 * n + 1) (fun X => X <> 0 /\ fpow X (N.of_nat n) <> 1 /\ forall e : col -> rot -> K,
    except 39 (fun zeta => except 4 (fun nu => forall W, short K n W ->
    except (n + 7) (fun mu => (forall r, mu <> point K omega X r) /\ forall W', short K n W' ->
    except n (fun s => lin K (point K omega X) (claim e theta beta gamma y X)
      (fun cl => peval (full_column (Messages K adv A' S' Z L R) H X cl) s) zeta nu mu (peval W s) (peval W' s) <> s * peval W' s))))))))).
  Proof.
    intros NS. generalize (row_sound K finite mds mds_inv delta tag n omega n_inv n7 omega_n omega_inj n_inv_ok labels c Hc fx sg Hd insts Hinsts adv NS).
    apply except_impl. intros theta RS A' S' HA HS. specialize (RS A' S'). revert RS. apply except_impl. intros beta RS. revert RS. apply except_impl.
    intros gamma RS Z L R HZ HL HR. specialize (RS Z L R). set (m := Messages K adv A' S' Z L R) in *.
    assert (SM : all_short K n m) by (repeat split; assumption).
    generalize (y_round K finite mds mds_inv delta tag n omega n_inv (column K fx sg m) insts theta beta gamma RS).
    apply except_impl. intros y Hy H HH.
    generalize (x_round K finite mds mds_inv delta tag n omega n_inv n7 omega_n omega_inj n_inv_ok (column K fx sg m) (fun cl => column_short m cl SM) insts Hinsts theta beta gamma y Hy H HH).
    apply except_impl. intros X (X0 & Xn & Hx). split; [exact X0|]. split; [exact Xn|]. intros e.
    set (F := full_column m H X). set (v := claim e theta beta gamma y X).
    (* some claimed value is wrong *)
    assert (W : exists cl r, in_sets cl r = true /\ v cl r <> peval (F cl) (point K omega X r)).
    { destruct (Forall_dec (fun cr => v (fst cr) (snd cr) = peval (F (fst cr)) (point K omega X (snd cr))) (fun cr => feq_dec _ _) ((Quot, Cur) :: openings)) as [A|A].
      - exfalso. rewrite Forall_forall in A. apply Hx.
        pose proof (A (Quot, Cur) (or_introl eq_refl)) as Q. cbn [fst snd] in Q. unfold v, F, claim, full_column, qv in Q. rewrite hlist_val in Q. cbn [point] in Q.
        refine (eq_trans _ Q). rewrite !(fdiv_def K). apply (f_equal (fun t => t * _)). apply combined_opened. intros cl r Ho. unfold opened in Ho.
        destruct (in_dec cr_eq_dec (cl, r) openings) as [I|]; [|discriminate Ho]. specialize (A (cl, r) (or_intror I)). cbn [fst snd] in A.
        assert (NQ : cl <> Quot). { intros ->. revert I. clear. intros I. assert (X : existsb (fun cr => match fst cr with Quot => true | _ => false end) openings = true).
          { apply existsb_exists. exists (Quot, r). split; [exact I|reflexivity]. } discriminate X. }
        unfold ev. unfold v, F, claim, full_column in A. destruct cl; try (symmetry; exact A). exfalso. apply NQ. reflexivity.
      - apply neg_Forall_Exists_neg in A; [|intros cr; apply feq_dec]. apply Exists_exists in A as ((cl, r) & Hin & D). cbn [fst snd] in D.
        exists cl, r. split; [|exact D]. pose proof opened_sets as O. rewrite forallb_forall in O. exact (O (cl, r) Hin). }
    destruct W as (cl & r & Hin & D). apply in_sets_spec in Hin as (s0 & Hs & Hr & Hcl).
    assert (N3 : (3 <= n)%nat) by lia.
    exact (open_sound K finite (point K omega X) (fun r r' => points_distinct X r r' X0) v F n N3 (fun cl => full_short m H X cl SM HH) s0 cl r Hs Hr Hcl D).
  Qed.
End Sound.
