(** The quotient numerator computed by the verifier is the combination of the circuit's constraints. *)
From Coq Require Import ZArith NArith List String Bool Lia Field.
From Verif.Base Require Import Fld Fp Primes Curves Group.
From Verif.Model Require Import Monad Evm Yul Halo2VerifierSol VerifierCall PoseidonConsts.
From Verif.Spec Require Import Plonk.
From Verif.Proofs Require Import YulSim YulSym VerifierSetup VerifierTools.
Import ListNotations.
Open Scope string_scope.
Open Scope Z_scope.

(** the constants of the contract *)
Definition delta_z : Z := 4131629893567559867359510883348571134090853742863529169391034518566172092834.
Definition mds_z (i j : nat) : Z := nth j (nth i mds []) 0.
Definition mds_inv_z (i j : nat) : Z :=
  nth j (nth i [[0x203d1d351372bf15b6465d69d3e12806879a5f36b4ba6dd17dfea07d03f82f26;
                 0x29b6537218615bcb4b6ad7fe4620063d48e42ce2096b3a1d6e320628bb032c22;
                 0x11551257de3d4b5ab51bd377d7bb55c054f51f711623515b1e2a35a958b93a6a];
                [0x29dedb1bbf80c8863d569912c20f1f82bf0dc3bc4fb62798dd1319814f833b54;
                 0x130b59143f4e340cd66c7251dc8f56fbbe0367fec1575cb124ca8a66304e3849;
                 0x0c2808c9533e2c526087842fb62521a3248c8d6d3b16d4b4108476d2eeda95f9];
                [0x0173249a1c9eac2591706fe09af22cfd29e1387e706cf0ded2889dc145c61609;
                 0x0abc7f158780841ec82e03ec3cee0cf1d16270b0238f3063d2e5fb5138e59350;
                 0x1738a318c8631b6e8305505aaf3b497fe9f2478c2f28ee945413af26963b4700]] []) 0.

(** positions of the openings in the call data *)
Definition index_of (c : col) (r : rot) : nat :=
  (fix go (l : list (col * rot)) : nat :=
     match l with
     | [] => 0%nat
     | (c', r') :: l => if col_eq_dec c c' then if rot_eq_dec r r' then 0%nat else S (go l) else S (go l)
     end) openings.
Definition eval_pos (c : col) (r : rot) : Z := 0x7c4 + 32 * Z.of_nat (index_of c r).

Section Gates.
  Variable vka : Z. (* the address of the key *)
  Variable K : Fld.
  Variable ofz : Z -> K.
  Hypothesis ofz0 : ofz 0 = f0.
  Hypothesis ofz1 : ofz 1 = f1.
  Variable G : Type.
  Variable padd : G -> G -> G.
  Variable psmul : K -> G -> G.
  Variable pt : Z -> G.
  Variable ev : Z -> K.
  Variable kc : nat -> Z.
  Variable vkp : Z -> G.
  Variables n_inv omega omega_inv omega_inv_l : K.
  Variables theta beta gamma y x zeta nu mu : K.
  Variables xn xnm1inv ll lb l0 ie : K.
  Notation sexec := (sexec K ofz G padd psmul pt ev).
  Notation SMac := (SM K ofz G padd psmul pt ev).
  Notation sb := (sbase K G kc vkp n_inv omega omega_inv omega_inv_l theta beta gamma y x zeta nu mu).
  Notation e0 := (senv K ofz G padd psmul pt ev vka).
  Add Field Kf : (flaw K).
  Open Scope fld_scope.

  Definition lag_words : list (Z * sv K G) :=
    [(0x12e0, F xn); (0x1300, F xnm1inv); (0x1320, F ll); (0x1340, F lb); (0x1360, F l0); (0x1380, F ie)]%Z.
  Definition ge (acc : K) : vars SMac :=
    ("y", F y : val SMac) :: ("delta", C delta_z : val SMac) :: ("quotient_eval_numer", F acc : val SMac) :: e0.
  (** memory during the computation: the scratch word at 0 *)
  Definition gm (s : list (Z * sv K G)) : smem K G := Smem (lag_words ++ s) sb True.
  Definition e (c : col) (r : rot) : K := ev (eval_pos c r).
  Notation cs := (constraints K (fun i j => ofz (mds_z i j)) (fun i j => ofz (mds_inv_z i j)) (ofz delta_z) (ofz 5) e ie l0 ll lb
                    theta beta gamma x).
  Definition gate (s : list (Z * sv K G)) (b : stmt) (s' : list (Z * sv K G)) (c : K) : Prop :=
    forall acc, sexec (ge acc) (gm s) [b] = Cont (ge (acc * y + c)) (gm s').
  Ltac gate_tac :=
    unfold gate; intros; unfold ge, gm;
    match goal with
    | |- ?l = Cont (_ :: _ :: (?n, F ?v) :: ?r) ?m =>
        let o := eval lazy -[car fadd fmul fopp finv f0 f1 fsub fdiv] in
          (match l with Cont (_ :: _ :: (_, F v0) :: _) _ => Some v0 | _ => None end) in
        match o with Some ?w => replace v with w; [reflexivity|] end
    end.
  Ltac val_tac := lazy -[car fadd fmul fopp finv f0 f1 fsub fdiv]; rewrite ?ofz0, ?ofz1; ring.
  Ltac gate_tac2 :=
    intros acc; unfold ge, gm;
    match goal with
    | |- ?l = Cont (_ :: _ :: (?n, F ?v) :: ?r) (Smem (_ ++ [(_, F ?k)]) _ _) =>
        let o := eval lazy -[car fadd fmul fopp finv f0 f1 fsub fdiv] in
          (match l with Cont (_ :: _ :: (_, F v0) :: _) m => Some (v0, alook 0 (wr m)) | _ => None end) in
        match o with Some (?w, Some (F ?k')) => replace v with w; [replace k with k'; [reflexivity|val_tac]|val_tac] end
    end.
  Lemma g03 s : sexec (("y", F y : val SMac) :: ("delta", C delta_z : val SMac) :: ("quotient_eval_numer", C 0 : val SMac) :: e0) (gm s) [main_06_03]
    = Cont (ge (0 * y + nth 0 cs 0)) (gm s).
  Proof. gate_tac. val_tac. Qed.
  Lemma g04 s : gate s main_06_04 s (nth 1 cs 0).
  Proof. gate_tac. val_tac. Qed.
  Lemma g05 s : gate s main_06_05 s (nth 2 cs 0).
  Proof. gate_tac. val_tac. Qed.
  Lemma g06 s : gate s main_06_06 s (nth 3 cs 0).
  Proof. gate_tac. val_tac. Qed.
  Lemma g07 s : gate s main_06_07 s (nth 4 cs 0).
  Proof. gate_tac. val_tac. Qed.
  Lemma g08 s : gate s main_06_08 s (nth 5 cs 0).
  Proof. gate_tac. val_tac. Qed.
  Lemma g09 s : gate s main_06_09 s (nth 6 cs 0).
  Proof. gate_tac. val_tac. Qed.
  Lemma g10 s : gate s main_06_10 s (nth 7 cs 0).
  Proof. gate_tac. val_tac. Qed.
  Lemma g11 s : gate s main_06_11 s (nth 8 cs 0).
  Proof. gate_tac. val_tac. Qed.
  Lemma g12 s : gate s main_06_12 s (nth 9 cs 0).
  Proof. gate_tac. val_tac. Qed.
  Lemma g13 s : gate s main_06_13 s (nth 10 cs 0).
  Proof. gate_tac. val_tac. Qed.
  Lemma g14 s : gate s main_06_14 s (nth 11 cs 0).
  Proof. gate_tac. val_tac. Qed.
  Lemma g15 s : gate s main_06_15 s (nth 12 cs 0).
  Proof. gate_tac. val_tac. Qed.
  Lemma g16 s : gate s main_06_16 s (nth 13 cs 0).
  Proof. gate_tac. val_tac. Qed.
  Lemma g17 s : gate s main_06_17 s (nth 14 cs 0).
  Proof. gate_tac. val_tac. Qed.
  Lemma g18 : gate [] main_06_18 [(0%Z, F (fpow (ofz delta_z) 4 * (beta * x)))] (nth 15 cs 0).
  Proof. gate_tac2. Qed.
  Lemma g19 : gate [(0%Z, F (fpow (ofz delta_z) 4 * (beta * x)))] main_06_19 [(0%Z, F (fpow (ofz delta_z) 8 * (beta * x)))] (nth 16 cs 0).
  Proof. gate_tac2. Qed.
  Lemma g20 : gate [(0%Z, F (fpow (ofz delta_z) 8 * (beta * x)))] main_06_20 [(0%Z, F (fpow (ofz delta_z) 8 * (beta * x)))] (nth 17 cs 0).
  Proof. gate_tac. val_tac. Qed.
  Lemma g21 w : gate [(0%Z, F w)] main_06_21 [(0%Z, F w)] (nth 18 cs 0).
  Proof. gate_tac. val_tac. Qed.
  Lemma g22 w : gate [(0%Z, F w)] main_06_22 [(0%Z, F w)] (nth 19 cs 0).
  Proof. gate_tac. val_tac. Qed.
  Lemma g23 w : gate [(0%Z, F w)] main_06_23 [(0%Z, F w)] (nth 20 cs 0).
  Proof. gate_tac. val_tac. Qed.
  Lemma g24 w : gate [(0%Z, F w)] main_06_24 [(0%Z, F w)] (nth 21 cs 0).
  Proof. gate_tac. val_tac. Qed.
  Lemma g25 w : gate [(0%Z, F w)] main_06_25 [(0%Z, F w)] (nth 22 cs 0).
  Proof. gate_tac. val_tac. Qed.
  Lemma g26 w : gate [(0%Z, F w)] main_06_26 [(0%Z, F w)] (nth 23 cs 0).
  Proof. gate_tac. val_tac. Qed.
  Lemma g27 w : gate [(0%Z, F w)] main_06_27 [(0%Z, F w)] (nth 24 cs 0).
  Proof. gate_tac. val_tac. Qed.
  Lemma g28 w : gate [(0%Z, F w)] main_06_28 [(0%Z, F w)] (nth 25 cs 0).
  Proof. gate_tac. val_tac. Qed.
  Lemma g29 w : gate [(0%Z, F w)] main_06_29 [(0%Z, F w)] (nth 26 cs 0).
  Proof. gate_tac. val_tac. Qed.
  Lemma g30 w : gate [(0%Z, F w)] main_06_30 [(0%Z, F w)] (nth 27 cs 0).
  Proof. gate_tac. val_tac. Qed.
  Lemma g31 w : gate [(0%Z, F w)] main_06_31 [(0%Z, F w)] (nth 28 cs 0).
  Proof. gate_tac. val_tac. Qed.
  Lemma g32 w : gate [(0%Z, F w)] main_06_32 [(0%Z, F w)] (nth 29 cs 0).
  Proof. gate_tac. val_tac. Qed.
  Lemma g33 w : gate [(0%Z, F w)] main_06_33 [(0%Z, F w)] (nth 30 cs 0).
  Proof. gate_tac. val_tac. Qed.
  Lemma g34 w : gate [(0%Z, F w)] main_06_34 [(0%Z, F w)] (nth 31 cs 0).
  Proof. gate_tac. val_tac. Qed.
  Lemma g35 w : gate [(0%Z, F w)] main_06_35 [(0%Z, F w)] (nth 32 cs 0).
  Proof. gate_tac. val_tac. Qed.
  Lemma g36 w : gate [(0%Z, F w)] main_06_36 [(0%Z, F w)] (nth 33 cs 0).
  Proof. gate_tac. val_tac. Qed.
  Lemma g37 w : gate [(0%Z, F w)] main_06_37 [(0%Z, F w)] (nth 34 cs 0).
  Proof. gate_tac. val_tac. Qed.
  Lemma g38 w : gate [(0%Z, F w)] main_06_38 [(0%Z, F w)] (nth 35 cs 0).
  Proof. gate_tac. val_tac. Qed.
  Lemma g39 w : gate [(0%Z, F w)] main_06_39 [(0%Z, F w)] (nth 36 cs 0).
  Proof. gate_tac. val_tac. Qed.
  Lemma g40 w : gate [(0%Z, F w)] main_06_40 [(0%Z, F w)] (nth 37 cs 0).
  Proof. gate_tac. val_tac. Qed.
  Lemma g41 w : gate [(0%Z, F w)] main_06_41 [(0%Z, F w)] (nth 38 cs 0).
  Proof. gate_tac. val_tac. Qed.
  Lemma g42 w : gate [(0%Z, F w)] main_06_42 [(0%Z, F w)] (nth 39 cs 0).
  Proof. gate_tac. val_tac. Qed.
  Lemma g43 w : gate [(0%Z, F w)] main_06_43 [(0%Z, F w)] (nth 40 cs 0).
  Proof. gate_tac. val_tac. Qed.
  Lemma g44 w : gate [(0%Z, F w)] main_06_44 [(0%Z, F w)] (nth 41 cs 0).
  Proof. gate_tac. val_tac. Qed.
  Lemma g45 w : gate [(0%Z, F w)] main_06_45 [(0%Z, F w)] (nth 42 cs 0).
  Proof. gate_tac. val_tac. Qed.

  Lemma sexec_cons en m b l : sexec en m (b :: l) = cont SMac (sexec en m [b]) (fun en m => sexec en m l).
  Proof.
    unfold VerifierSetup.sexec, run. rewrite !exec_cons. destruct (step _ _ _ en m b); reflexivity.
  Qed.
  Definition gate_blocks : list stmt := [main_06_03; main_06_04; main_06_05; main_06_06; main_06_07; main_06_08; main_06_09; main_06_10; main_06_11; main_06_12; main_06_13; main_06_14; main_06_15; main_06_16; main_06_17; main_06_18; main_06_19; main_06_20; main_06_21; main_06_22; main_06_23; main_06_24; main_06_25; main_06_26; main_06_27; main_06_28; main_06_29; main_06_30; main_06_31; main_06_32; main_06_33; main_06_34; main_06_35; main_06_36; main_06_37; main_06_38; main_06_39; main_06_40; main_06_41; main_06_42; main_06_43; main_06_44; main_06_45].
  Definition numerator : K :=
    combined K (fun i j => ofz (mds_z i j)) (fun i j => ofz (mds_inv_z i j)) (ofz delta_z) (ofz 5) e ie l0 ll lb theta beta gamma x y.
  Definition scratch : list (Z * sv K G) := [(0%Z, F (fpow (ofz delta_z) 8 * (beta * x)))].
  Lemma numerator_unfold : numerator = fold_left (fun acc c => acc * y + c) (map (fun k => nth k cs 0) (seq 0 43)) 0.
  Proof. reflexivity. Qed.
  Lemma run_gates :
    sexec (("y", F y : val SMac) :: ("delta", C delta_z : val SMac) :: ("quotient_eval_numer", C 0 : val SMac) :: e0) (gm []) gate_blocks
    = Cont (ge numerator) (gm scratch).
  Proof.
    rewrite numerator_unfold. cbn [map seq fold_left]. unfold gate_blocks.
    rewrite sexec_cons, g03; cbn [cont].
    rewrite sexec_cons, g04; cbn [cont].
    rewrite sexec_cons, g05; cbn [cont].
    rewrite sexec_cons, g06; cbn [cont].
    rewrite sexec_cons, g07; cbn [cont].
    rewrite sexec_cons, g08; cbn [cont].
    rewrite sexec_cons, g09; cbn [cont].
    rewrite sexec_cons, g10; cbn [cont].
    rewrite sexec_cons, g11; cbn [cont].
    rewrite sexec_cons, g12; cbn [cont].
    rewrite sexec_cons, g13; cbn [cont].
    rewrite sexec_cons, g14; cbn [cont].
    rewrite sexec_cons, g15; cbn [cont].
    rewrite sexec_cons, g16; cbn [cont].
    rewrite sexec_cons, g17; cbn [cont].
    rewrite sexec_cons, g18; cbn [cont].
    rewrite sexec_cons, g19; cbn [cont].
    rewrite sexec_cons, g20; cbn [cont].
    rewrite sexec_cons, g21; cbn [cont].
    rewrite sexec_cons, g22; cbn [cont].
    rewrite sexec_cons, g23; cbn [cont].
    rewrite sexec_cons, g24; cbn [cont].
    rewrite sexec_cons, g25; cbn [cont].
    rewrite sexec_cons, g26; cbn [cont].
    rewrite sexec_cons, g27; cbn [cont].
    rewrite sexec_cons, g28; cbn [cont].
    rewrite sexec_cons, g29; cbn [cont].
    rewrite sexec_cons, g30; cbn [cont].
    rewrite sexec_cons, g31; cbn [cont].
    rewrite sexec_cons, g32; cbn [cont].
    rewrite sexec_cons, g33; cbn [cont].
    rewrite sexec_cons, g34; cbn [cont].
    rewrite sexec_cons, g35; cbn [cont].
    rewrite sexec_cons, g36; cbn [cont].
    rewrite sexec_cons, g37; cbn [cont].
    rewrite sexec_cons, g38; cbn [cont].
    rewrite sexec_cons, g39; cbn [cont].
    rewrite sexec_cons, g40; cbn [cont].
    rewrite sexec_cons, g41; cbn [cont].
    rewrite sexec_cons, g42; cbn [cont].
    rewrite sexec_cons, g43; cbn [cont].
    rewrite sexec_cons, g44; cbn [cont].
    rewrite sexec_cons, g45; cbn [cont].
    reflexivity.
  Qed.
  Lemma run_main_06 : sexec e0 (gm []) [main_06] =
    Cont e0 (gm (scratch ++ [(0x13a0%Z, F (numerator * xnm1inv))])%list).
  Proof.
    unfold VerifierSetup.sexec, run. rewrite exec_cons. unfold main_06. rewrite step_block.
    match goal with |- context [exec _ _ _ _ _ ?l] => change l with
      ([Let ["quotient_eval_numer"] (E (Num 0)); Let ["delta"] (E (Num delta_z)); Let ["y"] (E (Mload (Num 0x11c0)))] ++ gate_blocks ++
       [Pop (Var "y"); Pop (Var "delta"); Let ["quotient_eval"] (E (Ter MULMOD (Var "quotient_eval_numer") (Mload (Num 0x1300)) (Var "r")));
        Mstore (Num 0x13a0) (Var "quotient_eval")])%list end.
    rewrite exec_app.
    match goal with |- context [cont _ (exec _ _ _ e0 ?m ?l) _] =>
      replace (exec SMac (run_func SMac LIMIT functions) LIMIT e0 m l) with
       (Cont (M := SMac) (("y", F y : val SMac) :: ("delta", C delta_z : val SMac) :: ("quotient_eval_numer", C 0 : val SMac) :: e0) m)
       by reflexivity end.
    cbn [cont]. rewrite exec_app. pose proof run_gates as R. 
    match goal with |- context [exec ?a ?b ?c ?d ?m gate_blocks] =>
      replace (exec a b c d m gate_blocks) with (Cont (M := SMac) (ge numerator) (gm scratch)) by (symmetry; exact R) end.
    cbn [cont]. clear R.
    generalize numerator; intros q. reflexivity.
  Qed.
  Lemma reach_main_06 : VerifierTools.reaches K ofz G padd psmul pt ev sb e0 lag_words [main_06] e0
    [(0x12e0%Z, F xn); (0x13a0%Z, F (numerator * xnm1inv))].
  Proof.
    eexists; split; [exact run_main_06|]. apply VerifierTools.covers_check; [exact I|reflexivity| |reflexivity].
    generalize (numerator * xnm1inv); intros q. repeat constructor.
  Qed.
End Gates.
