(** The input-reading part of the verifier: what it checks, and the chal_words it draws. *)
From Coq Require Import ZArith List String Bool Lia.
From Verif.Base Require Import Fld Fp EC Primes Curves Group.
From Verif.Model Require Import Monad Evm Points PairingSol Yul Halo2VerifierSol VerifierCall.
From Verif.Proofs Require Import HashSolProofs InstanceProofs OnchainProofs YulSim YulCon VerifierSetup VerifierTools.
Import ListNotations.
Open Scope string_scope.
Open Scope Z_scope.

Definition front : list stmt := [main_00; main_01; main_02; main_03].
Definition point_addrs : list Z := map (fun i => 0x84 + 64 * Z.of_nat i) (seq 0 29).
Definition eval_addrs : list Z := map (fun i => 0x7c4 + 32 * Z.of_nat i) (seq 0 78).
Definition inst_addrs (N : nat) : list Z := map (fun i => 0x1224 + 32 * Z.of_nat i) (seq 0 N).
(** the words of a key of this shape: no accumulator; the rest given by [kc] *)
Definition shape (kc : nat -> Z) : list Z := [kc 0%nat; kc 1%nat; kc 2%nat] ++ map kc (seq 3 4) ++ [0; 0; 0; 0] ++ map kc (seq 11 74).
Section Sym.
  Variable N : nat. (* the number of instances *)
  Variable vbin : binop -> Z -> Z -> Z.
  Variable vter : terop -> Z -> Z -> Z -> Z.
  Variable v8 : Z -> Z -> Z.
  Variable kec : list Z -> option (Z * Z) -> Z.
  Variable cdw : Z -> Z.
  Variable kc : nat -> Z.
  Notation M := (CON vbin vter v8 kec cdw (shape kc)).
  Definition point_checks (a : Z) : list Z :=
    [vbin LT (cdw a) q_mod; vbin LT (cdw (a + 32)) q_mod;
     vbin EQ (vter MULMOD (cdw (a + 32)) (cdw (a + 32)) q_mod)
       (vter ADDMOD (vter MULMOD (cdw a) (vter MULMOD (cdw a) (cdw a) q_mod) q_mod) 3 q_mod)].
  Definition all_checks : list Z :=
    [vbin EQ 0x1180 (cdw 0x64); vbin EQ (Z.of_nat N) (cdw 0x1204)] ++ map (fun a => vbin LT (cdw a) r_mod) (inst_addrs N) ++
    flat_map point_checks point_addrs ++ map (fun a => vbin LT (cdw a) r_mod) eval_addrs ++ point_checks 0x1184 ++ point_checks 0x11c4.
  Definition prf (i j : nat) : list Z := map (fun k => cdw (0x84 + 32 * Z.of_nat k)) (seq i (j - i)).
  Definition ins : list Z := map cdw (inst_addrs N).
  Definition c_th : Z := kec ([kc 0%nat] ++ ins ++ prf 0 10) None.
  Definition c_be : Z := kec ([c_th] ++ prf 10 30) None.
  Definition c_ga : Z := kec [c_be] (Some (v8 1 (cdw 0x1c4), 1)).
  Definition c_y : Z := kec ([c_ga] ++ prf 30 48) None.
  Definition c_x : Z := kec ([c_y] ++ prf 48 58) None.
  Definition c_ze : Z := kec ([c_x] ++ prf 58 136) None.
  Definition c_nu : Z := kec [c_ze] (Some (v8 1 (cdw 0x7c4), 1)).
  Definition c_mu : Z := kec ([c_nu] ++ prf 136 138) None.
  Definition chal_words : list Z := [c_th; c_be; c_ga; c_y; c_x; c_ze; c_nu; c_mu].
  Definition loaded_with (ch : list Z) : list (Z * cv) :=
    map (fun p => (0x6c0 + 32 * Z.of_nat (fst p), K (snd p))) (combine (seq 0 85) (shape kc)) ++
    map (fun p => (0x1160 + 32 * Z.of_nat (fst p), V (vbin MOD (snd p) r_mod))) (combine (seq 0 8) ch).
  Definition loaded : list (Z * cv) := loaded_with chal_words.
  (** the part after the first challenge [th] was drawn *)
  Definition chals_from (th : Z) : list Z :=
    let be := kec ([th] ++ prf 10 30) None in
    let ga := kec [be] (Some (v8 1 (cdw 0x1c4), 1)) in
    let y := kec ([ga] ++ prf 30 48) None in
    let x := kec ([y] ++ prf 48 58) None in
    let ze := kec ([x] ++ prf 58 136) None in
    let nu := kec [ze] (Some (v8 1 (cdw 0x7c4), 1)) in
    [th; be; ga; y; x; ze; nu; kec ([nu] ++ prf 136 138) None].
  Lemma chals_from_th : chals_from c_th = chal_words. Proof. reflexivity. Qed.
  Definition later_addrs : list Z := skipn 5 point_addrs.
  Definition later_checks : list Z :=
    flat_map point_checks later_addrs ++ map (fun a => vbin LT (cdw a) r_mod) eval_addrs ++ point_checks 0x1184 ++ point_checks 0x11c4.
  Definition rest_env (th_n s ic : Z) : vars M :=
    [("challenge_mptr", K 0x1180 : val M); ("proof_cptr", K 0x1c4 : val M); ("instance_cptr", V ic : val M); ("hash_mptr", K 0x20 : val M);
     ("num_instances", V th_n : val M); ("success", V s : val M); ("r", K r_mod : val M); ("q", K q_mod : val M); ("vk", VK : val M)].
  Lemma run_rest th s ic nn : exists e mm, run M LIMIT functions (rest_env nn s ic) [(0, V th); (0x1160, V (vbin MOD th r_mod))] (skipn 12 (block_body main_03)) =
      Cont (M := M) (e ++ [("success", V (fold_left (vbin AND) later_checks s) : val M); ("r", K r_mod : val M); ("q", K q_mod : val M); ("vk", VK : val M)])%list mm /\
    map (fun p => zlook (fst p) mm) (loaded_with (chals_from th)) = map (fun p => Some (snd p)) (loaded_with (chals_from th)).
  Proof.
    let o := eval lazy in (match run M LIMIT functions (rest_env nn s ic) [(0, V th); (0x1160, V (vbin MOD th r_mod))] (skipn 12 (block_body main_03)) with
      Cont e m => (firstn (List.length e - 4) e, m) | _ => ([], []) end) in
    match o with (?e, ?m) => exists e, m end.
    split; reflexivity.
  Qed.
End Sym.

(** *** The checks *)
Definition flag (b : bool) : Z := if b then 1 else 0.
Lemma land_flag a b : Z.land (flag a) (flag b) = flag (a && b).
Proof. destruct a, b; reflexivity. Qed.
Lemma fold_flags bs a : fold_left (word_bin AND) (map flag bs) (flag a) = flag (a && forallb (fun b => b) bs).
Proof.
  revert a. induction bs as [|b bs IH]; intros a; cbn [map fold_left forallb]; [rewrite andb_true_r; reflexivity|].
  change (word_bin AND (flag a) (flag b)) with (Z.land (flag a) (flag b)). rewrite land_flag, IH, andb_assoc. reflexivity.
Qed.
Section Aff.
  Variable K : Fld.
  Variable b : K.
  Hypothesis Hb : b <> f0.
  Add Field KAff : (flaw K).
  Open Scope fld_scope.
  Lemma zero_off : (0 : K) * 0 <> 0 * 0 * 0 + b.
  Proof. intros E. apply Hb. transitivity ((0 : K) * 0 * 0 + b); [ring|]. rewrite <- E. ring. Qed.
  Lemma aff_eq (P : EC K b) : EC.pt _ _ P <> Inf K -> snd (xy P) * snd (xy P) = fst (xy P) * fst (xy P) * fst (xy P) + b.
  Proof. destruct P as [[|x y] H]; cbn; intros N0; [contradiction|]. apply on_aff. exact H. Qed.
End Aff.
Section Valid.
  Variable N : nat.
  Variable cdw : Z -> Z.
  Hypothesis cdw_pos : forall a, 0 <= cdw a.
  Definition bpoint (a : Z) : list bool :=
    [cdw a <? q_mod; cdw (a + 32) <? q_mod;
     word_ter MULMOD (cdw (a + 32)) (cdw (a + 32)) q_mod =?
       word_ter ADDMOD (word_ter MULMOD (cdw a) (word_ter MULMOD (cdw a) (cdw a) q_mod) q_mod) 3 q_mod].
  Definition bchecks : list bool :=
    [0x1180 =? cdw 0x64; Z.of_nat N =? cdw 0x1204] ++ map (fun a => cdw a <? r_mod) (inst_addrs N) ++
    flat_map bpoint point_addrs ++ map (fun a => cdw a <? r_mod) eval_addrs ++ bpoint 0x1184 ++ bpoint 0x11c4.
  Lemma checks_flags : all_checks N word_bin word_ter cdw = map flag bchecks.
  Proof.
    unfold all_checks, bchecks. rewrite !map_app. rewrite !map_map.
    rewrite !flat_map_concat_map, concat_map, map_map. reflexivity.
  Qed.
  (** a point of the curve other than the identity, in canonical coordinates *)
  Definition point_at (a : Z) : Prop := exists P : G1, P <> g0 /\ enc P = (cdw a, cdw (a + 32)).
  Definition inputs_ok : Prop :=
    cdw 0x64 = 0x1180 /\ cdw 0x1204 = Z.of_nat N /\ (forall a, In a (inst_addrs N) -> cdw a < r_mod) /\
    (forall a, In a point_addrs -> point_at a) /\ (forall a, In a eval_addrs -> cdw a < r_mod) /\ point_at 0x1184 /\ point_at 0x11c4.
  Lemma mulmod_q x y : word_ter MULMOD x y q_mod = (x * y) mod q_mod. Proof. reflexivity. Qed.
  Lemma addmod_q x y : word_ter ADDMOD x y q_mod = (x + y) mod q_mod. Proof. reflexivity. Qed.
  Lemma curve_mod x y : ((y * y) mod q_mod =? ((x * ((x * x) mod q_mod)) mod q_mod + 3) mod q_mod) = true <->
    (fq y * fq y = fq x * fq x * fq x + b1)%fld.
  Proof.
    rewrite Z.eqb_eq.
    assert (E : ((x * ((x * x) mod q_mod)) mod q_mod + 3) mod q_mod = (x * x * x + 3) mod q_mod).
    { rewrite Z.add_mod_idemp_l by discriminate. rewrite <- (Z.add_mod_idemp_l (x * _)) by discriminate.
      rewrite Z.mul_mod_idemp_r by discriminate. rewrite Z.add_mod_idemp_l by discriminate. f_equal. ring. }
    rewrite E. clear E.
    assert (E1 : (fq y * fq y)%fld = fq (y * y)) by (symmetry; apply of_Z_mul).
    assert (E2 : (fq x * fq x * fq x + b1)%fld = fq (x * x * x + 3)).
    { unfold b1. transitivity (fq (x * x * x) + fq 3)%fld; [|symmetry; apply of_Z_add]. f_equal.
      transitivity (fq (x * x) * fq x)%fld; [|symmetry; apply of_Z_mul]. f_equal. symmetry. apply of_Z_mul. }
    rewrite E1, E2. split.
    - exact (of_Z_eq q_mod (y * y) (x * x * x + 3)). - exact (of_Z_inj_mod q_mod (y * y) (x * x * x + 3)).
  Qed.
  Lemma bpoint_ok a : forallb (fun b => b) (bpoint a) = true <-> point_at a.
  Proof.
    unfold bpoint, point_at. cbn [forallb]. rewrite !mulmod_q, addmod_q, !andb_true_iff, !Z.ltb_lt, curve_mod.
    pose proof (cdw_pos a) as P1. pose proof (cdw_pos (a + 32)) as P2. generalize dependent (cdw a). generalize dependent (cdw (a + 32)).
    intros y P2 x P1. split.
    - intros (Hx & Hy & E & _).
      destruct (proj2 (from_xy_iff Fq b1 (fq x) (fq y)) (or_intror E)) as [P EP].
      assert (D : decode (x, y) = Some P).
      { unfold decode. cbn [fst snd]. rewrite (proj2 (canon_iff x) (conj P1 Hx)), (proj2 (canon_iff y) (conj P2 Hy)). exact EP. }
      exists P. apply enc_decode in D. split; [|exact D]. intros ->.
      pose proof (xy_from_xy Fq b1 _ _ _ EP) as X.
      assert (X1 : (f0 : Fq) = fq x) by exact (f_equal fst X). assert (X2 : (f0 : Fq) = fq y) by exact (f_equal snd X).
      rewrite <- X1, <- X2 in E. exact (zero_off Fq b1 b1_neq0 E).
    - intros (P & N0 & E). rewrite enc_v in E.
      assert (Ex : v (fst (xy P)) = x) by exact (f_equal fst E). assert (Ey : v (snd (xy P)) = y) by exact (f_equal snd E).
      subst x y. pose proof (v_range (fst (xy P))). pose proof (v_range (snd (xy P))).
      repeat split; try lia. rewrite !fq_v. apply (aff_eq Fq b1).
      intros I. apply N0. apply EC_ext. exact I.
  Qed.
  Lemma forallb_map_lt r l : forallb (fun b => b) (map (fun a => cdw a <? r) l) = true <-> forall a, In a l -> cdw a < r.
  Proof.
    rewrite forallb_forall. split.
    - intros H a Ha. apply Z.ltb_lt. apply H. apply in_map_iff. eauto.
    - intros H b Hb. apply in_map_iff in Hb as (a & <- & Ha). apply Z.ltb_lt. auto.
  Qed.
  Lemma forallb_flat l : forallb (fun b => b) (flat_map bpoint l) = true <-> forall a, In a l -> point_at a.
  Proof.
    induction l as [|a l IH]; [cbn; split; [intros _ ? []|reflexivity]|].
    change (flat_map bpoint (a :: l)) with (bpoint a ++ flat_map bpoint l)%list.
    rewrite forallb_app, andb_true_iff, bpoint_ok, IH. split.
    - intros [H1 H2] b [<-|Hb]; auto.
    - intros H. split; [apply H; left; reflexivity|]. intros b Hb. apply H. right. exact Hb.
  Qed.
  Theorem checks_ok : forallb (fun b => b) bchecks = true <-> inputs_ok.
  Proof.
    unfold bchecks, inputs_ok. rewrite !forallb_app, !andb_true_iff, !forallb_map_lt, forallb_flat, !bpoint_ok.
    cbn [forallb]. rewrite !andb_true_iff, !Z.eqb_eq. intuition congruence.
  Qed.
End Valid.
