(** The call data and the key as a proof, instances and a verifying key. *)
From Coq Require Import ZArith NArith List Bool Lia.
From Verif.Base Require Import Fld Fp EC Primes Curves Group.
From Verif.Model Require Import Evm Points PairingSol Yul Halo2VerifierSol.
From Verif.Spec Require Import Plonk PlonkVerifier.
From Verif.Proofs Require Import HashSolProofs InstanceProofs OnchainProofs YulSim YulSym YulCon VerifierSetup VerifierFront VerifierKey.
Import ListNotations.
Open Scope Z_scope.

Lemma nth_points (l : list G1) : forall i, (i < length l)%nat ->
  nth (2 * i) (flat_map point_words l) 0 = px (nth i l g0) /\ nth (2 * i + 1) (flat_map point_words l) 0 = py (nth i l g0).
Proof.
  induction l as [|P l IH]; intros i Hi; [inversion Hi|].
  destruct i as [|i]; [split; reflexivity|].
  cbn [length] in Hi. specialize (IH i ltac:(lia)).
  replace (2 * S i)%nat with (S (S (2 * i))) by lia. replace (S (S (2 * i)) + 1)%nat with (S (S (2 * i + 1))) by lia.
  exact IH.
Qed.
Lemma length_points (l : list G1) : length (flat_map point_words l) = (2 * length l)%nat.
Proof. induction l as [|P l IH]; [reflexivity|]. cbn [flat_map length]. rewrite app_length, IH. cbn [point_words length]. lia. Qed.
Lemma enc_points P : enc P = (px P, py P). Proof. reflexivity. Qed.

Lemma some_inj {A} (a b : A) : Some a = Some b -> a = b.
Proof. intros E. injection E. auto. Qed.

Section Input.
  Variable calldata : list Z.
  Hypothesis Hpos : Forall (fun w => 0 <= w) calldata.
  Definition wd (i : nat) : Z := nth i calldata 0.
  Notation cdw := (e_cdw calldata).
  Lemma wd_pos i : 0 <= wd i.
  Proof.
    unfold wd. destruct (nth_in_or_default i calldata 0) as [H| ->]; [|lia].
    rewrite Forall_forall in Hpos. exact (Hpos _ H).
  Qed.
  Lemma cdw_pos a : 0 <= cdw a. Proof. apply wd_pos. Qed.
  Lemma cdw_wd i : cdw (4 + 32 * Z.of_nat i) = wd i.
  Proof. unfold e_cdw, wd. f_equal. replace (4 + 32 * Z.of_nat i) with (4 + Z.of_nat i * 32) by lia. rewrite Z.div_add by lia. cbn. lia. Qed.

  Variable n : nat. (* the number of instances *)
  (** the call data of the verifier from its fourth word on: the length in bytes and the words of the proof, the number of
      instances and the instances *)
  Definition reads (p : proof) (insts : list Fr) : Prop :=
    proof_ok p /\ length insts = n /\
    map wd (seq 3 (142 + n)) = [0x1180] ++ proof_words p ++ [Z.of_nat n] ++ map scalar_word insts /\
    forall i, (145 + n <= i)%nat -> wd i = 0.

  Lemma points_exist n' : forall start, (forall i, (i < n')%nat -> point_at cdw (4 + 32 * Z.of_nat (start + 2 * i))) ->
    exists l : list G1, length l = n' /\ Forall (fun P => P <> g0) l /\ flat_map point_words l = map wd (seq start (2 * n')).
  Proof.
    induction n' as [|n' IH]; intros start H; [exists []; repeat constructor|].
    destruct (IH (S (S start))) as (l & Ll & F & E).
    { intros i Hi. specialize (H (S i) ltac:(lia)). replace (S (S start) + 2 * i)%nat with (start + 2 * S i)%nat by lia. exact H. }
    destruct (H 0%nat ltac:(lia)) as (P & N0 & EP).
    exists (P :: l). split; [exact (f_equal S Ll)|]. split; [constructor; assumption|].
    replace (2 * S n')%nat with (S (S (2 * n'))) by lia. cbn [flat_map seq map]. rewrite E. unfold point_words.
    rewrite enc_points in EP. replace (start + 2 * 0)%nat with start in EP by lia.
    assert (E1 : px P = wd start). { rewrite <- cdw_wd. exact (f_equal fst EP). }
    assert (E2 : py P = wd (S start)).
    { rewrite <- cdw_wd. replace (4 + 32 * Z.of_nat (S start)) with (4 + 32 * Z.of_nat start + 32) by lia. exact (f_equal snd EP). }
    rewrite E1, E2. reflexivity.
  Qed.
  Lemma scalars_exist n' start : (forall i, (i < n')%nat -> wd (start + i) < r_mod) ->
    exists l : list Fr, length l = n' /\ map scalar_word l = map wd (seq start n').
  Proof.
    intros H. exists (map (fun i => fr (wd i)) (seq start n')). split; [rewrite map_length, seq_length; reflexivity|].
    rewrite map_map. apply map_ext_in. intros i Hi. apply in_seq in Hi. unfold scalar_word, fr. rewrite fval_of_Z. apply Z.mod_small.
    split; [apply wd_pos|]. specialize (H (i - start)%nat ltac:(lia)). replace (start + (i - start))%nat with i in H by lia. exact H.
  Qed.
  Lemma inputs_reads : (forall i, (145 + n <= i)%nat -> wd i = 0) -> inputs_ok n cdw -> exists p insts, reads p insts.
  Proof.
    intros H0 (H1 & H2 & H3 & H4 & H5 & H6 & H7).
    destruct (points_exist 29 4) as (cs & Lc & Fc & Ec).
    { intros i Hi. apply H4. unfold point_addrs. apply in_map_iff. exists i. split; [lia|apply in_seq; lia]. }
    destruct (scalars_exist 78 62) as (es & Le & Ee).
    { intros i Hi. rewrite <- cdw_wd. apply H5. unfold eval_addrs. apply in_map_iff. exists i. split; [lia|apply in_seq; lia]. }
    destruct (points_exist 1 140) as (l & Ll & F & E). { intros i Hi. replace i with 0%nat by lia. exact H6. }
    destruct (points_exist 1 142) as (l' & Ll' & F' & E'). { intros i Hi. replace i with 0%nat by lia. exact H7. }
    destruct (scalars_exist n 145) as (is & Li & Ei).
    { intros i Hi. rewrite <- cdw_wd. apply H3. unfold inst_addrs. apply in_map_iff. exists i. split; [lia|apply in_seq; lia]. }
    destruct l as [|W [|? ?]]; try discriminate Ll. destruct l' as [|W' [|? ?]]; try discriminate Ll'.
    cbn [flat_map] in E, E'. rewrite app_nil_r in E, E'.
    exists (Proof_ cs es W W'), is. unfold reads. split; [|split; [exact Li|split; [|exact H0]]].
    - unfold proof_ok. cbn [p_commitments p_evals p_w p_w']. split; [exact Lc|]. split; [exact Le|]. split; [exact Fc|].
      inversion F. inversion F'. split; assumption.
    - unfold proof_words. cbn [p_commitments p_evals p_w p_w']. rewrite Ec, Ee, E, E', Ei.
      assert (W3 : wd 3 = 0x1180) by exact H1. assert (W144 : wd 144 = Z.of_nat n) by exact H2. rewrite <- W3. rewrite <- W144.
      rewrite (seq_app 142 n), map_app. reflexivity.
  Qed.

  Section Reads.
    Variable p : proof.
    Variable insts : list Fr.
    Hypothesis HR : reads p insts.
    Lemma rd j : (j < 142 + n)%nat -> wd (3 + j) = nth j ([0x1180] ++ proof_words p ++ [Z.of_nat n] ++ map scalar_word insts) 0.
    Proof.
      intros Hj. destruct HR as (_ & _ & <- & _). rewrite (nth_indep _ 0 (wd 0)) by (rewrite map_length, seq_length; exact Hj).
      rewrite map_nth, seq_nth by exact Hj. reflexivity.
    Qed.
    Lemma len_coms : length (p_commitments p) = 29%nat. Proof. exact (proj1 (proj1 HR)). Qed.
    Lemma len_evals : length (p_evals p) = 78%nat. Proof. exact (proj1 (proj2 (proj1 HR))). Qed.
    Lemma len_insts : length insts = n. Proof. exact (proj1 (proj2 HR)). Qed.
    Lemma len_cw : length (flat_map point_words (p_commitments p)) = 58%nat. Proof. rewrite length_points, len_coms. reflexivity. Qed.
    Lemma len_ew : length (map scalar_word (p_evals p)) = 78%nat. Proof. rewrite map_length. exact len_evals. Qed.
    Lemma len_pw : length (proof_words p) = 140%nat.
    Proof. unfold proof_words. rewrite !app_length, len_cw, len_ew. reflexivity. Qed.
    Lemma wd_3 : wd 3 = 0x1180. Proof. exact (rd 0 ltac:(lia)). Qed.
    Lemma wd_proof j : (j < 140)%nat -> wd (4 + j) = nth j (proof_words p) 0.
    Proof.
      intros Hj. change (4 + j)%nat with (3 + S j)%nat. rewrite rd by lia. cbn [app nth]. apply app_nth1. rewrite len_pw. exact Hj.
    Qed.
    Lemma wd_after j : (j < 1 + n)%nat -> wd (144 + j) = nth j (Z.of_nat n :: map scalar_word insts) 0.
    Proof.
      intros Hj. change (144 + j)%nat with (3 + S (140 + j))%nat. rewrite rd by lia.
      transitivity (nth (140 + j) (proof_words p ++ [Z.of_nat n] ++ map scalar_word insts) 0); [reflexivity|].
      rewrite app_nth2 by (rewrite len_pw; lia). rewrite len_pw. replace (140 + j - 140)%nat with j by lia. reflexivity.
    Qed.
    Lemma wd_144 : wd 144 = Z.of_nat n. Proof. exact (wd_after 0 ltac:(lia)). Qed.
    Lemma wd_inst i : wd (145 + i) = scalar_word (nth i insts f0).
    Proof.
      destruct (Nat.lt_ge_cases i n) as [Hi|Hi].
      2:{ rewrite nth_overflow by (rewrite len_insts; exact Hi). destruct HR as (_ & _ & _ & H0). exact (H0 (145 + i)%nat ltac:(lia)). }
      change (145 + i)%nat with (144 + S i)%nat. rewrite wd_after by lia. cbn [nth].
      rewrite (nth_indep _ 0 (scalar_word f0)) by (rewrite map_length, len_insts; exact Hi). apply map_nth.
    Qed.
    Lemma wd_com i : (i < 29)%nat -> wd (4 + 2 * i) = px (nth i (p_commitments p) g0) /\ wd (5 + 2 * i) = py (nth i (p_commitments p) g0).
    Proof.
      intros Hi. destruct (nth_points (p_commitments p) i) as [E1 E2]; [rewrite len_coms; exact Hi|].
      replace (5 + 2 * i)%nat with (4 + (2 * i + 1))%nat by lia. rewrite !wd_proof by lia. unfold proof_words.
      rewrite !app_nth1 by (rewrite len_cw; lia). split; assumption.
    Qed.
    Lemma wd_eval i : (i < 78)%nat -> wd (62 + i) = scalar_word (nth i (p_evals p) f0).
    Proof.
      intros Hi. change (62 + i)%nat with (4 + (58 + i))%nat. rewrite wd_proof by lia. unfold proof_words.
      rewrite app_nth2 by (rewrite len_cw; lia). rewrite len_cw. replace (58 + i - 58)%nat with i by lia.
      rewrite app_nth1 by (rewrite len_ew; exact Hi).
      rewrite (nth_indep _ 0 (scalar_word f0)) by (rewrite len_ew; exact Hi). apply map_nth.
    Qed.
    Lemma wd_last j : (j < 4)%nat -> wd (140 + j) = nth j [px (p_w p); py (p_w p); px (p_w' p); py (p_w' p)] 0.
    Proof.
      intros Hj. change (140 + j)%nat with (4 + (136 + j))%nat. rewrite wd_proof by lia. unfold proof_words.
      rewrite app_nth2 by (rewrite len_cw; lia). rewrite len_cw. rewrite app_nth2 by (rewrite len_ew; lia). rewrite len_ew.
      replace (136 + j - 58 - 78)%nat with j by lia. reflexivity.
    Qed.
    Lemma point_of a i P : a = 4 + 32 * Z.of_nat i -> P <> g0 -> wd i = px P -> wd (S i) = py P -> point_at cdw a.
    Proof.
      intros -> N0 E1 E2. exists P. split; [exact N0|]. rewrite enc_points. rewrite cdw_wd.
      replace (4 + 32 * Z.of_nat i + 32) with (4 + 32 * Z.of_nat (S i)) by lia. rewrite cdw_wd, E1, E2. reflexivity.
    Qed.
    Lemma scalar_lt (s : Fr) : scalar_word s < r_mod. Proof. exact (proj2 (vr_range s)). Qed.
    Lemma reads_inputs : inputs_ok n cdw.
    Proof.
      destruct HR as ((_ & _ & Fc & NW & NW') & _). rewrite Forall_forall in Fc.
      split; [exact wd_3|]. split; [exact wd_144|]. split; [|split; [|split; [|split]]].
      - intros a Ha. apply in_map_iff in Ha as (i & <- & Hi). apply in_seq in Hi.
        replace (0x1224 + 32 * Z.of_nat i) with (4 + 32 * Z.of_nat (145 + i)) by lia. rewrite cdw_wd, wd_inst. apply scalar_lt.
      - intros a Ha. apply in_map_iff in Ha as (i & <- & Hi). apply in_seq in Hi. destruct (wd_com i ltac:(lia)) as [E1 E2].
        apply (point_of _ (4 + 2 * i) (nth i (p_commitments p) g0)); [lia| |exact E1|exact E2].
        apply Fc. apply nth_In. rewrite len_coms. lia.
      - intros a Ha. apply in_map_iff in Ha as (i & <- & Hi). apply in_seq in Hi.
        replace (0x7c4 + 32 * Z.of_nat i) with (4 + 32 * Z.of_nat (62 + i)) by lia. rewrite cdw_wd, wd_eval by lia. apply scalar_lt.
      - exact (point_of 0x1184 140 (p_w p) eq_refl NW (wd_last 0 ltac:(lia)) (wd_last 1 ltac:(lia))).
      - exact (point_of 0x11c4 142 (p_w' p) eq_refl NW' (wd_last 2 ltac:(lia)) (wd_last 3 ltac:(lia))).
    Qed.

    Lemma cd_at i : cd_load calldata (4 + 32 * Z.of_nat i) = Some (wd i).
    Proof.
      unfold cd_load. replace (4 + 32 * Z.of_nat i) with (4 + Z.of_nat i * 32) by lia. rewrite Z.mod_add, Z.div_add by lia.
      destruct (Z.leb_spec 0 (4 + Z.of_nat i * 32)); [|lia]. cbn [andb Z.eqb]. change (4 mod 32 =? 4) with true. change (4 / 32) with 0.
      rewrite Z.add_0_l, Nat2Z.id. reflexivity.
    Qed.
    Lemma cd_inst i : cd_load calldata (0x1224 + 32 * Z.of_nat i) = Some (vr (nth i insts f0)).
    Proof.
      replace (0x1224 + 32 * Z.of_nat i) with (4 + 32 * Z.of_nat (145 + i)) by lia. rewrite cd_at, wd_inst. reflexivity.
    Qed.
    (** the points and scalars of the proof and the instances by the position of their first word *)
    Definition pt (a : Z) : G1 :=
      if a <? 0x1184 then nth (Z.to_nat ((a - 0x84) / 64)) (p_commitments p) g0 else if a =? 0x1184 then p_w p else p_w' p.
    Definition ev (a : Z) : Fr :=
      if a <? 0x1200 then nth (Z.to_nat ((a - 0x7c4) / 32)) (p_evals p) f0 else nth (Z.to_nat ((a - 0x1224) / 32)) insts f0.
    Lemma aligned_at a : a mod 32 = 4 -> 0 <= a -> exists i, a = 4 + 32 * Z.of_nat i.
    Proof. intros H1 H2. exists (Z.to_nat (a / 32)). rewrite Z2Nat.id by (apply Z.div_pos; lia). pose proof (Z.div_mod a 32). lia. Qed.
    Lemma even_odd (i : nat) : exists k, (i = 2 * k \/ i = 2 * k + 1)%nat.
    Proof. exists (Nat.div2 i). destruct (Nat.Even_or_Odd i) as [[k ->]|[k ->]]; [left|right]; [rewrite Nat.div2_double|rewrite Nat.add_1_r, Nat.div2_succ_double]; lia. Qed.
    Lemma call_ok a u : scd Fr G1 pt ev a = Some u -> exists z, cd_load calldata a = Some z /\ rel u z.
    Proof.
      unfold scd. destruct (Z.eqb_spec (a mod 32) 4) as [Hm|]; cbn [negb]; [|discriminate]. intros E.
      assert (H0 : 0 <= a).
      { unfold between in E. destruct (Z.leb_spec 0 a); [assumption|]. exfalso.
        destruct (Z.leb_spec 0x84 a), (Z.leb_spec 0x7c4 a), (Z.leb_spec 0x1184 a), (Z.leb_spec 0x1224 a); cbn [andb] in E; lia || discriminate E. }
      destruct (aligned_at a Hm H0) as (i & ->). exists (wd i). split; [apply cd_at|].
      unfold between, point_word in E.
      destruct ((0x84 <=? 4 + 32 * Z.of_nat i) && (4 + 32 * Z.of_nat i <? 0x7c4)) eqn:B1.
      { apply andb_prop in B1 as [B1 B2]. apply Z.leb_le in B1. apply Z.ltb_lt in B2.
        destruct (even_odd (i - 4)) as (k & [Ek|Ek]).
        - replace ((4 + 32 * Z.of_nat i - 0x84) mod 64) with 0 in E.
          2:{ replace (4 + 32 * Z.of_nat i - 0x84) with (Z.of_nat k * 64) by lia. rewrite Z.mod_mul; lia. }
          cbn [Z.eqb] in E. apply some_inj in E; subst u. cbn [rel]. unfold pt.
          destruct (Z.ltb_spec (4 + 32 * Z.of_nat i) 0x1184); [|lia].
          replace (4 + 32 * Z.of_nat i - 0x84) with (Z.of_nat k * 64) by lia. rewrite Z.div_mul, Nat2Z.id by lia.
          replace i with (4 + 2 * k)%nat by lia. apply wd_com. lia.
        - replace ((4 + 32 * Z.of_nat i - 0x84) mod 64) with 32 in E.
          2:{ replace (4 + 32 * Z.of_nat i - 0x84) with (32 + Z.of_nat k * 64) by lia. rewrite Z.mod_add; [reflexivity|lia]. }
          cbn [Z.eqb] in E. apply some_inj in E; subst u. cbn [rel]. unfold pt.
          destruct (Z.ltb_spec (4 + 32 * Z.of_nat i - 32) 0x1184); [|lia].
          replace (4 + 32 * Z.of_nat i - 32 - 0x84) with (Z.of_nat k * 64) by lia. rewrite Z.div_mul, Nat2Z.id by lia.
          replace i with (5 + 2 * k)%nat by lia. apply wd_com. lia. }
      destruct ((0x7c4 <=? 4 + 32 * Z.of_nat i) && (4 + 32 * Z.of_nat i <? 0x1184)) eqn:B2.
      { apply andb_prop in B2 as [B2 B3]. apply Z.leb_le in B2. apply Z.ltb_lt in B3. apply some_inj in E; subst u. cbn [rel]. unfold ev.
        destruct (Z.ltb_spec (4 + 32 * Z.of_nat i) 0x1200); [|lia].
        replace (4 + 32 * Z.of_nat i - 0x7c4) with (Z.of_nat (i - 62) * 32) by lia. rewrite Z.div_mul, Nat2Z.id by lia.
        replace i with (62 + (i - 62))%nat at 1 by lia. apply wd_eval. lia. }
      destruct ((0x1184 <=? 4 + 32 * Z.of_nat i) && (4 + 32 * Z.of_nat i <? 0x1204)) eqn:B3.
      { apply andb_prop in B3 as [B3 B4]. apply Z.leb_le in B3. apply Z.ltb_lt in B4.
        assert (Hi : i = 140%nat \/ i = 141%nat \/ i = 142%nat \/ i = 143%nat) by lia.
        destruct Hi as [->|[->|[->| ->]]]; cbn in E; apply some_inj in E; subst u; cbn [rel].
        - exact (wd_last 0 ltac:(lia)). - exact (wd_last 1 ltac:(lia)). - exact (wd_last 2 ltac:(lia)). - exact (wd_last 3 ltac:(lia)). }
      destruct ((0x1224 <=? 4 + 32 * Z.of_nat i) && (4 + 32 * Z.of_nat i <? 0x1844)) eqn:B4; [|discriminate E].
      apply andb_prop in B4 as [B4 B5]. apply Z.leb_le in B4. apply Z.ltb_lt in B5. apply some_inj in E; subst u. cbn [rel]. unfold ev.
      destruct (Z.ltb_spec (4 + 32 * Z.of_nat i) 0x1200); [lia|].
      replace (4 + 32 * Z.of_nat i - 0x1224) with (Z.of_nat (i - 145) * 32) by lia. rewrite Z.div_mul, Nat2Z.id by lia.
      replace i with (145 + (i - 145))%nat at 1 by lia. apply wd_inst.
    Qed.
  End Reads.
End Input.
