(** verifyProof as a call. *)
From Coq Require Import ZArith NArith List String Bool Lia.
From Verif.Base Require Import Fld Fp EC Primes Curves Group.
From Verif.Model Require Import Monad Evm Points PairingSol Yul Halo2VerifierSol VerifierCall.
From Verif.Spec Require Import Plonk PlonkVerifier PlonkCall.
From Verif.Proofs Require Import BytesProofs InstanceProofs OnchainProofs ServiceHex YulCon VerifierSetup VerifierTail VerifierFront VerifierKey VerifierInput VerifierTop VerifierMain.
Import ListNotations.
Open Scope string_scope.
Open Scope Z_scope.


(** *** words and bytes *)
Lemma of_be_pos l : Forall byte_ok l -> 0 <= of_be l < 256 ^ Z.of_nat (List.length l).
Proof.
  induction l as [|b l IH] using rev_ind; intros H; [cbn; lia|]. apply Forall_app in H as [H1 H2]. inversion H2 as [|? ? Hb _]; subst.
  rewrite of_be_app, app_length. cbn [List.length]. specialize (IH H1). unfold byte_ok in Hb. change (of_be [b]) with (0 * 256 + b).
  change (256 ^ Z.of_nat 1) with 256. rewrite Nat.add_1_r, Nat2Z.inj_succ, Z.pow_succ_r by lia. nia.
Qed.
Lemma be_of_be l : Forall byte_ok l -> be_bytes (List.length l) (of_be l) = l.
Proof.
  induction l as [|b l IH] using rev_ind; intros H; [reflexivity|]. apply Forall_app in H as [H1 H2]. inversion H2 as [|? ? Hb _]; subst.
  rewrite of_be_app, app_length. cbn [List.length]. unfold byte_ok in Hb. change (of_be [b]) with (0 * 256 + b). change (256 ^ Z.of_nat 1) with 256.
  rewrite Nat.add_1_r. cbn [be_bytes]. rewrite Z.add_0_l, Z.div_add_l, (Z.div_small b), Z.add_0_r by lia. rewrite IH by exact H1.
  rewrite Z.add_comm, Z.mod_add, Z.mod_small by lia. reflexivity.
Qed.
Lemma words_from_pos n : forall b, Forall byte_ok b -> Forall (fun w => 0 <= w) (words_from n b).
Proof.
  induction n as [|n IH]; intros b H; cbn [words_from]; constructor.
  - apply of_be_pos. apply Forall_forall. intros c Hc. assert (Hc' : In c (b ++ repeat 0 32)). { rewrite <- (firstn_skipn 32 (b ++ repeat 0 32)). apply in_or_app. left. exact Hc. }
    apply in_app_or in Hc' as [Hc'|Hc']. + rewrite Forall_forall in H. exact (H c Hc'). + apply repeat_spec in Hc' as ->. red; lia.
  - apply IH. apply Forall_forall. intros c Hc. rewrite Forall_forall in H. apply H. rewrite <- (firstn_skipn 32 b). apply in_or_app. right. exact Hc.
Qed.
Lemma length_words_from n : forall b, List.length (words_from n b) = n.
Proof. induction n as [|n IH]; intros b; [reflexivity|]. cbn [words_from List.length]. rewrite IH. reflexivity. Qed.
Lemma words_bytes n : forall b, Forall byte_ok b -> List.length b = (32 * n)%nat -> flat_map word (words_from n b) = b.
Proof.
  induction n as [|n IH]; intros b H L; cbn [words_from flat_map].
  - destruct b; [reflexivity|discriminate L].
  - assert (E : firstn 32 (b ++ repeat 0 32) = firstn 32 b).
    { rewrite firstn_app. replace (32 - List.length b)%nat with 0%nat by lia. apply app_nil_r. }
    rewrite E. rewrite IH.
    + unfold word. replace (be_bytes 32) with (be_bytes (List.length (firstn 32 b))) by (rewrite firstn_length; f_equal; lia).
      rewrite be_of_be. * apply firstn_skipn. * apply Forall_forall. intros c Hc. rewrite Forall_forall in H. apply H. rewrite <- (firstn_skipn 32 b). apply in_or_app. left. exact Hc.
    + apply Forall_forall. intros c Hc. rewrite Forall_forall in H. apply H. rewrite <- (firstn_skipn 32 b). apply in_or_app. right. exact Hc.
    + rewrite skipn_length. lia.
Qed.
Lemma bytes_words ws : Forall (fun w => 0 <= w < 2 ^ 256) ws -> words_from (List.length ws) (flat_map word ws) = ws.
Proof.
  induction ws as [|w ws IH]; intros H; [reflexivity|]. inversion H as [|? ? Hw Hs]; subst. cbn [List.length flat_map words_from].
  unfold word at 1 3. rewrite <- app_assoc, (firstn_len _ _ 32 (length_be 32 w)), (skipn_len _ _ 32 (length_be 32 w)).
  rewrite of_be_be by lia. change (256 ^ Z.of_nat 32) with (2 ^ 256). rewrite Z.mod_small by exact Hw. f_equal. exact (IH Hs).
Qed.
Lemma length_word_bytes ws : List.length (flat_map word ws) = (32 * List.length ws)%nat.
Proof. induction ws as [|w ws IH]; [reflexivity|]. cbn [flat_map List.length]. rewrite app_length, IH. unfold word at 1. rewrite length_be. lia. Qed.
Lemma word_bytes_ok ws : Forall byte_ok (flat_map word ws).
Proof. induction ws as [|w ws IH]; cbn [flat_map]; [constructor|]. apply Forall_app. split; [apply be_range|exact IH]. Qed.

Lemma length_abi vk b insts : List.length (abi_args vk b insts) = (5 + word_count b + List.length insts)%nat.
Proof. unfold abi_args. rewrite !app_length. unfold words_of. rewrite length_words_from. cbn [List.length]. lia. Qed.

Lemma firstn_map_nth (l : list Z) n : (n <= List.length l)%nat -> map (fun i => nth i l 0) (seq 0 n) = firstn n l.
Proof.
  revert n. induction l as [|w l IH]; intros n H; [destruct n; [reflexivity|cbn in H; lia]|].
  destruct n as [|n]; [reflexivity|]. cbn [seq map firstn]. f_equal. rewrite <- seq_shift, map_map. apply IH. cbn in H. lia.
Qed.
Lemma nth_skipn_Z (l : list Z) : forall n i, nth i (skipn n l) 0 = nth (n + i) l 0.
Proof. induction l as [|w l IH]; intros n i; destruct n; cbn; try reflexivity; [destruct i; reflexivity|]. apply IH. Qed.
Lemma map_nth_seq (l : list Z) k n : (k + n <= List.length l)%nat -> map (fun i => nth i l 0) (seq k n) = firstn n (skipn k l).
Proof.
  intros H. rewrite <- firstn_map_nth by (rewrite skipn_length; lia).
  rewrite <- (Nat.add_0_r k) at 1. generalize 0%nat as j. clear H. induction n as [|n IH]; intros j; [reflexivity|].
  cbn [seq map]. rewrite nth_skipn_Z. f_equal. rewrite <- Nat.add_succ_r. apply IH.
Qed.

(** *** what a call passes *)
Lemma length_proof_words p : proof_ok p -> List.length (proof_words p) = 140%nat.
Proof.
  intros (H1 & H2 & _). unfold proof_words. rewrite !app_length, length_points, H1, map_length, H2. reflexivity.
Qed.
Lemma app_eq {A} (a b c d : list A) : List.length a = List.length c -> (a ++ b = c ++ d)%list -> a = c /\ b = d.
Proof.
  revert c. induction a as [|x a IH]; intros [|y c] L E; try discriminate L; [split; [reflexivity|exact E]|].
  cbn in E. injection E as -> E. destruct (IH c (f_equal pred L) E) as [-> ->]. split; reflexivity.
Qed.
Lemma scalar_word_range (s : Fr) : 0 <= scalar_word s < 2 ^ 256.
Proof. pose proof (fval_range r_mod s eq_refl) as H. unfold scalar_word. split; [lia|]. apply Z.lt_trans with r_mod; [lia|reflexivity]. Qed.
Lemma px_range (P : G1) : 0 <= px P < 2 ^ 256.
Proof. assert (H : 0 <= px P < q_mod) by exact (fval_range q_mod (fst (xy P)) eq_refl). split; [lia|]. apply Z.lt_trans with q_mod; [lia|reflexivity]. Qed.
Lemma py_range (P : G1) : 0 <= py P < 2 ^ 256.
Proof. assert (H : 0 <= py P < q_mod) by exact (fval_range q_mod (snd (xy P)) eq_refl). split; [lia|]. apply Z.lt_trans with q_mod; [lia|reflexivity]. Qed.
Lemma points_range l : Forall (fun w => 0 <= w < 2 ^ 256) (flat_map point_words l).
Proof. induction l as [|P l IH]; [constructor|]. cbn [flat_map]. apply Forall_app. split; [|exact IH]. repeat constructor; try apply px_range; apply py_range. Qed.
Lemma proof_words_range p : Forall (fun w => 0 <= w < 2 ^ 256) (proof_words p).
Proof.
  unfold proof_words. rewrite !Forall_app. split; [apply points_range|]. split; [|split].
  - apply Forall_forall. intros w H. apply in_map_iff in H as (s & <- & _). apply scalar_word_range.
  - repeat constructor; try apply px_range; apply py_range.
  - repeat constructor; try apply px_range; apply py_range.
Qed.
Lemma abi_skip vk b insts : skipn 3 (abi_args vk b insts) =
  ([Z.of_nat (List.length b)] ++ words_of b ++ [Z.of_nat (List.length insts)] ++ insts)%list.
Proof. reflexivity. Qed.
Lemma nth_after {A} (a : list A) (x : A) (c : list A) d n : List.length a = n -> nth n (a ++ x :: c) d = x.
Proof. intros <-. rewrite app_nth2, Nat.sub_diag by lia. reflexivity. Qed.
Lemma abi_tail vk b insts n : word_count b = 140%nat -> List.length insts = n ->
  map (wd (abi_args vk b insts)) (seq 3 (142 + n)) = ([Z.of_nat (List.length b)] ++ words_of b ++ [Z.of_nat (List.length insts)] ++ insts)%list.
Proof.
  intros Hw Hl. transitivity (firstn (142 + n) (skipn 3 (abi_args vk b insts))).
  - apply map_nth_seq. rewrite length_abi, Hw, Hl. lia.
  - rewrite abi_skip. apply firstn_all2. rewrite !app_length. unfold words_of. rewrite length_words_from, Hw. cbn [List.length]. rewrite Hl. lia.
Qed.
Lemma abi_zeros vk b insts n : word_count b = 140%nat -> List.length insts = n -> forall i, (145 + n <= i)%nat -> wd (abi_args vk b insts) i = 0.
Proof. intros Hw Hl i H. apply nth_overflow. rewrite length_abi, Hw, Hl. exact H. Qed.
Lemma abi_count vk b insts : word_count b = 140%nat -> wd (abi_args vk b insts) 144 = Z.of_nat (List.length insts).
Proof.
  intros Hw. unfold wd, abi_args. rewrite !app_assoc, <- (app_assoc _ [_] insts). apply nth_after. rewrite !app_length. unfold words_of. rewrite length_words_from.
  rewrite Hw. reflexivity.
Qed.
Lemma div_140 n : Z.of_nat n = 0x1180 -> Nat.div (n + 31) 32 = 140%nat /\ n = (32 * 140)%nat.
Proof. intros H. assert (E : n = (32 * 140)%nat) by lia. split; [|exact E]. rewrite E. replace (32 * 140 + 31)%nat with (31 + 140 * 32)%nat by lia. rewrite Nat.div_add by lia. reflexivity. Qed.
Lemma nth_map_seq (f : nat -> Z) k n i : (i < n)%nat -> nth i (map f (seq k n)) 0 = f (k + i)%nat.
Proof. intros H. rewrite (nth_indep _ 0 (f 0%nat)) by (rewrite map_length, seq_length; exact H). rewrite map_nth, seq_nth by exact H. reflexivity. Qed.

Lemma call_reads vk b insts n p is : Forall byte_ok b ->
  reads (abi_args vk b insts) n p is <-> (proof_ok p /\ List.length is = n /\ b = proof_bytes p /\ insts = map scalar_word is).
Proof.
  intros Hb. split.
  - intros (Hp & Hl & E & _). split; [exact Hp|]. split; [exact Hl|].
    pose proof (length_proof_words p Hp) as Lp.
    assert (E3 : wd (abi_args vk b insts) 3 = 0x1180).
    { rewrite <- (nth_map_seq _ 3 (142 + n) 0) by lia. rewrite E. reflexivity. }
    change (wd (abi_args vk b insts) 3) with (Z.of_nat (List.length b)) in E3. destruct (div_140 _ E3) as [Hw Lb].
    assert (E4 : wd (abi_args vk b insts) 144 = Z.of_nat n).
    { rewrite <- (nth_map_seq _ 3 (142 + n) 141) by lia. rewrite E.
      rewrite app_assoc. apply nth_after. rewrite app_length, Lp. reflexivity. }
    assert (Li : List.length insts = n) by (rewrite (abi_count vk b insts Hw) in E4; lia).
    rewrite (abi_tail vk b insts n Hw Li) in E.
    apply app_eq in E as [_ E]; [|reflexivity]. apply app_eq in E as [E1 E]; [|unfold words_of, word_count; rewrite length_words_from, Hw, Lp; reflexivity].
    apply app_eq in E as [_ E]; [|reflexivity]. split; [|exact E].
    unfold proof_bytes. rewrite <- E1. unfold words_of, word_count. rewrite Hw. symmetry. exact (words_bytes 140 b Hb Lb).
  - intros (Hp & Hl & -> & ->). split; [exact Hp|]. split; [exact Hl|].
    pose proof (length_proof_words p Hp) as Lp.
    assert (Lb : Z.of_nat (List.length (proof_bytes p)) = 0x1180).
    { unfold proof_bytes. rewrite length_word_bytes, Lp. reflexivity. }
    destruct (div_140 _ Lb) as [Hw _]. assert (Li : List.length (map scalar_word is) = n) by (rewrite map_length; exact Hl).
    split; [|exact (abi_zeros vk _ _ n Hw Li)].
    rewrite (abi_tail vk _ _ n Hw Li), Lb, Li. unfold words_of, word_count. rewrite Hw. rewrite <- Lp at 1.
    unfold proof_bytes. rewrite bytes_words by apply proof_words_range. reflexivity.
Qed.
Lemma abi_pos vk b insts : 0 <= vk -> Forall byte_ok b -> Forall (fun w => 0 <= w) insts -> Forall (fun w => 0 <= w) (abi_args vk b insts).
Proof.
  intros Hv Hb Hi. unfold abi_args. rewrite !Forall_app. repeat split; [|repeat constructor; lia|apply words_from_pos; exact Hb|repeat constructor; lia|exact Hi].
  repeat constructor; lia.
Qed.

(** *** the verdict *)
Section Verdict.
  Variable keccak : bytes -> Z.
  Variable in_g2 : G2c -> bool.
  Variable pairing : list (G1 * G2c) -> bool.
  Variable code : Z -> list Z.
  Variable vk : Z.
  Hypothesis Hvk : 0 <= vk.
  Variable k : vkey.
  Hypothesis Hok : key_ok k.
  Hypothesis Hcode : code vk = key_words k.
  Notation verify := (verifyProof keccak in_g2 pairing code vk).
  Notation out b insts := (outcome_of keccak in_g2 pairing (abi_args vk b insts) code vk (limit code vk) initial_memory).
  Lemma word_1 : nth 1 (code vk) 0 = Z.of_nat (k_instances k). Proof. rewrite Hcode. reflexivity. Qed.
  Lemma word_2 : nth 2 (code vk) 0 = Z.of_nat (k_degree k). Proof. rewrite Hcode. reflexivity. Qed.
  Lemma limit_is : limit code vk = (200 + k_instances k + k_degree k)%nat.
  Proof. unfold limit. rewrite word_1, word_2, !Nat2Z.id. reflexivity. Qed.
  Lemma lim_ok : (LIMIT <= limit code vk)%nat. Proof. rewrite limit_is. unfold LIMIT. clear. lia. Qed.
  Lemma n_lim : (k_instances k + 8 < limit code vk)%nat. Proof. rewrite limit_is. clear. lia. Qed.
  Lemma d_lim : (k_degree k < limit code vk)%nat. Proof. rewrite limit_is. clear. lia. Qed.
  Lemma verify_out b insts : verify b insts = decode_result keccak in_g2 pairing code (out b insts).
  Proof. unfold verifyProof, outcome_of. exact eq_refl. Qed.
  Lemma decode_one calldata (o : outcome (EVM keccak in_g2 pairing calldata code)) : returns_one keccak in_g2 pairing calldata code o ->
    decode_result keccak in_g2 pairing code o = Ok true.
  Proof. intros (m & -> & H). cbn [decode_result]. change (0x20 =? 0x20) with true. cbv iota. rewrite H. reflexivity. Qed.
  Lemma verify_one b insts : returns_one keccak in_g2 pairing (abi_args vk b insts) code (out b insts) -> verify b insts = Ok true.
  Proof. intros H. rewrite verify_out. exact (decode_one _ _ H). Qed.
  Lemma verify_rev b insts : out b insts = Rev -> verify b insts = Err "".
  Proof. intros E. rewrite verify_out. exact (f_equal (decode_result keccak in_g2 pairing code) E). Qed.

  Section Call.
    Variable b : bytes.
    Variable insts : list Z.
    Hypothesis Hb : Forall byte_ok b.
    Hypothesis Hi : Forall (fun w => 0 <= w) insts.
    Lemma inputs_dec : inputs_ok (k_instances k) (e_cdw (abi_args vk b insts)) \/ ~ inputs_ok (k_instances k) (e_cdw (abi_args vk b insts)).
    Proof.
      pose proof (checks_ok (k_instances k) _ (cdw_pos _ (abi_pos vk b insts Hvk Hb Hi))) as H.
      destruct (forallb (fun b => b) (bchecks (k_instances k) (e_cdw (abi_args vk b insts)))); [left; apply H; reflexivity|right; intros E; apply H in E; discriminate E].
    Qed.
    Lemma inputs_zeros : inputs_ok (k_instances k) (e_cdw (abi_args vk b insts)) -> forall i, (145 + k_instances k <= i)%nat -> wd (abi_args vk b insts) i = 0.
    Proof.
      intros (H1 & H2 & _). assert (H1' : wd (abi_args vk b insts) 3 = 0x1180) by exact H1. assert (H2' : wd (abi_args vk b insts) 144 = Z.of_nat (k_instances k)) by exact H2.
      clear H1 H2. rename H1' into H1, H2' into H2.
      change (wd (abi_args vk b insts) 3) with (Z.of_nat (List.length b)) in H1. destruct (div_140 _ H1) as [Hw _].
      rewrite (abi_count vk b insts Hw) in H2. apply Nat2Z.inj in H2. exact (abi_zeros vk b insts _ Hw H2).
    Qed.
    Lemma verify_reads : (exists p is, reads (abi_args vk b insts) (k_instances k) p is) \/ verify b insts = Err "".
    Proof.
      destruct inputs_dec as [H|H]; [left; exact (inputs_reads _ (abi_pos vk b insts Hvk Hb Hi) (k_instances k) (inputs_zeros H) H)|].
      right. apply verify_rev. exact (rejects keccak in_g2 pairing _ code (abi_pos vk b insts Hvk Hb Hi) vk k Hok Hcode (limit code vk) lim_ok n_lim d_lim initial_memory H).
    Qed.
    Lemma verify_total : verify b insts = Ok true \/ verify b insts = Err "".
    Proof.
      destruct verify_reads as [(p & is & HR)|H]; [|right; exact H].
      pose proof (abi_pos vk b insts Hvk Hb Hi) as Hpos.
      destruct (outcome_any keccak in_g2 pairing _ code Hpos vk k Hok Hcode (limit code vk) lim_ok n_lim d_lim p is HR initial_memory) as [O|O];
        [left; exact (verify_one b insts O)|right; exact (verify_rev b insts O)].
    Qed.
    Lemma verify_inv : verify b insts = Ok true -> exists p is,
      proof_ok p /\ List.length is = k_instances k /\ b = proof_bytes p /\ insts = map scalar_word is.
    Proof.
      intros E. destruct verify_reads as [(p & is & HR)|H]; [|rewrite H in E; discriminate E].
      exists p, is. exact (proj1 (call_reads vk b insts (k_instances k) p is Hb) HR).
    Qed.
  End Call.
  Lemma scalars_pos is : Forall (fun w => 0 <= w) (map scalar_word is).
  Proof. apply Forall_forall. intros w H. apply in_map_iff in H as (s & <- & _). apply scalar_word_range. Qed.
  Lemma verify_spec p is : domain_ok k -> proof_ok p -> List.length is = k_instances k ->
    generic k (challenges_of (hs keccak k p is)) ->
    verify (proof_bytes p) (map scalar_word is) =
      if in_g2 (k_g2 k) && in_g2 (k_neg_s_g2 k) && pairing [(opening_point k is p (challenges_of (hs keccak k p is)), k_g2 k); (p_w' p, k_neg_s_g2 k)]
      then Ok true else Err "".
  Proof.
    intros Hd Hp Hl Hg.
    pose proof (abi_pos vk (proof_bytes p) (map scalar_word is) Hvk (word_bytes_ok _) (scalars_pos is)) as Hpos.
    pose proof (proj2 (call_reads vk (proof_bytes p) (map scalar_word is) (k_instances k) p is (word_bytes_ok _)) (conj Hp (conj Hl (conj eq_refl eq_refl)))) as HR.
    pose proof (outcome_spec keccak in_g2 pairing _ code Hpos vk k Hok Hcode (limit code vk) lim_ok n_lim d_lim p is HR Hd Hg initial_memory) as H.
    change (in_g2 (k_g2 k) && in_g2 (k_neg_s_g2 k) && pairing [(opening_point k is p (challenges_of (hs keccak k p is)), k_g2 k); (p_w' p, k_neg_s_g2 k)])
      with (accepted in_g2 pairing k p (opening_point k is p (challenges_of (hs keccak k p is)))).
    destruct (accepted in_g2 pairing k p (opening_point k is p (challenges_of (hs keccak k p is))));
      [exact (verify_one _ _ H)|exact (verify_rev _ _ H)].
  Qed.
End Verdict.

(** *** the encoding is unique *)
Lemma point_words_inj (P Q : G1) : point_words P = point_words Q -> P = Q.
Proof.
  intros E. apply enc_inj. unfold enc. refine (f_equal2 pair _ _); [exact (f_equal (fun l => nth 0 l 0) E)|exact (f_equal (fun l => nth 1 l 0) E)].
Qed.
Lemma points_inj (l : list G1) : forall l', List.length l = List.length l' -> flat_map point_words l = flat_map point_words l' -> l = l'.
Proof.
  induction l as [|P l IH]; intros [|Q l'] L E; try discriminate L; [reflexivity|].
  cbn [flat_map] in E. apply app_eq in E as [E1 E2]; [|reflexivity]. rewrite (point_words_inj P Q E1), (IH l' (f_equal pred L) E2). reflexivity.
Qed.
Lemma scalar_word_inj (s t : Fr) : scalar_word s = scalar_word t -> s = t.
Proof. intros E. rewrite <- (fr_vr s), <- (fr_vr t). exact (f_equal fr E). Qed.
Lemma scalars_inj (l : list Fr) : forall l', map scalar_word l = map scalar_word l' -> l = l'.
Proof.
  induction l as [|s l IH]; intros [|t l'] E; try discriminate E; [reflexivity|]. cbn [map] in E.
  assert (E1 : scalar_word s = scalar_word t) by exact (f_equal (hd 0) E). rewrite (scalar_word_inj s t E1), (IH l' (f_equal (@tl Z) E)). reflexivity.
Qed.
Lemma proof_ext p p' : p_commitments p = p_commitments p' -> p_evals p = p_evals p' -> p_w p = p_w p' -> p_w' p = p_w' p' -> p = p'.
Proof. destruct p, p'. cbn. intros -> -> -> ->. reflexivity. Qed.
Lemma proof_bytes_inj p p' : proof_ok p -> proof_ok p' -> proof_bytes p = proof_bytes p' -> p = p'.
Proof.
  intros Hp Hp' E. unfold proof_bytes in E. apply (f_equal (words_from 140)) in E.
  rewrite <- (length_proof_words p Hp) in E at 1. rewrite <- (length_proof_words p' Hp') in E.
  rewrite !bytes_words in E by apply proof_words_range. destruct Hp as (L1 & L2 & _). destruct Hp' as (L1' & L2' & _).
  unfold proof_words in E. apply app_eq in E as [E1 E]; [|rewrite !length_points, L1, L1'; reflexivity].
  apply app_eq in E as [E2 E]; [|rewrite !map_length, L2, L2'; reflexivity]. apply app_eq in E as [E3 E4]; [|reflexivity].
  apply proof_ext; [exact (points_inj _ _ (eq_trans L1 (eq_sym L1')) E1)|exact (scalars_inj _ _ E2)|exact (point_words_inj _ _ E3)|exact (point_words_inj _ _ E4)].
Qed.

Lemma g2_words_inj (P Q : G2c) : g2_words P = g2_words Q -> P = Q.
Proof.
  intros E. assert (E1 : decode2 (nth 1 (g2_words P) 0) (nth 0 (g2_words P) 0) (nth 3 (g2_words P) 0) (nth 2 (g2_words P) 0) = Some P)
    by (apply decode2_words; reflexivity).
  assert (E2 : decode2 (nth 1 (g2_words Q) 0) (nth 0 (g2_words Q) 0) (nth 3 (g2_words Q) 0) (nth 2 (g2_words Q) 0) = Some Q)
    by (apply decode2_words; reflexivity).
  rewrite E in E1. exact (VerifierInput.some_inj _ _ (eq_trans (eq_sym E1) E2)).
Qed.
Lemma key_ext k k' : k_digest k = k_digest k' -> k_instances k = k_instances k' -> k_degree k = k_degree k' -> k_n_inv k = k_n_inv k' -> k_omega k = k_omega k' -> k_omega_inv k = k_omega_inv k' ->
  k_omega_inv_l k = k_omega_inv_l k' -> k_gen k = k_gen k' -> k_g2 k = k_g2 k' -> k_neg_s_g2 k = k_neg_s_g2 k' -> k_fixed k = k_fixed k' ->
  k_sigma k = k_sigma k' -> k = k'.
Proof. destruct k, k'. cbn. intros -> -> -> -> -> -> -> -> -> -> -> ->. reflexivity. Qed.
Lemma key_words_inj k k' : key_ok k -> key_ok k' -> key_words k = key_words k' -> k = k'.
Proof.
  intros (F & S & _) (F' & S' & _) E.
  pose proof (Nat2Z.inj _ _ (f_equal (fun l => nth 1 l 0) E)) as Ei. pose proof (Nat2Z.inj _ _ (f_equal (fun l => nth 2 l 0) E)) as Ed.
  pose proof (f_equal (fun l => nth 0 l 0) E) as E0. pose proof (scalar_word_inj _ _ (f_equal (fun l => nth 3 l 0) E)) as E3.
  pose proof (scalar_word_inj _ _ (f_equal (fun l => nth 4 l 0) E)) as E4. pose proof (scalar_word_inj _ _ (f_equal (fun l => nth 5 l 0) E)) as E5.
  pose proof (scalar_word_inj _ _ (f_equal (fun l => nth 6 l 0) E)) as E6.
  assert (Eg : k_gen k = k_gen k') by (apply point_words_inj; exact (f_equal (fun l => firstn 2 (skipn 11 l)) E)).
  assert (E2 : k_g2 k = k_g2 k') by (apply g2_words_inj; exact (f_equal (fun l => firstn 4 (skipn 13 l)) E)).
  assert (En : k_neg_s_g2 k = k_neg_s_g2 k') by (apply g2_words_inj; exact (f_equal (fun l => firstn 4 (skipn 17 l)) E)).
  assert (El : (k_fixed k ++ k_sigma k = k_fixed k' ++ k_sigma k')%list).
  { apply points_inj; [rewrite !app_length, F, S, F', S'; reflexivity|exact (f_equal (skipn 21) E)]. }
  apply app_eq in El as [Ef Es]; [|rewrite F, F'; reflexivity].
  exact (key_ext k k' E0 Ei Ed E3 E4 E5 E6 Eg E2 En Ef Es).
Qed.
Lemma key_g2 k : key_words k = vk_code -> k_g2 k = g2.
Proof.
  intros Hk. apply (@VerifierInput.some_inj G2c). transitivity (decode2 (kw 14) (kw 13) (kw 16) (kw 15)).
  - symmetry. apply decode2_words. exact (f_equal (fun l => firstn 4 (skipn 13 l)) Hk).
  - apply decode2_words. exact g2_key.
Qed.
Lemma key_gen k : key_words k = vk_code -> k_gen k = g1.
Proof.
  intros Hk. apply point_words_inj. transitivity [kw 11; kw 12]; [exact (f_equal (fun l => firstn 2 (skipn 11 l)) Hk)|]. vm_compute. reflexivity.
Qed.
