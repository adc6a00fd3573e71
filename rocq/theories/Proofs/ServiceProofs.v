(** Lemmas about what the services read from an evolving contract and about the texts they write. *)
From Coq Require Import ZArith String List Bool Lia Arith.
From Verif.Base Require Import Fld Fp EC Primes Curves Group Fermat.
From Verif.Model Require Import Monad Evm Strings Points HashEvm Dkg Lib Serialise Files Cache Client Zkdvrf PairingSol HashSol PseudoRandSol GppSol RealEnv Services.
From Verif.Spec Require Import Dvrf Onchain Histories Serial CacheSpec ClientSpec ServiceSpec.
From Verif.Proofs Require Import ZkdvrfStep ZkdvrfInv1 ZkdvrfInv2 ZkdvrfInv3 BytesProofs SerialProofs DecimalProofs HashProofs HashSolProofs OnchainProofs VerifyProofs ClientProofs ServiceHex.
From Verif.Props Require Import P_Dvrf P_Onchain P_Contract P_EndToEnd.
Import ListNotations.
Open Scope Z_scope.

Section Chain.
  Variable v : variant.
  Variable E : env.
  Variable c : cfg.
  Variable tr : nat -> list step.
  Variable ch : nat -> st.
  Hypothesis Hev : evolves v E c tr ch.

  Lemma chain_hist i : hist v E c (tr i) (ch i). Proof. apply Hev. Qed.
  Lemma chain_ext i j : (i <= j)%nat -> exists t, tr j = tr i ++ t.
  Proof.
    induction 1 as [|j L [t IH]]; [exists []; rewrite app_nil_r; reflexivity|]. destruct (proj2 (Hev j)) as [t' X]. exists (t ++ t'). rewrite X, IH, app_assoc. reflexivity.
  Qed.
  Lemma chain_evals i j k x : (i <= j)%nat -> In x (evals (tr i) k) -> In x (evals (tr j) k).
  Proof. intros L I. destruct (chain_ext i j L) as [t ->]. rewrite evals_app. apply in_or_app. left. exact I. Qed.

  (** one slot *)
  Lemma slot s t k i : hist v E c t s -> 0 <= i -> let e := roundToEval s k i in
    (indexPlus e = 0 /\ forall a x, In (a, x) (evals t k) -> indexPlus x <> i + 1) \/ (indexPlus e = i + 1 /\ exists a, In (a, e) (evals t k)).
  Proof.
    intros Hh Hi e. pose proof (inv3 _ _ _ _ _ Hh) as I3. destruct (existsb (fun x => indexPlus (snd x) =? i + 1) (evals t k)) eqn:X.
    - right. apply existsb_exists in X as ([a x] & I & X). cbn [snd] in X. apply Z.eqb_eq in X.
      destruct (m_ev _ _ _ _ _ I3 k a x I) as (i' & vk & _ & P & _ & _ & R). assert (i' = i) by lia. subst i'. unfold e. rewrite R. eauto.
    - left. assert (A : forall a x, In (a, x) (evals t k) -> indexPlus x <> i + 1).
      { intros a x I P. rewrite (proj2 (existsb_exists _ _)) in X; [discriminate|]. exists (a, x). split; [exact I|]. apply Z.eqb_eq. exact P. }
      split; [|exact A]. unfold e. rewrite (m_none _ _ _ _ _ I3 k i A). reflexivity.
  Qed.
  Lemma slots k : forall m b, let l := filter (fun e => negb (indexPlus e =? 0)) (map (fun i => roundToEval (ch i) k (Z.of_nat i)) (seq b m)) in
    increasing (map indexPlus l) /\ Forall (fun e => Z.of_nat b < indexPlus e <= Z.of_nat (b + m) /\ exists a, In (a, e) (evals (tr (b + m)) k)) l.
  Proof.
    induction m as [|m IH]; intros b; cbn [seq map filter]; [split; [exact I|constructor]|]. specialize (IH (S b)). cbv zeta in IH.
    set (l := filter _ (map _ (seq (S b) m))) in *. destruct IH as [IH1 IH2].
    assert (W : Forall (fun e => Z.of_nat b < indexPlus e <= Z.of_nat (b + S m) /\ exists a, In (a, e) (evals (tr (b + S m)) k)) l).
    { eapply Forall_impl; [|exact IH2]. intros e [R A]. cbv beta in *. replace (b + S m)%nat with (S b + m)%nat by lia. split; [lia|exact A]. }
    destruct (slot (ch b) (tr b) k (Z.of_nat b) (chain_hist b) ltac:(lia)) as [[Z0 _]|[P (a & A)]].
    - rewrite Z0. cbn [Z.eqb negb]. split; [exact IH1|exact W].
    - rewrite P. destruct (Z.eqb_spec (Z.of_nat b + 1) 0); [lia|]. cbn [negb]. split.
      + cbn [map]. destruct l as [|e l']; [exact I|]. cbn [map] in *. inversion IH2 as [|? ? [R _] _]. subst. change (indexPlus (roundToEval (ch b) k (Z.of_nat b)) < indexPlus e /\ increasing (indexPlus e :: map indexPlus l')). split; [lia|exact IH1].
      + constructor; [|exact W]. split; [lia|]. exists a. apply (chain_evals b); [lia|exact A].
  Qed.

  Lemma nodup_idx (l : list (Z * peval)) : NoDup (map fst l) -> (forall a x a' x', In (a, x) l -> In (a', x') l -> indexPlus x = indexPlus x' -> a = a') -> NoDup (map (fun y => indexPlus (snd y)) l).
  Proof.
    induction l as [|[a x] l IH]; cbn [map]; intros N H; [constructor|]. inversion N as [|? ? N1 N2]. subst. constructor.
    - intros I. apply in_map_iff in I as ([a' x'] & P & I). cbn [snd] in P. apply N1. assert (a' = a) by (eapply H; [right; exact I|left; reflexivity|exact P]). subst. apply (in_map fst) in I. exact I.
    - apply IH; [exact N2|]. intros b y b' y' I I'. apply H; right; assumption.
  Qed.
  Lemma evals_index t s k a x : hist v E c t s -> In (a, x) (evals t k) -> 1 <= indexPlus x <= Z.of_nat (length (registrations t)).
  Proof. intros Hh I. destruct (m_ev _ _ _ _ _ (inv3 _ _ _ _ _ Hh) k a x I) as (i & vk & Z1 & P & _). apply znth_range in Z1. rewrite map_length in Z1. lia. Qed.
  Lemma evals_nodup t s k : hist v E c t s -> NoDup (map (fun y => indexPlus (snd y)) (evals t k)).
  Proof.
    intros Hh. pose proof (inv3 _ _ _ _ _ Hh) as I3. apply nodup_idx; [apply (m_nd _ _ _ _ _ I3)|]. intros a x a' x' I I' P.
    destruct (m_ev _ _ _ _ _ I3 k a x I) as (i & vk & Z1 & P1 & _). destruct (m_ev _ _ _ _ _ I3 k a' x' I') as (i' & vk' & Z2 & P2 & _). assert (i' = i) by lia. subst. congruence.
  Qed.
  Lemma registrations_le t s : hist v E c t s -> Z.of_nat (length (registrations t)) <= c_number c.
  Proof.
    intros Hh. pose proof (inv1 _ _ _ _ _ Hh) as J. pose proof (j_le _ _ _ _ J). pose proof (NoDup_incl_length (j_rnd _ _ _ _ J) (j_rin _ _ _ _ J)). rewrite map_length in *. lia.
  Qed.
  (** the evaluations already accepted when the reading starts are all read *)
  Lemma slots_all k n : c_number c <= Z.of_nat n -> let l := filter (fun e => negb (indexPlus e =? 0)) (map (fun i => roundToEval (ch i) k (Z.of_nat i)) (seq 0 n)) in
    forall a x, In (a, x) (evals (tr 0) k) -> In x l.
  Proof.
    intros Hn l a x I. assert (R : 1 <= indexPlus x <= c_number c) by (pose proof (evals_index _ _ _ _ _ (chain_hist 0) I); pose proof (registrations_le _ _ (chain_hist 0)); lia).
    set (i := Z.to_nat (indexPlus x - 1)). assert (I' : In (a, x) (evals (tr i) k)) by (apply (chain_evals 0); [lia|exact I]).
    destruct (m_ev _ _ _ _ _ (inv3 _ _ _ _ _ (chain_hist i)) k a x I') as (j & vk & _ & P & _ & _ & Ro). assert (j = Z.of_nat i) by lia. subst j.
    apply filter_In. split; [|destruct (Z.eqb_spec (indexPlus x) 0); [lia|reflexivity]]. apply in_map_iff. exists i. split; [exact Ro|]. apply in_seq. lia.
  Qed.
  Lemma slots_count k n : c_number c <= Z.of_nat n -> let l := filter (fun e => negb (indexPlus e =? 0)) (map (fun i => roundToEval (ch i) k (Z.of_nat i)) (seq 0 n)) in
    (length (evals (tr 0) k) <= length l)%nat.
  Proof.
    intros Hn l. rewrite <- (map_length (fun y : Z * peval => indexPlus (snd y)) (evals (tr 0) k)), <- (map_length indexPlus l). apply NoDup_incl_length; [exact (evals_nodup _ _ k (chain_hist 0))|].
    intros i I. apply in_map_iff in I as ([a x] & <- & I). apply in_map. cbn [snd]. exact (slots_all k n Hn a x I).
  Qed.
End Chain.

(** ** texts of contract values read back by the client *)
Lemma read_fr_text x : 0 <= x < r_mod -> read_fr (to_hex_string x) = Ok (fr x).
Proof. intros H. exact (read_text r_mod x r0 H r256). Qed.
Lemma read_fr_text_fail x : r_mod <= x < 2 ^ 256 -> exists m, read_fr (to_hex_string x) = Panic m.
Proof. intros H. exact (read_text_fail r_mod x r0 H). Qed.
Lemma read_fq_text (x : Fq) : read_fq (to_hex_string (fval (x : Fp q_mod))) = Ok x.
Proof. unfold read_fq. rewrite (read_text q_mod _ q0 (fval_range q_mod x q0) q256). rewrite of_Z_fval. reflexivity. Qed.
Lemma g1_text (S : G1) : to_g1 (point_text (PairingSol.enc S)) = Ok S.
Proof.
  unfold to_g1, point_text, PairingSol.enc. cbn [fst snd s_x s_y]. unfold px, py.
  rewrite read_fq_text. cbn [bind]. rewrite read_fq_text. cbn [bind]. unfold g1_from_xy. rewrite (from_xy_xy Fq b1 b1_neq0 S). reflexivity.
Qed.
Lemma hex_fq (x : Fq) : hex_num (write_fq x) = Ok (fval (x : Fp q_mod)).
Proof. exact (hex_num_field q_mod x q0 q256). Qed.
Lemma hex_fr (x : Fr) : hex_num (write_fr x) = Ok (fval (x : Fp r_mod)).
Proof. exact (hex_num_field r_mod x r0 r256). Qed.
Lemma point_arg_g1 (S : G1) : point_arg (of_g1 S) = Ok (PairingSol.enc S).
Proof. unfold point_arg, of_g1. cbn [s_x s_y]. rewrite !hex_fq. reflexivity. Qed.
Lemma eval_text_read e (S : G1) : evalue e = PairingSol.enc S -> 0 <= proof_z e < r_mod -> 0 <= proof_c e < r_mod ->
  to_eval (eval_text e) = Ok (mkPartialEval (indexPlus e) S (fr (proof_z e)) (fr (proof_c e))).
Proof.
  intros V Hz Hc. unfold to_eval, eval_text. cbn [se_value se_z se_c se_index]. rewrite V, g1_text. cbn [bind]. rewrite !read_fr_text by assumption. reflexivity.
Qed.

(** ** the configuration the services pass to the client *)
Transparent to_dec.
Lemma to_dec_digits t : 0 <= t -> Forall (fun d => 48 <= d <= 57) (to_dec t).
Proof. intros H. unfold to_dec. apply digits_range; [lia|constructor]. Qed.
Lemma to_dec_nonempty t : to_dec t <> [].
Proof.
  unfold to_dec. change (digits 78 t []) with (if t / 10 =? 0 then [48 + t mod 10] else digits 77 (t / 10) [48 + t mod 10]).
  assert (NE : forall f v a acc, digits f v (a :: acc) <> []) by (induction f as [|f IH]; intros v a acc; cbn [digits]; [discriminate|]; destruct (v / 10 =? 0); [discriminate|apply IH]).
  destruct (t / 10 =? 0); [discriminate|]. apply NE.
Qed.
Opaque to_dec.
Lemma dec_denotes t : 0 <= t < 2 ^ 32 -> denotes_u32 (to_dec t) t.
Proof.
  intros H. assert (B : 2 ^ 32 < M256) by reflexivity. exists (map (fun d => d - 48) (to_dec t)).
  pose proof (to_dec_digits t ltac:(lia)) as F.
  split; [|split; [|split; [|split]]].
  - intros X. apply map_eq_nil in X. exact (to_dec_nonempty t X).
  - clear - F. induction F; cbn [map]; constructor; [lia|assumption].
  - left. rewrite map_map. rewrite (map_ext (fun d => 48 + (d - 48)) (fun d => d)) by (intros; lia). rewrite map_id. reflexivity.
  - assert (V : DecimalProofs.dec (to_dec t) = t) by (apply to_dec_value; lia). rewrite <- V at 1. clear V. unfold DecimalProofs.dec. generalize 0. clear. induction (to_dec t) as [|d l IH]; intros a; [reflexivity|]. cbn [map fold_left]. apply IH.
  - lia.
Qed.
Lemma services_config o : 0 <= o_threshold o < 2 ^ 32 -> 0 <= o_members o < 2 ^ 32 -> 0 <= o_degree o < 2 ^ 32 -> get_config (client_env o) = PC (o_threshold o) (o_members o) (o_degree o).
Proof.
  intros H1 H2 H3. unfold get_config, env_u32, client_env.
  change (path_eqb (str "THRESHOLD") (str "THRESHOLD")) with true. change (path_eqb (str "NUMBER_OF_MEMBERS") (str "THRESHOLD")) with false. change (path_eqb (str "NUMBER_OF_MEMBERS") (str "NUMBER_OF_MEMBERS")) with true.
  change (path_eqb (str "DEGREE") (str "THRESHOLD")) with false. change (path_eqb (str "DEGREE") (str "NUMBER_OF_MEMBERS")) with false. change (path_eqb (str "DEGREE") (str "DEGREE")) with true. cbv iota.
  rewrite (proj2 (parse_u32_iff _ _) (dec_denotes _ H1)), (proj2 (parse_u32_iff _ _) (dec_denotes _ H2)), (proj2 (parse_u32_iff _ _) (dec_denotes _ H3)). reflexivity.
Qed.
