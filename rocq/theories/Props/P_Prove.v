(** C55: `client dkg prove` and `client dkg verify`.
    Every keccak-free part of the two commands; every JSON text format that reads back, every key serialisation that reads
    back and never reads a truncated key, every proof system whose proving key contains its verification key, every
    parameter directory that earlier runs (killed anywhere) can have left behind. *)
From Coq Require Import ZArith String List Bool Lia Arith.
From Verif.Base Require Import Fld Fp EC Primes Curves Group Fermat.
From Verif.Model Require Import Monad Evm Strings Points HashEvm Dkg Lib Serialise Files Cache Client.
From Verif.Spec Require Import Dvrf CacheSpec ClientSpec CircuitSpec Accepts.
From Verif.Proofs Require Import HashProofs OnchainProofs DkgProofs DvrfProofs GppProofs SerialProofs CacheProofs ClientProofs InstanceProofs ProveProofs DkgDecode.
From Verif.Proofs Require Import JsonExists.
From Verif.Props Require Import P_Circuit P_Cache.
Import ListNotations.
Open Scope Z_scope.

(** [names_keys cfg inst pks] (ClientSpec.v): pks are the n points whose coordinates stand at positions
    5n+14, 5n+15, .. of the instance *)

Section Prove.
  Variable poseidon : Fr -> Fr -> Fr.
  Variable J : json.
  Hypothesis HJ : json_ok J.
  Variable lag : list bytes -> Z -> list bytes.
  Hypothesis HL : lagrange_ok lag.
  Variables vkey pkey : Type.
  Variable vk_write : vkey -> bytes.
  Variable vk_read : bytes -> res vkey.
  Variable pk_write : pkey -> bytes.
  Variable pk_read : bytes -> res pkey.
  Variable keygen_vk : kzg -> config -> res vkey.
  Variable keygen_pk : kzg -> vkey -> config -> res pkey.
  Hypothesis HV : serial_ok vk_write vk_read.
  Hypothesis HP : serial_ok pk_write pk_read.
  Variable get_vk : pkey -> vkey.
  Hypothesis HG : forall p v cfg k, keygen_pk p v cfg = Ok k -> get_vk k = v.
  Variable create_proof : kzg -> pkey -> member_params -> list Fr -> Z -> res bytes.
  Variable verify_proof : kzg -> vkey -> bytes -> list Fr -> bool.
  Variable srs : kzg.
  Hypothesis HS : kzg_of_degree 22 srs.
  Variable cfg : config.
  Hypothesis Hcfg : 0 < threshold cfg < 2 ^ 64 /\ 0 < number_of_members cfg < 2 ^ 64.
  Variable d : Z.
  Hypothesis Hd : 0 <= d < 2 ^ 32.
  Notation reach := (reached lag vkey pkey vk_write vk_read pk_write pk_read keygen_vk keygen_pk true KZG_PARAMS_DIR srs).
  Notation pfor := (params_for lag srs).
  Notation verify_ := (cmd_verify J lag vkey vk_write vk_read keygen_vk verify_proof cfg d).
  Notation prove_ := (cmd_prove poseidon J lag vkey pkey vk_write vk_read pk_write pk_read keygen_vk keygen_pk get_vk create_proof verify_proof cfg d).
  Notation Inv := (inv lag vkey pkey vk_write pk_write keygen_vk keygen_pk true KZG_PARAMS_DIR srs).
  Notation Good := (good lag vkey pkey vk_write pk_write keygen_vk keygen_pk true KZG_PARAMS_DIR srs).
  (** reading the cached verification key does not abort the process (a torn key file might) *)
  Notation vk_readable s := (forall m, snd (load_vk vkey vk_read true cfg KZG_PARAMS_DIR d s) <> Panic m).
  Let Hr : range cfg d. Proof. unfold range. destruct Hcfg. lia. Qed.
  Let rinv s : reach s -> Inv s := reached_inv lag HL vkey pkey vk_write vk_read pk_write pk_read keygen_vk keygen_pk true HV HP KZG_PARAMS_DIR srs HS s.

  (** `dkg verify i` succeeds exactly if i is a member, the member's proof and instance and the member keys are there and
      well formed, the instance names exactly those keys, and the proof is valid for the instance under the verification key of this
      configuration and degree *)
  Theorem C55_verify_iff i s : reach s -> vk_readable s ->
    (snd (verify_ i s) = Ok tt <->
     1 <= i <= number_of_members cfg /\
     exists proof inst mpks v, s (proof_path i) = Some (File proof) /\ instance_file J s i inst /\ mpks_file J s mpks /\
       names_keys cfg inst mpks /\ keygen_vk (pfor d) cfg = Ok v /\ verify_proof (pfor d) v proof inst = true).
  Proof.
    intros R NP. pose proof (rinv s R) as I. assert (N0 : 0 <= number_of_members cfg) by (clear -Hcfg; lia). split.
    - intros E. destruct (verify_ i s) as [w r] eqn:V. cbn [snd] in E. subst r.
      destruct (verify_inv J lag HL vkey pkey vk_write vk_read pk_write keygen_vk keygen_pk HV verify_proof srs HS cfg d i s w I Hr V) as (Hi & _ & proof & inst & mpks & v & A & B & C & D & E & F).
      split; [exact Hi|]. exists proof, inst, mpks, v. apply public_keys_iff in D; [|exact N0]. auto 8.
    - intros (Hi & proof & inst & mpks & v & A & B & C & D & E & F). apply public_keys_iff in D; [|exact N0].
      exact (verify_run J lag HL vkey pkey vk_write vk_read pk_write keygen_vk keygen_pk HV create_proof verify_proof srs HS cfg d i s proof inst mpks v I Hr Hi A B C D E F NP).
  Qed.
  (** success needs no hypothesis on the key file *)
  Theorem C55_verify_sound i s w : reach s -> verify_ i s = (w, Ok tt) ->
     1 <= i <= number_of_members cfg /\
     exists proof inst mpks v, s (proof_path i) = Some (File proof) /\ instance_file J s i inst /\ mpks_file J s mpks /\
       names_keys cfg inst mpks /\ keygen_vk (pfor d) cfg = Ok v /\ verify_proof (pfor d) v proof inst = true.
  Proof.
    intros R V. pose proof (rinv s R) as I. assert (N0 : 0 <= number_of_members cfg) by (clear -Hcfg; lia).
    destruct (verify_inv J lag HL vkey pkey vk_write vk_read pk_write keygen_vk keygen_pk HV verify_proof srs HS cfg d i s w I Hr V) as (Hi & _ & proof & inst & mpks & v & A & B & C & D & E & F).
    split; [exact Hi|]. exists proof, inst, mpks, v. apply public_keys_iff in D; [|exact N0]. auto 8.
  Qed.
  (** an instance dealt to other keys than those on file is refused, whatever the proof *)
  Theorem C55_other_keys i s inst mpks : reach s -> instance_file J s i inst -> mpks_file J s mpks -> ~ names_keys cfg inst mpks ->
    snd (verify_ i s) <> Ok tt.
  Proof.
    intros R A B N E. destruct (verify_ i s) as [w r] eqn:V. cbn [snd] in E. subst r.
    destruct (C55_verify_sound i s w R V) as (_ & _ & inst' & mpks' & _ & _ & A' & B' & N' & _).
    assert (inst' = inst) by exact (holds_fun _ _ _ _ _ _ A' A). assert (mpks' = mpks) by exact (holds_fun _ _ _ _ _ _ B' B). subst. exact (N N').
  Qed.
  (** verifying writes nothing outside the parameter directory, even when it fails *)
  Theorem C55_verify_writes i s p b : reach s -> In (p, b) (fst (verify_ i s)) -> exists name, p = KZG_PARAMS_DIR ++ [47] ++ name.
  Proof.
    intros R Hin. pose proof (verify_writes J lag HL vkey pkey vk_write vk_read pk_write keygen_vk keygen_pk HV verify_proof srs HS cfg d i s (rinv s R) Hr) as F.
    rewrite Forall_forall in F. exact (good_name lag vkey pkey vk_write pk_write keygen_vk keygen_pk srs _ (F _ Hin)).
  Qed.

  (** what a successful `dkg prove i` leaves behind: the instance of the dealing made of the coefficients and randomness
      drawn, to the keys on file, and a proof of it that verifies; nothing else outside the parameter directory *)
  Theorem C55_prove i coeffs r seed s w : reach s -> prove_ i coeffs r seed s = (w, Ok tt) ->
    1 <= i <= number_of_members cfg /\
    exists mpks mp inst proof v w0, mpks_file J s mpks /\ member_params_new poseidon cfg mpks coeffs r = Ok mp /\
      instance_of (mp_public_params mp) mpks = Ok inst /\ names_keys cfg inst mpks /\
      keygen_vk (pfor d) cfg = Ok v /\ verify_proof (pfor d) v proof inst = true /\
      w = w0 ++ [(proof_path i, proof); (instance_path i, enc (j_strings J) (map write_fr inst))] /\
      (forall p b, In (p, b) w0 -> exists name, p = KZG_PARAMS_DIR ++ [47] ++ name).
  Proof.
    intros R E. assert (N1 : 1 <= number_of_members cfg) by (clear -Hcfg; lia). assert (N0 : 0 <= number_of_members cfg) by (clear -Hcfg; lia).
    destruct (prove_inv poseidon J lag HL vkey pkey vk_write vk_read pk_write pk_read keygen_vk keygen_pk HV HP get_vk HG create_proof verify_proof srs HS cfg d i coeffs r seed s w (rinv s R) Hr N1 E)
      as (Hi & mpks & mp & inst & proof & v & w0 & A & B & C & D & F & G & H & K & _).
    split; [exact Hi|]. exists mpks, mp, inst, proof, v, w0. apply public_keys_iff in D; [|exact N0]. repeat (split; [assumption|]).
    intros p b Hin. rewrite Forall_forall in H. exact (good_name lag vkey pkey vk_write pk_write keygen_vk keygen_pk srs _ (H _ Hin)).
  Qed.

  Lemma inv_same s s' : Inv s -> (s' KZG_PARAMS_DIR = s KZG_PARAMS_DIR) -> (forall name, s' (KZG_PARAMS_DIR ++ [47] ++ name) = s (KZG_PARAMS_DIR ++ [47] ++ name)) -> Inv s'.
  Proof.
    intros [I1 I2 I3 I4 I5] Dd O. constructor.
    - congruence.
    - rewrite params_file_name, O, <- params_file_name. exact I2.
    - intros d' Rd N. rewrite params_file_name, O, <- params_file_name. auto.
    - intros c d' Rd. unfold vk_file. rewrite key_file_name, O, <- key_file_name. apply I4. exact Rd.
    - intros c d' Rd. unfold pk_file. rewrite key_file_name, O, <- key_file_name. apply I5. exact Rd.
  Qed.
  Lemma nth2 (a b : path) : (2 < length a)%nat -> nth 2 (a ++ b) 0 = nth 2 a 0. Proof. intros. apply app_nth1. exact H. Qed.
  Lemma proof_not_kzg i : not_kzg (proof_path i).
  Proof. unfold not_kzg, proof_path, join. cbn [concat]. rewrite nth2 by (vm_compute; lia). vm_compute. discriminate. Qed.
  Lemma instance_not_kzg i : not_kzg (instance_path i).
  Proof. unfold not_kzg, instance_path, join. cbn [concat]. rewrite nth2 by (vm_compute; lia). vm_compute. discriminate. Qed.
  Lemma mpks_not_kzg : not_kzg MEM_PUBLIC_KEYS_PATH. Proof. vm_compute. discriminate. Qed.
  Lemma proof_neq_instance i : proof_path i <> instance_path i.
  Proof.
    intros E. apply (f_equal (fun l => nth 18 l 0)) in E. unfold proof_path, instance_path, join in E. cbn [concat] in E. rewrite !app_assoc in E.
    rewrite (app_nth1 ((DKG_PROOFS_DIR ++ _) ++ to_dec i ++ _) [] ) in E || idtac.
    revert E. rewrite <- !app_assoc. rewrite !(app_assoc DKG_PROOFS_DIR). rewrite !app_nth1 by (vm_compute; lia). vm_compute. discriminate.
  Qed.
  Lemma mpks_neq_data (q : path) : nth 7 q 0 = 100 -> MEM_PUBLIC_KEYS_PATH <> q. Proof. intros H E. rewrite <- E in H. vm_compute in H. discriminate. Qed.
  Lemma proof_nth7 i : nth 7 (proof_path i) 0 = 100.
  Proof. unfold proof_path, join. cbn [concat]. rewrite app_nth1 by (vm_compute; lia). vm_compute. reflexivity. Qed.
  Lemma instance_nth7 i : nth 7 (instance_path i) 0 = 100.
  Proof. unfold instance_path, join. cbn [concat]. rewrite app_nth1 by (vm_compute; lia). vm_compute. reflexivity. Qed.
  Lemma vk_after w0 : Forall Good w0 -> forall s, effects s w0 (vk_file true KZG_PARAMS_DIR cfg d) = s (vk_file true KZG_PARAMS_DIR cfg d) \/
    exists v, effects s w0 (vk_file true KZG_PARAMS_DIR cfg d) = Some (File (vk_write v)).
  Proof.
    induction 1 as [|[p b] w0 G F IH]; intros s; [left; reflexivity|]. cbn [effects fold_left]. fold (effects (set s p (File b)) w0).
    destruct (IH (set s p (File b))) as [E|X]; [|right; exact X]. rewrite E.
    destruct (list_eq_dec Z.eq_dec (vk_file true KZG_PARAMS_DIR cfg d) p) as [Ep|Np]; [|left; apply set_other; exact Np].
    subst p. right. rewrite set_same. destruct G as [(d' & _ & G)|[(c & d' & v & Rc & _ & G)|(c & d' & k & Rc & _ & G)]].
    - exfalso. apply (f_equal fst) in G. cbn [fst] in G. symmetry in G. revert G. apply params_key. left. reflexivity.
    - exists v. apply (f_equal snd) in G. cbn [snd] in G. rewrite G. reflexivity.
    - exfalso. apply (f_equal fst) in G. cbn [fst] in G.
      unfold vk_file, pk_file in G.
      pose proof (key_inj vkey pkey keygen_vk keygen_pk true KZG_PARAMS_DIR srs (str "vk") (str "pk") cfg c d d' (or_introl eq_refl) (or_intror eq_refl) Hr Rc G) as G'. clear G.
      destruct G' as [K _]. discriminate K.
  Qed.

  (** a dealing that was proved verifies: by the same member at once, and by anyone who gets the two files *)
  Theorem C55_prove_then_verify i coeffs r seed s w : reach s -> vk_readable s -> prove_ i coeffs r seed s = (w, Ok tt) ->
    snd (verify_ i (effects s w)) = Ok tt.
  Proof.
    intros R NP E. assert (N1 : 1 <= number_of_members cfg) by (clear -Hcfg; lia). pose proof (rinv s R) as I0.
    destruct (prove_inv poseidon J lag HL vkey pkey vk_write vk_read pk_write pk_read keygen_vk keygen_pk HV HP get_vk HG create_proof verify_proof srs HS cfg d i coeffs r seed s w I0 Hr N1 E)
      as (Hi & mpks & mp & inst & proof & v & w0 & A & B & C & D & F & G & H & K & I). rewrite K, effects_app.
    set (s1 := effects s w0) in *.
    change (effects s1 [(proof_path i, proof); (instance_path i, enc (j_strings J) (map write_fr inst))]) with
      (set (set s1 (proof_path i) (File proof)) (instance_path i) (File (enc (j_strings J) (map write_fr inst)))).
    set (s2 := set (set s1 (proof_path i) (File proof)) (instance_path i) (File (enc (j_strings J) (map write_fr inst)))).
    assert (Oth : forall q, q <> proof_path i -> q <> instance_path i -> s2 q = s1 q).
    { intros q N2 N3. unfold s2. rewrite !set_other by assumption. reflexivity. }
    assert (Kz : forall q, nth 2 q 0 = 107 -> s2 q = s1 q).
    { intros q Hq. apply Oth; intros X; rewrite X in Hq; [exact (proof_not_kzg i Hq)|exact (instance_not_kzg i Hq)]. }
    assert (I2 : Inv s2). { apply (inv_same s1); [exact I|apply Kz; reflexivity|]. intros name. apply Kz. reflexivity. }
    apply (verify_run J lag HL vkey pkey vk_write vk_read pk_write keygen_vk keygen_pk HV create_proof verify_proof srs HS cfg d i s2 proof inst mpks v); auto.
    - unfold s2. rewrite set_other by apply proof_neq_instance. apply set_same.
    - apply (holds_saved _ _ _ _ (map write_fr inst)); [apply (ok_strings J HJ)|]. apply (map_round write_fr read_fr). exact fr_round.
    - apply (holds_ext s); [|exact A]. rewrite Oth; [|apply mpks_neq_data, proof_nth7|apply mpks_neq_data, instance_nth7].
      unfold s1. apply (good_other lag vkey pkey vk_write pk_write keygen_vk keygen_pk srs); [exact H|exact mpks_not_kzg].
    - intros m X. unfold load_vk, cbind, is_dir, lift, read_file in X. rewrite (i_dir _ _ _ _ _ _ _ _ _ _ s2 I2) in X. cbn [effects fold_left app] in X.
      assert (Q : s2 (vk_file true KZG_PARAMS_DIR cfg d) = s1 (vk_file true KZG_PARAMS_DIR cfg d)).
      { unfold vk_file. rewrite key_file_name. apply Kz. reflexivity. }
      rewrite Q in X. destruct (vk_after w0 H s) as [Q1|(v' & Q1)]; fold s1 in Q1; rewrite Q1 in X.
      + apply (NP m). unfold load_vk, cbind, is_dir, lift, read_file. rewrite (i_dir _ _ _ _ _ _ _ _ _ _ s I0). cbn [effects fold_left app].
        destruct (s (vk_file true KZG_PARAMS_DIR cfg d)) as [[b|]|]; exact X.
      + rewrite (proj1 HV) in X. discriminate X.
  Qed.

  (** with a sound proof system, a verified file is a dealing of the right degree to the keys on file *)
  Theorem C55_meaning aux1 aux2 i s w : reach s -> verify_ i s = (w, Ok tt) ->
    (forall v proof inst, keygen_vk (pfor d) cfg = Ok v -> verify_proof (pfor d) v proof inst = true -> accepts poseidon aux1 aux2 cfg inst) ->
    exists inst mpks coeffs rs, instance_file J s i inst /\ mpks_file J s mpks /\ zlen coeffs = threshold cfg /\
      zlen mpks = number_of_members cfg /\ dealing_instance poseidon coeffs rs mpks inst.
  Proof.
    intros R V Snd. destruct (C55_verify_sound i s w R V) as (_ & proof & inst & mpks & v & _ & A & B & N & K & P).
    destruct (C42_sound poseidon aux1 aux2 cfg inst (Snd v proof inst K P)) as (cs & rs & pks & L1 & L2 & D).
    assert (Np : names_keys cfg inst pks).
    { destruct D as (lga & lgs & lg2 & -> & EA & EB & EC' & _).
      apply g1_encodes_reads in EA as [LA _]. apply concat_enc_len in EB. apply g2_encodes_reads in EC' as [LC _]. rewrite length_zseq in EB.
      rewrite !app_assoc. apply names_app; [exact L2|]. unfold zlen in *. rewrite !app_length, map_length, combine_length, length_zseq, Nat.min_id, LA, LC, EB. cbn [gk_coords length]. clear -L2. lia. }
    exists inst, pks, cs, rs.
    split; [exact A|]. split; [rewrite <- (names_keys_fun cfg inst mpks pks N Np); exact B|]. auto.
  Qed.
End Prove.

(** a situation that meets the hypotheses: a fresh parameter directory with the degree-22 parameters, the keys of three members
    and a proof of member 2 on file *)
Definition demo_inst : list Fr := repeat (f1 : Fr) 29 ++ flat_map (fun pk : Gk => [fst (xy pk); snd (xy pk)]) [gk; gkmul gk (fq 2); gk].
Definition demo_files : fs := fun p =>
  if path_eqb p KZG_PARAMS_DIR then Some Dir else if path_eqb p (params_file KZG_PARAMS_DIR 22) then Some (File (write_custom demo_srs))
  else if path_eqb p (proof_path 2) then Some (File [1]) else if path_eqb p (instance_path 2) then Some (File (enc (j_strings some_json) (map write_fr demo_inst)))
  else if path_eqb p MEM_PUBLIC_KEYS_PATH then Some (File (enc (j_points some_json) (map of_gk [gk; gkmul gk (fq 2); gk]))) else None.
Example C55_meets : exists s,
  reached demo_lag (list bool) (list bool) bits_write bits_read bits_write bits_read demo_vk demo_pk true KZG_PARAMS_DIR demo_srs s /\
  (forall m, snd (load_vk (list bool) bits_read true (mkConfig 2 3) KZG_PARAMS_DIR 18 s) <> Panic m) /\
  snd (cmd_verify some_json demo_lag (list bool) bits_write bits_read demo_vk (fun _ _ p _ => path_eqb p [1]) (mkConfig 2 3) 18 2 s) = Ok tt.
Proof.
  exists demo_files.
  assert (N2 : forall q, nth 2 q 0 <> 107 -> forall name, path_eqb (KZG_PARAMS_DIR ++ [47] ++ name) q = false).
  { intros q H name. apply path_eqb_neq. intros E. apply H. rewrite <- E. reflexivity. }
  assert (R : reached demo_lag (list bool) (list bool) bits_write bits_read bits_write bits_read demo_vk demo_pk true KZG_PARAMS_DIR demo_srs demo_files).
  { apply R_start; unfold demo_files.
    - reflexivity.
    - rewrite path_eqb_neq by (rewrite params_file_name; apply in_dir_neq). rewrite path_eqb_refl. reflexivity.
    - intros name _ H. rewrite path_eqb_neq by apply in_dir_neq. rewrite path_eqb_neq by exact H.
      rewrite (N2 _ (proof_not_kzg 2)), (N2 _ (instance_not_kzg 2)), (N2 _ mpks_not_kzg). reflexivity. }
  assert (V : forall m, snd (load_vk (list bool) bits_read true (mkConfig 2 3) KZG_PARAMS_DIR 18 demo_files) <> Panic m).
  { intros m. unfold load_vk, cbind, is_dir, lift, read_file.
    assert (D : demo_files KZG_PARAMS_DIR = Some Dir) by reflexivity. rewrite D. cbn [effects fold_left app].
    assert (E : demo_files (vk_file true KZG_PARAMS_DIR (mkConfig 2 3) 18) = None) by reflexivity. rewrite E. discriminate. }
  split; [exact R|]. split; [exact V|].
  apply (C55_verify_iff some_json demo_lag demo_lag_ok _ _ _ _ _ _ demo_vk demo_pk bits_ok bits_ok (fun _ _ _ _ _ => Ok []) _ demo_srs demo_srs_ok (mkConfig 2 3) ltac:(cbn [threshold number_of_members]; lia) 18 ltac:(lia) 2 demo_files R V).
  cbn [number_of_members]. split; [lia|]. exists [1], demo_inst, [gk; gkmul gk (fq 2); gk].
  eexists. split; [reflexivity|]. split; [|split; [|split; [|split; [reflexivity|reflexivity]]]].
  - eexists _, (map write_fr demo_inst). split; [reflexivity|]. split; [apply (ok_strings some_json some_json_ok)|]. apply (map_round write_fr read_fr). exact fr_round.
  - eexists _, (map of_gk _). split; [reflexivity|]. split; [apply (ok_points some_json some_json_ok)|]. apply (map_round of_gk to_gk). exact gk_round.
  - apply names_app; reflexivity.
Qed.
Print Assumptions C55_verify_iff.
Print Assumptions C55_prove_then_verify.
Print Assumptions C55_meaning.
Print Assumptions C55_meets.
