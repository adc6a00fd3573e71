(** C47, C48: the directory of setup parameters and keys. *)
From Coq Require Import ZArith String List Bool Lia Arith.
From Verif.Model Require Import Monad Evm Strings Points Dkg Files Cache.
From Verif.Spec Require Import CacheSpec.
From Verif.Proofs Require Import CacheProofs.
Import ListNotations.
Open Scope Z_scope.

Section Props.
  Variable lag : list bytes -> Z -> list bytes.
  Hypothesis HL : lagrange_ok lag.
  Variables vkey pkey : Type.
  Variable vk_write : vkey -> bytes.
  Variable vk_read : bytes -> res vkey.
  Variable pk_write : pkey -> bytes.
  Variable pk_read : bytes -> res pkey.
  Variable keygen_vk : kzg -> config -> res vkey.
  Variable keygen_pk : kzg -> vkey -> config -> res pkey.
  Variable g2chip : bool.
  Hypothesis HV : serial_ok vk_write vk_read.
  Hypothesis HP : serial_ok pk_write pk_read.
  Variable dir : path.
  Variable srs : kzg.
  Hypothesis HS : kzg_of_degree 22 srs.
  Notation reach := (reached lag vkey pkey vk_write vk_read pk_write pk_read keygen_vk keygen_pk g2chip dir srs).
  Notation run := (run_use lag vkey pkey vk_write vk_read pk_write pk_read keygen_vk keygen_pk g2chip dir).

  (** C47: in every directory the client can have left behind, however often it was killed, asking for a degree up to 22
      succeeds and returns the downloaded parameters cut to exactly that degree *)
  Theorem C47_degree s d : reach s -> 0 <= d <= 22 ->
    snd (load_or_create_params lag dir d s) = Ok (params_for lag srs d) /\ kzg_of_degree d (params_for lag srs d).
  Proof.
    intros R D. pose proof (reached_inv lag HL vkey pkey vk_write vk_read pk_write pk_read keygen_vk keygen_pk g2chip HV HP dir srs HS s R) as I.
    destruct (params_ok lag HL vkey pkey vk_write pk_write keygen_vk keygen_pk g2chip dir srs HS s d I ltac:(lia)) as (w & E & _).
    rewrite E. split; [reflexivity|apply (pfor_ok lag HL srs HS); exact D].
  Qed.
  (** asking for more than 22 does not fail but returns parameters of degree 22 *)
  Theorem C47_above_22_refuted s d : reach s -> 22 < d < 2 ^ 32 ->
    exists p, snd (load_or_create_params lag dir d s) = Ok p /\ kzg_k p = 22 /\ kzg_k p <> d.
  Proof.
    intros R D. pose proof (reached_inv lag HL vkey pkey vk_write vk_read pk_write pk_read keygen_vk keygen_pk g2chip HV HP dir srs HS s R) as I.
    destruct (params_ok lag HL vkey pkey vk_write pk_write keygen_vk keygen_pk g2chip dir srs HS s d I ltac:(lia)) as (w & E & _).
    exists srs. rewrite E. cbn [snd]. unfold params_for. rewrite (proj2 (Z.ltb_ge d 22)) by lia. destruct HS as (K & _). split; [reflexivity|]. rewrite K. lia.
  Qed.
  (** with arbitrary file contents, the parameters are never of a larger degree than asked for *)
  Theorem C47_any_files s d p : 0 <= d <= 22 -> snd (load_or_create_params lag dir d s) = Ok p -> kzg_k p <= d.
  Proof. intros D. apply params_any. exact D. Qed.

  (** C48: in every such directory, whatever is returned is what would be generated afresh for the requested degree and
      configuration *)
  Theorem C48_right_key s u g : reach s -> in_range u -> snd (run u s) = Ok g ->
    match u, g with
    | UseParams d, GotParams _ _ p => p = params_for lag srs d
    | UseVk cfg d, GotVk _ _ v => keygen_vk (params_for lag srs d) cfg = Ok v
    | UsePk cfg d, GotPk _ _ k => exists v, keygen_vk (params_for lag srs d) cfg = Ok v /\ keygen_pk (params_for lag srs d) v cfg = Ok k
    | _, _ => False
    end.
  Proof.
    intros R U E. pose proof (reached_inv lag HL vkey pkey vk_write vk_read pk_write pk_read keygen_vk keygen_pk g2chip HV HP dir srs HS s R) as I.
    exact (proj2 (t_use lag HL vkey pkey vk_write vk_read pk_write pk_read keygen_vk keygen_pk g2chip HV HP dir srs HS u U s I) g E).
  Qed.
End Props.

(** distinct configurations, degrees, chips or kinds of key never share a file name, in one directory *)
Theorem C48_names dir (g g' : bool) (kind kind' : bytes) cfg cfg' d d' :
  kind = str "vk" \/ kind = str "pk" -> kind' = str "vk" \/ kind' = str "pk" ->
  0 <= threshold cfg < 2 ^ 64 -> 0 <= number_of_members cfg < 2 ^ 64 -> 0 <= threshold cfg' < 2 ^ 64 -> 0 <= number_of_members cfg' < 2 ^ 64 ->
  0 <= d < 2 ^ 32 -> 0 <= d' < 2 ^ 32 ->
  key_file g kind dir cfg d = key_file g' kind' dir cfg' d' -> g = g' /\ kind = kind' /\ cfg = cfg' /\ d = d'.
Proof. rewrite !key_file_name. intros ? ? ? ? ? ? ? ? E. apply in_dir_inj in E. apply key_name_inj in E; auto. Qed.
Theorem C48_params_names dir d d' : 0 <= d < 2 ^ 32 -> 0 <= d' < 2 ^ 32 -> params_file dir d = params_file dir d' -> d = d'.
Proof. rewrite !params_file_name. intros ? ? E. apply in_dir_inj in E. apply params_name_inj in E; auto. Qed.
Theorem C48_params_not_keys dir (g : bool) kind cfg d d' : kind = str "vk" \/ kind = str "pk" -> params_file dir d <> key_file g kind dir cfg d'.
Proof. rewrite params_file_name, key_file_name. intros K E. apply in_dir_inj in E. exact (params_not_key _ _ _ _ _ K E). Qed.
Example C48_file : key_file true (str "pk") (str "./kzg_params") (mkConfig 3 5) 18 = str "./kzg_params/pk-g2-3-5-18" /\
  key_file false (str "vk") (str "d") (mkConfig 13 5) 9 = str "d/vk-13-5-9".
Proof. split; vm_compute; reflexivity. Qed.

(** with files that the client did not write: a file of the right size whose header names a smaller degree is accepted *)
Example C47_header_refuted lag : exists s p, snd (load_or_create_params lag (str "d") 1 s) = Ok p /\ kzg_k p = 0.
Proof.
  exists (fun p => if path_eqb p (str "d") then Some Dir else if path_eqb p (str "d/params1") then Some (File (repeat 0 516)) else None).
  eexists. split; [vm_compute; reflexivity|reflexivity].
Qed.

(** a situation that meets the hypotheses, with a half-written parameter file left by a crash *)
Definition bits_write (l : list bool) : bytes := map (fun b : bool => if b then 1 else 0) l ++ [2].
Fixpoint bits_read (b : bytes) : res (list bool) :=
  match b with
  | [] => Err "eof"
  | c :: r => if c =? 2 then match r with [] => Ok [] | _ => Err "trailing" end else let* l := bits_read r in Ok ((c =? 1) :: l)
  end.
Lemma bits_ok : serial_ok bits_write bits_read.
Proof.
  split.
  - induction a as [|b l IH]; [reflexivity|]. unfold bits_write in *. cbn [map app bits_read]. destruct b; cbn [Z.eqb Pos.eqb]; rewrite IH; reflexivity.
  - induction a as [|b l IH]; intros j x L; unfold bits_write in *; cbn [map app length] in *.
    + assert (j = 0)%nat by lia. subst j. discriminate.
    + destruct j as [|j]; [discriminate|]. cbn [firstn bits_read]. assert (L' : (j < length (map (fun b : bool => if b then 1%Z else 0%Z) l ++ [2%Z]))%nat) by (apply (proj2 (Nat.succ_lt_mono _ _)); exact L).
      specialize (IH j) as N. destruct (bits_read (firstn j (map (fun b : bool => if b then 1 else 0) l ++ [2]))) as [y| |]; destruct b; cbn [Z.eqb Pos.eqb bind]; try discriminate; destruct (N y L' eq_refl).
Qed.
Definition demo_srs : kzg := mkKzg 22 (repeat (repeat 7 64) (Z.to_nat (2 ^ 22))) (repeat (repeat 8 64) (Z.to_nat (2 ^ 22))) (repeat 1 128) (repeat 2 128).
Lemma demo_srs_ok : kzg_of_degree 22 demo_srs.
Proof.
  assert (R : forall x n, length x = 64%nat -> Forall (fun y : bytes => length y = 64%nat) (repeat x n)) by (intros x n H; induction n; constructor; auto).
  unfold kzg_of_degree, demo_srs, zlen. cbn [kzg_k kzg_g kzg_lagrange kzg_g2 kzg_s_g2]. rewrite !repeat_length, !Z2Nat.id by (apply Z.pow_nonneg; discriminate). repeat (split; try reflexivity; try (apply R; reflexivity)).
Qed.
Opaque demo_srs.
Definition demo_lag (g : list bytes) (_ : Z) : list bytes := g.
Lemma demo_lag_ok : lagrange_ok demo_lag. Proof. intros d g H L F. split; assumption. Qed.
Definition demo_vk (p : kzg) (cfg : config) : res (list bool) := Ok [Z.odd (kzg_k p); Z.odd (threshold cfg)].
Definition demo_pk (p : kzg) (v : list bool) (cfg : config) : res (list bool) := Ok (true :: v).
Notation demo_reached := (reached demo_lag (list bool) (list bool) bits_write bits_read bits_write bits_read demo_vk demo_pk true).
Definition demo_start : fs := fun p =>
  if path_eqb p (str "d") then Some Dir else if path_eqb p (params_file (str "d") 22) then Some (File (write_custom demo_srs)) else None.
Lemma demo_started : demo_reached (str "d") demo_srs demo_start.
Proof.
  assert (N : forall name, str "d" ++ [47] ++ name <> str "d") by (intros name; apply in_dir_neq).
  apply R_start; unfold demo_start.
  - reflexivity.
  - rewrite path_eqb_neq by (rewrite params_file_name; apply N). rewrite path_eqb_refl. reflexivity.
  - intros name _ H. rewrite path_eqb_neq by apply N. rewrite path_eqb_neq by exact H. reflexivity.
Qed.
Example C47_meets : exists s, demo_reached (str "d") demo_srs s /\
  s (params_file (str "d") 18) = Some (File (firstn 100 (write_custom (params_for demo_lag demo_srs 18)))) /\
  snd (load_or_create_params demo_lag (str "d") 18 s) = Ok (params_for demo_lag demo_srs 18).
Proof.
  pose proof demo_started as R0.
  pose proof (reached_inv demo_lag demo_lag_ok _ _ _ _ _ _ demo_vk demo_pk true bits_ok bits_ok (str "d") demo_srs demo_srs_ok demo_start R0) as I.
  assert (N18 : demo_start (params_file (str "d") 18) = None).
  { unfold demo_start. rewrite path_eqb_neq by (rewrite params_file_name; apply in_dir_neq). rewrite path_eqb_neq; [reflexivity|]. intros E. apply C48_params_names in E; lia. }
  assert (C := create_params demo_lag demo_lag_ok _ _ bits_write bits_write demo_vk demo_pk true (str "d") demo_srs demo_srs_ok demo_start 18 I ltac:(lia) N18).
  set (b := write_custom (params_for demo_lag demo_srs 18)) in *.
  exists (effects demo_start [(params_file (str "d") 18, firstn 100 b)]). 
  assert (R1 : demo_reached (str "d") demo_srs (effects demo_start [(params_file (str "d") 18, firstn 100 b)])).
  { eapply (R_use _ _ _ _ _ _ _ _ _ _ _ _ demo_start (UseParams 18)); [exact R0|cbn [in_range]; lia|]. right. exists [], (params_file (str "d") 18), b, [], 100%nat. split; [|reflexivity].
    cbn [run_use]. unfold cbind. rewrite C. reflexivity. }
  split; [exact R1|]. split; [apply set_same|].
  exact (proj1 (C47_degree demo_lag demo_lag_ok _ _ _ _ _ _ _ _ _ bits_ok bits_ok _ _ demo_srs_ok _ 18 R1 ltac:(lia))).
Qed.
Print Assumptions C47_degree.
Print Assumptions C47_above_22_refuted.
Print Assumptions C48_right_key.
Print Assumptions C48_names.
Print Assumptions C47_meets.
