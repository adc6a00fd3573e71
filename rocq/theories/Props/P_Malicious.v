(** C57: members need not trust the other members' contributions.  Whatever vectors the contract accepted, if the proof
    verifier accepts only what the DKG circuit accepts, then a contract that became Ready holds the keys of one polynomial with
    at most t coefficients, every member whose registered key is an honest key pair derives its value of that polynomial from the
    vectors on the chain, and any t such members can complete every round.
    Also the consequence of C42_poison for the contract. *)
From Coq Require Import ZArith String List Bool Lia.
From Verif.Base Require Import Fld Fp EC Primes Curves Group Fermat.
From Verif.Model Require Import Monad Evm Strings Points HashEvm Dkg Lib Zkdvrf PairingSol HashSol PseudoRandSol GppSol RealEnv DkgCircuit.
From Verif.Spec Require Import Dvrf CircuitSpec Accepts Onchain Refinement Histories.
From Verif.Proofs Require Import ZkdvrfStep ZkdvrfInv1 ZkdvrfInv2 ZkdvrfInv3 Forward ZkdvrfThms HashProofs BytesProofs HashSolProofs OnchainProofs InstanceProofs DkgProofs DvrfProofs GppProofs VerifyProofs PairingExists CircProofs DkgDecode Malicious.
From Verif.Props Require Import P_Dvrf P_Onchain P_Contract P_EndToEnd P_Live P_Circuit P_Poison.
Import ListNotations.
Open Scope Z_scope.

(** ** off the chain *)
Section Offline.
  Variables (keccak : bytes -> Z) (pairing : list (G1 * G2c) -> bool) (poseidon : Fr -> Fr -> Fr) (aux1 : G1) (aux2 : G2c) (cfg : config).
  Hypothesis HP : pairing_ok pairing.
  Hypothesis Ht : 0 < Dkg.threshold cfg.
  Hypothesis Hn : number_of_members cfg < M64.

  Lemma choose {A B} (R : A -> B -> Prop) l : (forall x, In x l -> exists y, R x y) -> exists l', Forall2 R l l'.
  Proof.
    induction l as [|a l IH]; intros H; [exists []; constructor|]. destruct (H a (or_introl eq_refl)) as [b Hb].
    destruct IH as [l' F]; [intros x Hx; apply H; right; exact Hx|]. exists (b :: l'). constructor; assumption.
  Qed.
  Lemma accepted_dealers pks insts : (forall inst, In inst insts -> accepts poseidon aux1 aux2 cfg inst /\ exists pp, from_instance cfg inst = Ok (pp, pks)) ->
    exists dealers, Forall2 (fun inst d => dealing_instance poseidon (fst d) (snd d) pks inst /\ zlen (fst d) = Dkg.threshold cfg /\ from_instance cfg inst = Ok (mpp poseidon pks d, pks)) insts dealers.
  Proof.
    intros H. apply choose. intros inst I. destruct (H inst I) as (A & pp & F). destruct (C42_sound _ _ _ _ _ A) as (cs & rs & pks' & L1 & L2 & D).
    pose proof (dealing_decodes poseidon cfg cs rs pks' inst D L2) as F'. rewrite F in F'. assert (pks = pks') by congruence. subst pks'.
    exists (cs, rs). cbn [fst snd]. split; [exact D|]. split; [exact L1|]. rewrite F, F'. reflexivity.
  Qed.
  Lemma Forall2_right {A B} (R : A -> B -> Prop) (P : B -> Prop) l l' : (forall a b, R a b -> P b) -> Forall2 R l l' -> Forall P l'.
  Proof. intros H F. induction F; constructor; eauto. Qed.
  Lemma Forall2_mono {A B} (R R' : A -> B -> Prop) l l' : (forall a b, R a b -> R' a b) -> Forall2 R l l' -> Forall2 R' l l'.
  Proof. intros H F. induction F; constructor; auto. Qed.
  Lemma Forall2_map_r {A B C} (R : A -> C -> Prop) (f : B -> C) l l' : Forall2 (fun a b => R a (f b)) l l' -> Forall2 R l (map f l').
  Proof. intros F. induction F; cbn [map]; constructor; auto. Qed.

  Theorem C57_accepted_dealings pks insts : insts <> [] -> zlen pks = number_of_members cfg ->
    (forall inst, In inst insts -> accepts poseidon aux1 aux2 cfg inst /\ exists pp, from_instance cfg inst = Ok (pp, pks)) ->
    exists coeffs pps gpp, zlen coeffs <= Dkg.threshold cfg /\
      Forall2 (fun inst pp => from_instance cfg inst = Ok (pp, pks)) insts pps /\ dkg_global_public_params pps = Ok gpp /\
      g_ga gpp = g1mul g1 (poly_at coeffs f0) /\ g_g2a gpp = g2mul g2 (poly_at coeffs f0) /\
      verify_keys gpp = map (fun i => g1mul g1 (poly_at coeffs (fr i))) (zseq (length pks)) /\
      (* every honest member gets its share and its evaluations are accepted *)
      (forall k i, key_pair k -> get pks (i - 1) = Ok (mk_pk k) ->
         let key := mkShareKey i (poly_at coeffs (fr i)) (g1mul g1 (poly_at coeffs (fr i))) in
         dkg_share_key poseidon k cfg i pps = Ok key /\ share_key_verify key cfg (verify_keys gpp) = Ok tt /\
         forall msg nonce, exists h e, hash_to_curve_bn keccak EVAL_PREFIX msg = Ok h /\ evaluate keccak key msg nonce = Ok e /\
           pe_verify keccak e cfg msg (vk key) = Ok tt /\ pe_index e = i /\ pe_value e = g1mul h (poly_at coeffs (fr i))) /\
      (* and any t such evaluations combine to the same random *)
      (forall msg h es, hash_to_curve_bn keccak EVAL_PREFIX msg = Ok h -> quorum cfg (map pe_index es) ->
         Forall (fun e => pe_value e = g1mul h (poly_at coeffs (fr (pe_index e)))) es ->
         let p := mkPseudoRandom (g1mul h (poly_at coeffs f0)) (prf_value keccak (g1mul h (poly_at coeffs f0))) in
         combine_partial_evaluations keccak cfg es = Ok p /\ pr_verify keccak pairing p msg (g_g2a gpp) = Ok tt).
  Proof.
    intros NE L H. destruct (accepted_dealers pks insts H) as (dealers & F).
    assert (Hc : Forall (fun d : list Fr * Fq => zlen (fst d) = Dkg.threshold cfg) dealers) by (apply (Forall2_right _ _ _ _ (fun a b X => proj1 (proj2 X)) F)).
    assert (Hd : dealers <> []) by (intros ->; inversion F; subst; contradiction).
    destruct (mal_poly cfg pks dealers Ht Hc) as (coeffs & Lc & S0 & Si).
    exists coeffs, (map (mpp poseidon pks) dealers), (mgpp pks dealers). rewrite <- S0.
    split; [exact Lc|]. split; [apply Forall2_map_r; apply (Forall2_mono _ _ _ _ (fun a b X => proj2 (proj2 X)) F)|].
    split; [exact (mal_global poseidon cfg pks dealers Hd Hc)|]. split; [reflexivity|]. split; [reflexivity|].
    split; [unfold mgpp; cbn [verify_keys]; apply map_ext; intros i; rewrite Si; reflexivity|]. split.
    - intros k i Hk Hi key. unfold key. rewrite <- Si. split; [exact (mal_share_key poseidon cfg pks dealers L k i Hk Hi)|].
      pose proof (fun msg nonce => mal_eval keccak cfg pks dealers L k i msg nonce Hk Hi) as Y. cbv zeta in Y. split; [exact (proj1 (Y [] f0))|].
      intros msg nonce. cbn [vk]. exact (proj2 (Y msg nonce)).
    - intros msg h es Hh (Q1 & Q2 & Q3) Fv. apply (mal_combine keccak cfg dealers Ht Hn Hc pairing HP h msg es Hh).
      + apply Forall_forall. intros e He. rewrite Forall_forall in Fv. rewrite Si. exact (Fv e He).
      + unfold zlen in *. rewrite map_length in Q1. exact Q1.
      + exact Q2.
      + exact Q3.
  Qed.
End Offline.

(** ** on the chain *)
Lemma pair_ext {A B} (x y : A * B) : fst x = fst y -> snd x = snd y -> x = y.
Proof. destruct x, y. cbn [fst snd]. intros -> ->. reflexivity. Qed.
Lemma enck_inj (P Q : Gk) : enck P = enck Q -> P = Q.
Proof.
  unfold enck. intros E. pose proof (f_equal fst E) as E1. pose proof (f_equal snd E) as E2. cbn [fst snd] in E1, E2.
  apply vr_inj in E1. apply vr_inj in E2. refine (xy_inj Fr bk _ P Q (pair_ext _ _ E1 E2)). exact bk_neq0.
Qed.
Lemma enck_inj_list (l l' : list Gk) : map enck l = map enck l' -> l = l'.
Proof.
  revert l'. induction l as [|a l IH]; intros [|b l'] E; cbn [map] in E; try discriminate; [reflexivity|].
  assert (E1 : enck a = enck b) by congruence. assert (E2 : map enck l = map enck l') by congruence. rewrite (enck_inj a b E1), (IH l' E2). reflexivity.
Qed.
Lemma flat_inj (l l' : list Evm.pt) : flat l = flat l' -> l = l'.
Proof.
  revert l'. unfold flat. induction l as [|[a b] l IH]; intros [|[c d] l'] E; cbn [flat_map app fst snd] in E; try discriminate; [reflexivity|].
  injection E as -> -> E. rewrite (IH l' E). reflexivity.
Qed.

Lemma skipn_map' {A B} (f : A -> B) k l : skipn k (map f l) = map f (skipn k l).
Proof. revert l. induction k as [|k IH]; intros [|a l]; cbn [skipn map]; auto. Qed.
Lemma dealing_tail poseidon cs rs (pks : list Gk) inst : dealing_instance poseidon cs rs pks inst ->
  skipn (5 * length pks + 14) (map val_r inst) = flat (map enck pks).
Proof.
  intros D. rewrite flat_enck, skipn_map'. f_equal. destruct D as (lga & lgs & lg2 & -> & EA & EB & EC' & _).
  apply g1_encodes_reads in EA as [LA _]. apply concat_enc_len in EB. apply g2_encodes_reads in EC' as [LC _]. rewrite length_zseq in EB.
  rewrite !app_assoc. set (hd_ := (((lga ++ concat lgs) ++ lg2) ++ gk_coords (gkmul gk rs)) ++ map (fun '(i, pk) => (poly_at cs (fr i) + poseidon (fst (xy (gkmul pk rs))) (snd (xy (gkmul pk rs))))%fld) (combine (zseq (length pks)) pks)).
  assert (LH : length hd_ = (5 * length pks + 14)%nat).
  { unfold hd_. rewrite !app_length, map_length, combine_length, length_zseq, Nat.min_id, LA, LC, EB. cbn [gk_coords length]. lia. }
  rewrite <- LH, skipn_app, skipn_all, Nat.sub_diag. reflexivity.
Qed.

Section Chain.
  Variable v : variant.
  Variable keccak : bytes -> Z.
  Variable in_g2 : G2c -> bool.
  Variable pairing : list (G1 * G2c) -> bool.
  Variable halo2 : Z -> bytes -> list Z -> res bool.
  Variables (poseidon : Fr -> Fr -> Fr) (aux1 : G1) (aux2 : G2c).
  Hypothesis K : keccak_ok keccak.
  Hypothesis HG : in_g2_ok in_g2.
  Hypothesis HP : pairing_ok pairing.
  Variable c : Zkdvrf.cfg.
  Notation E := (real_env keccak in_g2 pairing halo2).
  Notation hist := (Histories.hist v E c).

  (** every accepted vector came with an accepted proof and carries exactly the registered keys *)
  Theorem C57_vectors tr s x : hist tr s -> In x (submissions tr) ->
    halo2 (c_vk c) (pzk x) (pvec x) = Ok true /\ Z.of_nat (length (pvec x)) = 7 * c_number c + 14 /\
    skipn (Z.to_nat (5 * c_number c + 14)) (pvec x) = flat (map key (registrations tr)).
  Proof.
    intros Hh. revert x. induction Hh as [s CO C|tr s t Hh IH]; intros x I; [destruct I|].
    rewrite submissions_app, in_app_iff in I. rewrite registrations_app.
    destruct (apply v E s t) as [[s' ev]| |] eqn:A; [|rewrite app_nil_r; destruct I as [I|[]]; exact (IH x I)..].
    rewrite submissions_one in I. rewrite registrations_one. destruct I as [I|I].
    - assert (R : match what t with RegisterNode p => [(sender t, p, tvalue t)] | _ => [] end = []).
      { destruct (what t) eqn:W; try reflexivity. exfalso.
        destruct (proj2 (C27_who_may v E c tr s t s' ev Hh A) _ W) as (_ & _ & _ & _ & P).
        rewrite (k_none _ _ _ _ _ (inv2 _ _ _ _ _ Hh)) in I; [exact I|]. rewrite P. reflexivity. }
      rewrite R, app_nil_r. exact (IH x I).
    - destruct (what t) eqn:W; try (destruct I; fail). destruct I as [<-|[]]. cbn [pzk pvec fst snd]. rewrite app_nil_r.
      destruct (C28_accepted_vector v E c tr s t s' ev _ _ Hh A W) as (_ & _ & _ & V & L & S). split; [exact V|]. split; [exact L|exact S].
  Qed.

  Variable cfg : config.
  Hypothesis HN : number_of_members cfg = c_number c.
  Hypothesis HT : Dkg.threshold cfg = c_threshold c.
  Hypothesis Ht : 0 < Dkg.threshold cfg.
  Hypothesis H1 : 1 <= number_of_members cfg < M64.
  (** the proof system: what the verifier accepts, the circuit accepts (for field elements as instance) *)
  Hypothesis sound : forall zk w, halo2 (c_vk c) zk w = Ok true -> exists inst, w = map val_r inst /\ accepts poseidon aux1 aux2 cfg inst.

  Lemma vector_keys tr s x : hist tr s -> In x (submissions tr) -> exists inst coeffs rs pks, pvec x = map val_r inst /\
    accepts poseidon aux1 aux2 cfg inst /\ zlen pks = number_of_members cfg /\ dealing_instance poseidon coeffs rs pks inst /\ map enck pks = map key (registrations tr).
  Proof.
    intros Hh I. destruct (C57_vectors tr s x Hh I) as (V & L & S). destruct (sound _ _ V) as (inst & Ei & A).
    destruct (C42_sound _ _ _ _ _ A) as (cs & rs & pks & L1 & L2 & D). exists inst, cs, rs, pks. split; [exact Ei|]. split; [exact A|]. split; [exact L2|]. split; [exact D|].
    apply flat_inj. rewrite <- S, Ei. symmetry. replace (Z.to_nat (5 * c_number c + 14)) with (5 * length pks + 14)%nat by (rewrite <- HN, <- L2; unfold zlen; lia).
    exact (dealing_tail poseidon cs rs pks inst D).
  Qed.

  (** the Ready contract holds the keys of one polynomial, and honest members have its values *)
  Theorem C57_ready tr s : hist tr s -> contractPhase s = Ready ->
    exists coeffs pks pps, zlen coeffs <= Dkg.threshold cfg /\ zlen pks = number_of_members cfg /\ map enck pks = getPkList s /\
      getGpk s = enc2 (g2mul g2 (poly_at coeffs f0)) /\
      getVkList s = map (fun i => enc (g1mul g1 (poly_at coeffs (fr i)))) (zseq (length pks)) /\
      Forall2 (fun w pp => exists inst, w = map val_r inst /\ from_instance cfg inst = Ok (pp, pks)) (getPpList s) pps /\
      (forall k i, key_pair k -> get pks (i - 1) = Ok (mk_pk k) ->
         let key := mkShareKey i (poly_at coeffs (fr i)) (g1mul g1 (poly_at coeffs (fr i))) in
         dkg_share_key poseidon k cfg i pps = Ok key /\
         forall msg nonce, exists h e, hash_to_curve_bn keccak EVAL_PREFIX msg = Ok h /\ evaluate keccak key msg nonce = Ok e /\
           pe_verify keccak e cfg msg (vk key) = Ok tt /\ pe_index e = i /\ pe_value e = g1mul h (poly_at coeffs (fr i))) /\
      (forall msg h es, hash_to_curve_bn keccak EVAL_PREFIX msg = Ok h -> quorum cfg (map pe_index es) ->
         Forall (fun e => pe_value e = g1mul h (poly_at coeffs (fr (pe_index e)))) es ->
         let p := mkPseudoRandom (g1mul h (poly_at coeffs f0)) (prf_value keccak (g1mul h (poly_at coeffs f0))) in
         combine_partial_evaluations keccak cfg es = Ok p /\ pr_verify keccak pairing p msg (g2mul g2 (poly_at coeffs f0)) = Ok tt).
  Proof.
    intros Hh P. pose proof (inv2 _ _ _ _ _ Hh) as J2. pose proof (inv1 _ _ _ _ _ Hh) as J1.
    assert (LS : Z.of_nat (length (submissions tr)) = c_number c) by (apply (k_eq _ _ _ _ _ J2); rewrite P; reflexivity).
    destruct (submissions tr) as [|x0 rest] eqn:ES; [cbn [length] in LS; lia|]. rewrite <- ES in LS.
    assert (I0 : In x0 (submissions tr)) by (rewrite ES; left; reflexivity).
    destruct (vector_keys tr s x0 Hh I0) as (inst0 & cs0 & rs0 & pks & _ & _ & Lp & _ & Ek).
    assert (AL : forall w, In w (getPpList s) -> exists inst, w = map val_r inst /\ accepts poseidon aux1 aux2 cfg inst /\ exists pp, from_instance cfg inst = Ok (pp, pks)).
    { intros w Iw. unfold getPpList in Iw. rewrite (k_pp _ _ _ _ _ J2) in Iw. apply in_map_iff in Iw as (x & <- & Ix).
      destruct (vector_keys tr s x Hh Ix) as (inst & cs & rs & pks' & Ei & A & Lp' & D & Ek'). rewrite <- Ek in Ek'. apply enck_inj_list in Ek'. subst pks'.
      exists inst. split; [exact Ei|]. split; [exact A|]. eexists. exact (dealing_decodes poseidon cfg cs rs pks inst D Lp'). }
    destruct (choose _ _ AL) as (insts & FI).
    assert (PL : getPpList s = map (map val_r) insts).
    { clear -FI. induction FI as [|w inst l l' (X & _) F IH]; cbn [map]; [reflexivity|]. rewrite X, IH. reflexivity. }
    assert (NE : insts <> []).
    { intros X. rewrite X in PL. unfold getPpList in PL. rewrite (k_pp _ _ _ _ _ J2), ES in PL. discriminate PL. }
    assert (AI : forall inst, In inst insts -> accepts poseidon aux1 aux2 cfg inst /\ exists pp, from_instance cfg inst = Ok (pp, pks)).
    { clear -FI. induction FI as [|w inst l l' (_ & X) F IH]; intros i Hi; destruct Hi; [subst; exact X|apply IH; assumption]. }
    destruct (C57_accepted_dealings keccak pairing poseidon aux1 aux2 cfg HP Ht (proj2 H1) pks insts NE Lp AI) as (coeffs & pps & gpp & Lc & FP & GP & G1' & G2' & VK & HM & CM).
    assert (FP' : Forall2 (fun inst pp => exists pks, from_instance cfg inst = Ok (pp, pks)) insts pps).
    { apply (Forall2_mono (fun inst pp => from_instance cfg inst = Ok (pp, pks))); [|exact FP]. intros a b X. exists pks. exact X. }
    destruct (C52_keys v keccak in_g2 pairing halo2 HG HP c tr s cfg insts pps Hh P HN NE PL FP') as (gpp' & sec & X1 & X2 & X3 & X4).
    rewrite GP in X1. assert (gpp' = gpp) by congruence. subst gpp'. clear X1.
    assert (Es : sec = poly_at coeffs f0). { apply (g1mul_inj g1 _ _ g1_neq0). rewrite <- X3. exact G1'. }
    rewrite Es in X4. clear Es X3.
    exists coeffs, pks, pps. split; [exact Lc|]. split; [exact Lp|]. split; [unfold getPkList; rewrite (j_pk _ _ _ _ J1); exact Ek|]. split; [exact X4|].
    split; [rewrite X2, VK, map_map; reflexivity|]. split; [|split].
    - rewrite PL. clear -FP. induction FP as [|a b l l' X F IH]; cbn [map]; constructor; [exists a; split; [reflexivity|exact X]|exact IH].
    - intros k i Hk Hi key. destruct (HM k i Hk Hi) as (A & _ & B). split; [exact A|exact B].
    - intros msg h es Hh' Q Fv. pose proof (CM msg h es Hh' Q Fv) as X. cbv zeta in X. rewrite G2' in X. exact X.
  Qed.

  Lemma split_len {A} (f : A -> bool) l : (length (filter f l) + length (filter (fun x => negb (f x)) l) = length l)%nat.
  Proof. induction l as [|a l IH]; cbn [filter length]; [reflexivity|]. destruct (f a); cbn [negb length]; lia. Qed.

  (** Any open round can be completed by any t members with honest keys and the owner, whatever the others dealt and whatever
      has been submitted in the round: the accepted transactions are theirs alone. *)
  Theorem C57_round tr s k idxs (keys : Z -> member_key) : hist tr s -> contractPhase s = Ready -> k = currentRoundNum s -> 1 <= k -> no_random s k ->
    0 < owner s < M160 -> Forall (fun a => 0 < a < M160) (map who (registrations tr)) -> quorum cfg idxs ->
    (forall i, In i idxs -> key_pair (keys i) /\ znth (getPkList s) (i - 1) = Some (enck (mk_pk (keys i)))) ->
    exists (sec : Fr) pr, getGpk s = enc2 (g2mul g2 sec) /\ pr_verify keccak pairing pr (round_input k) (g2mul g2 sec) = Ok tt /\
      (pr_value pr <> be_bytes 32 0 ->
       exists tr' s', hist (tr ++ tr') s' /\ forallb accepted tr' = true /\ same_setup s s' /\ currentRoundNum s' = k /\
         getRandomAtRound s' k = Ok (mkPrand (enc (pr_proof pr)) (of_be (pr_value pr))) /\
         Forall (fun x => sender (txn x) = owner s \/ exists i, In i idxs /\ znth (map who (registrations tr)) (i - 1) = Some (sender (txn x))) tr').
  Proof.
    intros Hh P Ek Hk NR Ow Fa Q HK. destruct (C57_ready tr s Hh P) as (coeffs & pks & pps & Lc & Lp & KL & GK & VK & FPP & HM & CM).
    pose proof Q as (Lq & Iq & Rq).
    assert (LR : Z.of_nat (length (registrations tr)) = c_number c) by (apply (j_phase _ _ _ _ (inv1 _ _ _ _ _ Hh)); rewrite P; discriminate).
    destruct (msg_hash keccak K (round_input k) (input_short k)) as (h & Eh & _).
    assert (EV : forall i, In i idxs -> exists e, pe_verify keccak e cfg (round_input k) (g1mul g1 (poly_at coeffs (fr i))) = Ok tt /\ pe_index e = i /\ pe_value e = g1mul h (poly_at coeffs (fr i))).
    { intros i Ii. destruct (HK i Ii) as [KP Zk]. assert (G : get pks (i - 1) = Ok (mk_pk (keys i))).
      { rewrite <- KL, znth_map in Zk. unfold znth in Zk. destruct (Z.ltb_spec (i - 1) 0); [discriminate Zk|]. destruct (nth_error pks (Z.to_nat (i - 1))) as [p|] eqn:Np; [|discriminate Zk].
        cbn [option_map] in Zk. assert (X : enck p = enck (mk_pk (keys i))) by congruence. apply enck_inj in X. subst p. apply get_ok; [lia|exact Np]. }
      destruct (HM (keys i) i KP G) as (_ & X). destruct (X (round_input k) f0) as (h' & e & Eh' & _ & V & I & Vl). rewrite Eh in Eh'. assert (h' = h) by congruence. subst h'.
      exists e. split; [exact V|]. split; [exact I|exact Vl]. }
    destruct (choose _ _ EV) as (es & FE).
    assert (MI : map pe_index es = idxs) by (clear -FE; induction FE as [|i e l l' (_ & X & _) F IH]; cbn [map]; [reflexivity|rewrite X, IH; reflexivity]).
    assert (FV : Forall (fun e => pe_value e = g1mul h (poly_at coeffs (fr (pe_index e)))) es).
    { clear -FE. induction FE as [|i e l l' (_ & X & Y) F IH]; constructor; [rewrite X; exact Y|exact IH]. }
    pose proof (CM (round_input k) h es Eh ltac:(rewrite MI; exact Q) FV) as (_ & Vr).
    set (sec := poly_at coeffs f0) in *. set (pr := mkPseudoRandom (g1mul h sec) (prf_value keccak (g1mul h sec))) in *.
    exists sec, pr. split; [exact GK|]. split; [exact Vr|]. intros NZ.
    (* the members of the quorum that have not submitted yet *)
    set (addr := fun i => match znth (map who (registrations tr)) (i - 1) with Some a => a | None => 0 end).
    set (done := fun i => if in_dec Z.eq_dec (addr i) (map fst (evals tr k)) then true else false).
    set (missing := filter (fun i => negb (done i)) idxs).
    assert (MIn : forall i, In i missing -> In i idxs /\ ~ In (addr i) (map fst (evals tr k))).
    { intros i Ii. unfold missing in Ii. apply filter_In in Ii as [Ii D]. split; [exact Ii|]. unfold done in D. destruct (in_dec Z.eq_dec (addr i) (map fst (evals tr k))); [discriminate D|assumption]. }
    assert (ZA : forall i, In i idxs -> znth (map who (registrations tr)) (i - 1) = Some (addr i)).
    { intros i Ii. rewrite Forall_forall in Rq. specialize (Rq i Ii). destruct (znth_some (map who (registrations tr)) (i - 1)) as [a Za]; [rewrite map_length; lia|]. unfold addr. rewrite Za. reflexivity. }
    assert (CNT : zlen (filter done idxs) <= roundSubmissionCount s k).
    { rewrite (m_cnt _ _ _ _ _ (inv3 _ _ _ _ _ Hh) k). unfold zlen. rewrite <- (map_length addr), <- (map_length fst (evals tr k)). apply inj_le. apply NoDup_incl_length.
      - apply NoDup_map_inj; [|apply NoDup_filter, (increasing_NoDup _ Iq)]. intros a b Ia Ib Eab. apply filter_In in Ia as [Ia _]. apply filter_In in Ib as [Ib _].
        pose proof (ZA a Ia) as Za. pose proof (ZA b Ib) as Zb. rewrite <- Eab in Zb. pose proof (znth_NoDup _ _ _ _ (j_rnd _ _ _ _ (inv1 _ _ _ _ _ Hh)) Za Zb). lia.
      - intros a Ia. apply in_map_iff in Ia as (i & <- & Ii). apply filter_In in Ii as [_ D]. unfold done in D. destruct (in_dec Z.eq_dec (addr i) (map fst (evals tr k))); [assumption|discriminate D]. }
    assert (EM : forall i, In i missing -> exists e, 1 <= i <= c_number c /\ pe_index e = i /\ exists V, get (map (fun i => g1mul g1 (poly_at coeffs (fr i))) (zseq (length pks))) (i - 1) = Ok V /\ pe_verify keccak e cfg (round_input k) V = Ok tt).
    { intros i Ii. destruct (MIn i Ii) as [Ij _]. rewrite Forall_forall in Rq. specialize (Rq i Ij). destruct (EV i Ij) as (e & V & I & _). exists e. rewrite <- HN. split; [exact Rq|]. split; [exact I|].
      eexists. split; [|exact V]. rewrite get_map, get_zseq; [reflexivity|]. unfold zlen in Lp. lia. }
    destruct (choose _ _ EM) as (ms & FM).
    set (gpp := mkGPP g0 g0 (map (fun i => g1mul g1 (poly_at coeffs (fr i))) (zseq (length pks)))).
    assert (VK' : getVkList s = map enc (verify_keys gpp)) by (rewrite VK; unfold gpp; cbn [verify_keys]; rewrite map_map; reflexivity).
    destruct (eval_all v keccak in_g2 pairing halo2 K c cfg HN gpp k missing ms Hk (NoDup_filter _ (increasing_NoDup _ Iq)) FM tr s Hh (eq_sym Ek) NR Fa LR VK') as (tr2 & s2 & H2 & A2 & Sm2 & C2 & RR2 & R2 & Cn2 & Sn2 & _).
    { intros i a Ii Za. destruct (MIn i Ii) as [Ij N]. rewrite (ZA i Ij) in Za. assert (addr i = a) by congruence. subst a. exact N. }
    pose proof Sm2 as (S1 & S2 & S3 & S4 & S5).
    pose proof (proj1 (pr_verify_iff keccak pairing HP pr (round_input k) sec h Eh) Vr) as [_ PV]. rewrite prf_value_word in PV.
    set (val := keccak (word (fst (enc (pr_proof pr))) ++ word (snd (enc (pr_proof pr))))) in *.
    assert (BV : 0 <= val < 2 ^ 256) by apply K.
    assert (NV : val <> 0) by (intros X; rewrite X in PV; contradiction).
    destruct (C53_random_accepted v keccak in_g2 pairing halo2 K HG c (tr ++ tr2) s2 k sec pr val H2 (eq_sym C2) Hk) as (s3 & ev3 & A3 & GR & Sm3 & C3).
    - apply no_random_iff. rewrite RR2. apply no_random_iff. exact NR.
    - rewrite S1. exact Ow.
    - intros _. rewrite Cn2, <- HT, <- Lq. pose proof (split_len done idxs) as SL. fold missing in SL. unfold zlen in *. lia.
    - rewrite S4. exact GK.
    - lia.
    - exact PV.
    - exact Vr.
    - match type of A3 with apply _ _ _ ?t0 = _ => set (t3 := t0) in * end.
      exists (tr2 ++ [mkStep s2 t3 (Ok (s3, ev3))]), s3. pose proof (hist_ok v E c _ _ _ _ _ H2 A3) as H3. rewrite <- app_assoc in H3.
      split; [exact H3|]. split; [rewrite forallb_app, A2; reflexivity|]. split; [exact (same_trans _ _ _ Sm2 Sm3)|]. split; [congruence|].
      split; [rewrite GR; do 2 f_equal; rewrite PV, of_be_be by lia; symmetry; apply Z.mod_small; change (256 ^ Z.of_nat 32) with (2 ^ 256); exact BV|].
      apply Forall_app. split; [|constructor; [left; exact S1|constructor]].
      apply (Forall_impl _ (fun x X => match X with ex_intro _ j (conj Ij Zj) => or_intror (ex_intro _ j (conj (proj1 (MIn j Ij)) Zj)) end) Sn2).
  Qed.
End Chain.

(** ** one member can block the contract for ever *)
Theorem C42_poison_blocks v keccak in_g2 pairing halo2 poseidon aux1 aux2 c cfg coeffs (rs : Fq) pks :
  let E := real_env keccak in_g2 pairing halo2 in
  number_of_members cfg = c_number c ->
  1 <= Dkg.threshold cfg -> 1 <= number_of_members cfg < 2 ^ 200 -> table_assignable (g1 : G1) aux1 -> table_assignable (g2 : G2c) aux2 ->
  zlen coeffs = Dkg.threshold cfg -> zlen pks = number_of_members cfg -> dealing_reachable aux1 aux2 coeffs (number_of_members cfg) ->
  rs <> f0 -> Forall (fun pk : Gk => pk <> g0) pks -> val_q (fst (xy (g1mul g1 (poly_at coeffs f0) : G1))) + q_mod < 2 ^ 254 ->
  exists inst, accepts poseidon aux1 aux2 cfg inst /\
    forall tr s a zk, hist v E c tr s -> contractPhase s = Nidkg -> 0 < a < M160 -> In a (added tr) -> ~ In a (map psender (submissions tr)) ->
      getPkList s = map enck pks -> forallb is_byte zk = true -> halo2 (c_vk c) zk (map val_r inst) = Ok true ->
      exists s' ev, apply v E s (mkTx a 0 (SubmitPublicParams (map val_r inst) zk)) = Ok (s', ev) /\
        forall l, contractPhase (run v E s' l) <> Ready.
Proof.
  intros E HN Ht Hn T1 T2 Lc Lp R Nr F Hx.
  destruct (C42_poison poseidon aux1 aux2 cfg coeffs rs pks Ht Hn T1 T2 Lc Lp R Nr F Hx) as (inst & D & A & _ & St).
  exists inst. split; [exact A|]. intros tr s a zk Hh P Ha Ia Na KL Bz V.
  assert (Ln : c_number c = Z.of_nat (length pks)) by (rewrite <- HN, <- Lp; reflexivity).
  destruct (F_submit v E c tr s a (map val_r inst) zk Hh P Ha Ia Na) as (s' & ev & Ap & _).
  - apply all_u256.
  - exact Bz.
  - rewrite map_length, (dealing_length _ _ _ _ _ D), Ln. lia.
  - replace (Z.to_nat (5 * c_number c + 14)) with (5 * length pks + 14)%nat by (rewrite Ln; lia). rewrite (dealing_tail poseidon coeffs rs pks inst D).
    unfold getPkList in KL. rewrite (j_pk _ _ _ _ (inv1 _ _ _ _ _ Hh)) in KL. rewrite <- KL. reflexivity.
  - exact V.
  - exists s', ev. split; [exact Ap|]. intros l Rd. pose proof (hist_ok v E c _ _ _ _ _ Hh Ap) as H1.
    destruct (hist_run v E c _ _ l H1) as (tr' & H2 & _). destruct (proj2 (C29_keys_set_once v E c _ _ H2) Rd) as (gpk & G & _).
    unfold getPpList in G. rewrite (k_pp _ _ _ _ _ (inv2 _ _ _ _ _ H2)) in G. rewrite !submissions_app, submissions_one in G. cbn [what] in G.
    rewrite !map_app in G. cbn [map pvec fst snd app] in G. rewrite <- app_assoc in G. cbn [app] in G.
    exact (St in_g2 pairing _ _ _ _ _ G).
Qed.

(** ** the hypotheses of C57 are met: three members with threshold two, a verifier that accepts one accepted instance only *)
Definition only (w0 : list Z) : Z -> bytes -> list Z -> res bool := fun _ _ w => Ok (if list_eq_dec Z.eq_dec w w0 then true else false).
Theorem C57_meets v (poseidon : Fr -> Fr -> Fr) : exists in_g2 pairing aux1 aux2 inst tr s,
  let halo2 := only (map val_r inst) in
  in_g2_ok in_g2 /\ pairing_ok pairing /\
  (forall zk w, halo2 (c_vk live_cfg) zk w = Ok true -> exists inst, w = map val_r inst /\ accepts poseidon aux1 aux2 (mkConfig 2 3) inst) /\
  hist v (real_env live_keccak in_g2 pairing halo2) live_cfg tr s /\ contractPhase s = Ready /\ getPkList s = map (fun m => enck (mk_pk m)) demo_members.
Proof.
  destruct in_g2_exists as [ig HG]. destruct pairing_exists as [pr HP]. destruct C41_tables_exist as (aux1 & aux2 & T1 & T2).
  set (cf := mkConfig 2 3). set (pks := map mk_pk demo_members).
  assert (FK : Forall (fun m => mk_pk m <> g0) demo_members) by (repeat constructor; apply key_neq0; split; reflexivity).
  assert (FK' : Forall (fun pk : Gk => pk <> g0) pks) by (unfold pks; apply Forall_map; exact FK).
  destruct (C41_provable poseidon aux1 aux2 cf pks [fr 12] (fr 13) T1 T2 eq_refl ltac:(split; [discriminate|reflexivity]) eq_refl ltac:(discriminate) FK') as (a0 & aux & mp & ci & inst & MP & CI & IO & LI & PO).
  set (dealers := [([a0; fr 12], fr 13); ([a0; fr 12], fr 13); ([a0; fr 12], fr 13)]).
  assert (HH : honest cf demo_members dealers) by (constructor; [exists 2, 3; auto|reflexivity|repeat constructor|discriminate|repeat constructor]).
  destruct (C06_dkg_public poseidon _ _ _ HH) as (pps & gpp & D & G & _).
  assert (Ep : pps = [mp_public_params mp; mp_public_params mp; mp_public_params mp]).
  { unfold deal_all, dealers in D. fold pks in D. cbn [mapM] in D. rewrite MP in D. cbn [bind] in D. cbn [map] in D. congruence. }
  destruct (construct live_cfg) as [s0| |] eqn:C; try discriminate.
  destruct (C53_honest_setup v live_keccak ig pr (only (map val_r inst)) poseidon HG HP live_cfg _ _ _ HH eq_refl pps gpp D G s0 [101; 102; 103] [inst; inst; inst] [[]; []; []]) as (tr & s & H & A & R & O & C0 & Wh & PK & _); auto.
  - reflexivity.
  - repeat constructor; cbn; intuition lia.
  - repeat constructor; reflexivity.
  - rewrite Ep. repeat constructor; exact IO.
  - repeat constructor; unfold only; destruct (list_eq_dec Z.eq_dec (map val_r inst) (map val_r inst)); [reflexivity|contradiction|reflexivity|contradiction|reflexivity|contradiction].
  - exists ig, pr, aux1, aux2, inst, tr, s. split; [exact HG|]. split; [exact HP|]. split; [|split; [exact H|split; [exact R|exact PK]]].
    intros zk w X. unfold only in X. destruct (list_eq_dec Z.eq_dec w (map val_r inst)) as [->|]; [|discriminate X]. exists inst. split; [reflexivity|].
    split; [exact LI|]. exists ci. apply C41_circuit_new in CI as (L1 & L2 & ->). destruct (params_fields poseidon cf _ _ _ _ ltac:(discriminate) MP) as (E1 & E2 & E3 & E4).
    cbn [dc_coeffs dc_public_keys]. split; [rewrite L1, E1; reflexivity|]. split; [rewrite L2, E1; reflexivity|]. exact (honest_sem _ _ PO).
Qed.
