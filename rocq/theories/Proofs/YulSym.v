(** A symbolic machine for the arithmetic part of the verifier: words are field elements, coordinates of curve points or
    concrete integers; and its soundness with respect to the EVM. *)
From Coq Require Import ZArith List String Bool Lia.
From Verif.Base Require Import Fermat Pocklington Fld Fp EC Primes Curves Group.
From Verif.Model Require Import Monad Evm Points PairingSol Dkg Yul.
From Verif.Proofs Require Import InstanceProofs OnchainProofs YulSim.
Import ListNotations.
Open Scope Z_scope.

Section Sym.
  Variable K : Fld.
  Variable ofz : Z -> K.
  Variable G : Type.
  Variable padd : G -> G -> G.
  Variable psmul : K -> G -> G.

  Inductive sv :=
  | C (z : Z)          (** this integer *)
  | F (k : K)          (** the canonical value of this field element *)
  | N (k : K)          (** some 256-bit representative of this field element *)
  | X (P : G)          (** first, second coordinate of this point *)
  | Y (P : G).

  Record smem := Smem { wr : list (Z * sv); bs : Z -> option sv; cnd : Prop }.
  Fixpoint alook (a : Z) (l : list (Z * sv)) : option sv :=
    match l with [] => None | (b, v) :: l => if a =? b then Some v else alook a l end.
  Definition slook (m : smem) (a : Z) : option sv := match alook a (wr m) with Some v => Some v | None => bs m a end.
  Fixpoint aput (a : Z) (v : sv) (l : list (Z * sv)) : list (Z * sv) :=
    match l with [] => [(a, v)] | (b, w) :: l => if a =? b then (a, v) :: l else (b, w) :: aput a v l end.
  Definition sput (m : smem) (a : Z) (v : sv) : smem := Smem (aput a v (wr m)) (bs m) (cnd m).

  Definition tof (v : sv) : option K := match v with C z => Some (ofz z) | F k => Some k | N k => Some k | _ => None end.
  Definition s_bin (o : binop) (a b : sv) : option sv :=
    match o, a, b with
    | _, C x, C y => Some (C (word_bin o x y))
    | SUB, C x, F k => if x =? r_mod then Some (N (fopp k)) else None
    | _, _, _ => None
    end.
  Definition s_ter (o : terop) (a b n : sv) : option sv :=
    match n with
    | C n => if n =? r_mod then
               match tof a, tof b with
               | Some x, Some y => Some (F (match o with ADDMOD => fadd x y | MULMOD => fmul x y end))
               | _, _ => None
               end
             else None
    | _ => None
    end.
  Definition s_isz (a : sv) : option sv := match a with C z => Some (C (if z =? 0 then 1 else 0)) | _ => None end.
  Definition s_truth (a : sv) : option bool := match a with C z => Some (negb (z =? 0)) | _ => None end.
  Definition s_load (m : smem) (a : sv) : option sv :=
    match a with C a => if aligned a then slook m a else None | _ => None end.
  Definition s_store (m : smem) (a v : sv) : option smem :=
    match a with C a => if aligned a then Some (sput m a v) else None | _ => None end.
  Definition s_static (m : smem) (addr inp insize outp outsize : sv) : option (sv * smem) :=
    match addr, inp, insize, outp, outsize with
    | C addr, C inp, C insize, C outp, C outsize =>
        if negb (aligned inp && aligned outp) then None else
        if addr =? 5 then
          if (insize =? 0xc0) && (outsize =? 0x20) then
          match slook m inp, slook m (inp + 32), slook m (inp + 64), slook m (inp + 96), slook m (inp + 128), slook m (inp + 160) with
          | Some (C a), Some (C b), Some (C c), Some (F k), Some (C x), Some (C n) =>
              if (a =? 32) && (b =? 32) && (c =? 32) && (x =? r_mod - 2) && (n =? r_mod) then Some (C 1, sput m outp (F (finv k)))
              else None
          | _, _, _, _, _, _ => None
          end else None
        else if addr =? 6 then
          if (insize =? 0x80) && (outsize =? 0x40) then
          match slook m inp, slook m (inp + 32), slook m (inp + 64), slook m (inp + 96) with
          | Some (X P), Some (Y P'), Some (X Q), Some (Y Q') =>
              let m := sput (sput m outp (X (padd P Q))) (outp + 32) (Y (padd P Q)) in
              Some (C 1, Smem (wr m) (bs m) (cnd m /\ P = P' /\ Q = Q'))
          | _, _, _, _ => None
          end else None
        else if addr =? 7 then
          if (insize =? 0x60) && (outsize =? 0x40) then
          match slook m inp, slook m (inp + 32), slook m (inp + 64) with
          | Some (X P), Some (Y P'), Some s =>
              match tof s with
              | Some k =>
                  let m := sput (sput m outp (X (psmul k P))) (outp + 32) (Y (psmul k P)) in
                  Some (C 1, Smem (wr m) (bs m) (cnd m /\ P = P'))
              | None => None
              end
          | _, _, _ => None
          end else None
        else None
    | _, _, _, _, _ => None
    end.

  Variable cd : Z -> option sv.
  Definition SYM : machine := {|
    val := sv; memory := smem; num := C; bin := s_bin; ter := s_ter; isz := s_isz; truth := s_truth;
    mload := s_load; mstore := s_store; mstore8 := fun _ _ _ => None;
    cdload := fun a => match a with C a => cd a | _ => None end;
    keccak_op := fun _ _ _ => None; static := s_static; extcodecopy := fun _ _ _ _ _ => None |}.
End Sym.
Arguments C {K G}. Arguments F {K G}. Arguments N {K G}. Arguments X {K G}. Arguments Y {K G}.
Arguments Smem {K G}. Arguments wr {K G}. Arguments bs {K G}. Arguments cnd {K G}. Arguments slook {K G}. Arguments sput {K G}.
Arguments alook {K G}. Arguments aput {K G}.

(** ** Soundness *)
Definition g1smul (k : Fr) (P : G1) : G1 := g1mul P k.
Definition rel (v : sv Fr G1) (z : Z) : Prop :=
  match v with
  | C c => z = c
  | F k => z = vr k
  | N k => 0 <= z < W256 /\ fr z = k
  | X P => z = px P
  | Y P => z = py P
  end.
Definition good (m : smem Fr G1) : Prop := cnd m.
Definition Rm (m : smem Fr G1) (m' : mem) : Prop := forall a v, slook m a = Some v -> rel v (m' a).

Lemma alook_aput_same a v (l : list (Z * sv Fr G1)) : alook a (aput a v l) = Some v.
Proof.
  induction l as [|[b w] l IH]; cbn; [rewrite Z.eqb_refl; reflexivity|].
  destruct (a =? b) eqn:E; cbn; [rewrite Z.eqb_refl; reflexivity|rewrite E; exact IH].
Qed.
Lemma alook_aput_other a b v (l : list (Z * sv Fr G1)) : b <> a -> alook b (aput a v l) = alook b l.
Proof.
  intros H. induction l as [|[c w] l IH]; cbn.
  - destruct (Z.eqb_spec b a); [contradiction|reflexivity].
  - destruct (Z.eqb_spec a c) as [<-|]; cbn.
    + destruct (Z.eqb_spec b a); [contradiction|reflexivity].
    + destruct (b =? c); [reflexivity|exact IH].
Qed.
Lemma slook_sput a b v (m : smem Fr G1) : slook (sput m a v) b = if b =? a then Some v else slook m b.
Proof.
  unfold slook, sput; cbn. destruct (Z.eqb_spec b a) as [->|H].
  - rewrite alook_aput_same. reflexivity.
  - rewrite alook_aput_other by auto. reflexivity.
Qed.
Lemma Rm_sput m m' a v z : Rm m m' -> rel v z -> Rm (sput m a v) (upd m' a z).
Proof.
  intros H Hv b w. rewrite slook_sput. unfold upd. destruct (b =? a); [intros E; injection E as <-; exact Hv|apply H].
Qed.

Lemma r_W : r_mod < W256. Proof. reflexivity. Qed.
Lemma tof_rel v z k : rel v z -> tof Fr fr G1 v = Some k -> fr z = k.
Proof.
  destruct v; cbn; intros H E; try discriminate; injection E as <-.
  - subst; reflexivity. - subst; apply fr_vr. - tauto.
Qed.
Lemma powm_exp x : (match r_mod - 2 with Zpos e => powm x e r_mod | _ => x end) = x ^ (r_mod - 2) mod r_mod.
Proof. assert (E : exists e, r_mod - 2 = Zpos e) by (eexists; reflexivity). destruct E as [e ->]. apply powm_spec. Qed.
Lemma inv_exp (k : Fr) : (vr k) ^ (r_mod - 2) mod r_mod = vr (finv k).
Proof.
  change (vr (finv k)) with (fval (Fp_inv (k : Fp r_mod))). unfold Fp_inv. rewrite fval_of_Z, powm_exp, Z.mod_mod by discriminate.
  reflexivity.
Qed.

Lemma neg_mod p v : (p - v) mod p = (- v) mod p.
Proof. replace (p - v) with (- v + 1 * p) by lia. apply Z_mod_plus_full. Qed.
Lemma neg_rep (k : Fr) : fr (r_mod - vr k) = fopp k.
Proof. exact (of_Z_eq r_mod _ _ (neg_mod r_mod (vr k))). Qed.

Section Sound.
  Variable keccak : bytes -> Z.
  Variable in_g2 : G2c -> bool.
  Variable pairing : list (G1 * G2c) -> bool.
  Variable calldata : list Z.
  Variable code : Z -> list Z.
  Variable cd : Z -> option (sv Fr G1).
  (** the symbolic call data describes the call data *)
  Hypothesis Hcd : forall a v, cd a = Some v -> exists z, cd_load calldata a = Some z /\ rel v z.
  Notation A := (SYM Fr fr G1 (@gadd G1) g1smul cd).
  Notation B := (EVM keccak in_g2 pairing calldata code).

  Lemma s_bin_sound o a b a' b' : rel a a' -> rel b b' -> simv A B rel (bin A o a b) (bin B o a' b').
  Proof.
    intros Ha Hb v E. cbn in *. eexists; split; [reflexivity|].
    assert (E1 : (exists x y, a = C x /\ b = C y /\ v = C (word_bin o x y)) \/
                 (exists k, o = SUB /\ a = C r_mod /\ b = F k /\ v = N (fopp k))).
    { destruct a, b, o; cbn in E; try discriminate; try (injection E as <-; left; eauto 6; fail).
      destruct (Z.eqb_spec z r_mod) as [->|]; [|discriminate]. injection E as <-. right; eauto 6. }
    destruct E1 as [(x & y & -> & -> & ->)|(k & -> & -> & -> & ->)]; cbn in *; subst; [reflexivity|].
    pose proof (vr_range k). pose proof r_W. rewrite Z.mod_small by lia. split; [lia|].
    exact (neg_rep k).
  Qed.
  Lemma s_ter_sound o a b n a' b' n' : rel a a' -> rel b b' -> rel n n' -> simv A B rel (ter A o a b n) (ter B o a' b' n').
  Proof.
    intros Ha Hb Hn v E. cbn [ter SYM EVM] in *. eexists; split; [reflexivity|]. unfold s_ter in E.
    destruct n as [n| | | |]; try discriminate. destruct (Z.eqb_spec n r_mod) as [->|]; [|discriminate].
    destruct (tof Fr fr G1 a) as [x|] eqn:Ex; [|discriminate]. destruct (tof Fr fr G1 b) as [y|] eqn:Ey; [|discriminate].
    injection E as <-. cbn in Hn; subst n'. apply (tof_rel _ _ _ Ha) in Ex. apply (tof_rel _ _ _ Hb) in Ey. subst x y.
    unfold word_ter. change (r_mod =? 0) with false. cbn [rel]. destruct o; unfold addmod, mulmod; rewrite <- vr_fr; f_equal.
    - apply of_Z_add. - apply of_Z_mul.
  Qed.
  Lemma words1 m (a : Z) n : words_at m a (S n) = m a :: words_at m (a + 32) n.
  Proof.
    unfold words_at. cbn [seq map]. f_equal; [f_equal; lia|]. rewrite <- seq_shift, map_map. apply map_ext. intros i. f_equal. lia.
  Qed.
  Lemma words0 m a : words_at m a 0 = []. Proof. reflexivity. Qed.
  Lemma z1 a : a + 32 + 32 = a + 64. Proof. lia. Qed.
  Lemma z2 a : a + 64 + 32 = a + 96. Proof. lia. Qed.
  Lemma z3 a : a + 96 + 32 = a + 128. Proof. lia. Qed.
  Lemma z4 a : a + 128 + 32 = a + 160. Proof. lia. Qed.

  Ltac peel E :=
    match type of E with
    | (if ?b then _ else _) = Some _ => let Hb := fresh "Hb" in destruct b eqn:Hb; try discriminate E
    | (match ?x with _ => _ end) = Some _ => destruct x eqn:?; try discriminate E
    end.
  Lemma s_static_sound m m' a a' b b' c c' d d' e e' : Rm m m' -> rel a a' -> rel b b' -> rel c c' -> rel d d' -> rel e e' ->
    sims A B rel Rm good m (static A m a b c d e) (static B m' a' b' c' d' e').
  Proof.
    intros Hm Ha Hb Hc Hd He v m1 E G. cbn [static SYM EVM] in *. unfold s_static in E.
    destruct a as [addr| | | |], b as [inp| | | |], c as [isz| | | |], d as [outp| | | |], e as [osz| | | |]; try discriminate E.
    cbn in Ha, Hb, Hc, Hd, He. subst a' b' c' d' e'. unfold m_static.
    destruct (negb (aligned inp && aligned outp)); [discriminate E|].
    destruct (addr =? 5).
    { destruct ((isz =? 192) && (osz =? 32)) eqn:Hsz; [|discriminate E].
      destruct (slook m inp) as [[za| | | |]|] eqn:L1; try discriminate E.
      destruct (slook m (inp + 32)) as [[zb| | | |]|] eqn:L2; try discriminate E.
      destruct (slook m (inp + 64)) as [[zc| | | |]|] eqn:L3; try discriminate E.
      destruct (slook m (inp + 96)) as [[|k| | |]|] eqn:L4; try discriminate E.
      destruct (slook m (inp + 128)) as [[zx| | | |]|] eqn:L5; try discriminate E.
      destruct (slook m (inp + 160)) as [[zn| | | |]|] eqn:L6; try discriminate E.
      apply Hm in L1, L2, L3, L4, L5, L6. cbn [rel] in *.
      destruct ((za =? 32) && (zb =? 32) && (zc =? 32) && (zx =? r_mod - 2) && (zn =? r_mod)) eqn:T; [|discriminate E].
      apply andb_true_iff in T as [T T5]. apply andb_true_iff in T as [T T4]. apply Z.eqb_eq in T5, T4.
      injection E as <- <-. split; [exact G|].
      rewrite !words1, words0, z1, z2, z3, z4, L1, L2, L3, L4, L5, L6, T, T4, T5. change (r_mod =? 0) with false.
      do 2 eexists; split; [reflexivity|]. split; [reflexivity|]. apply Rm_sput; [exact Hm|]. cbn [rel]. apply inv_exp. }
    destruct (addr =? 6).
    { destruct ((isz =? 128) && (osz =? 64)) eqn:Hsz; [|discriminate E].
      destruct (slook m inp) as [[| | |P|]|] eqn:L1; try discriminate E.
      destruct (slook m (inp + 32)) as [[| | | |P']|] eqn:L2; try discriminate E.
      destruct (slook m (inp + 64)) as [[| | |Q|]|] eqn:L3; try discriminate E.
      destruct (slook m (inp + 96)) as [[| | | |Q']|] eqn:L4; try discriminate E.
      apply Hm in L1, L2, L3, L4. cbn [rel] in *.
      injection E as <- <-. cbn [good cnd sput] in G. destruct G as (G & <- & <-). split; [exact G|].
      rewrite !words1, words0, z1, z2, L1, L2, L3, L4.
      change (px P, py P) with (enc P). change (px Q, py Q) with (enc Q). rewrite !decode_enc.
      do 2 eexists; split; [reflexivity|]. split; [reflexivity|]. cbn [store_words].
      intros a w Ha. exact (Rm_sput _ _ _ (Y _) _ (Rm_sput _ _ _ (X _) _ Hm eq_refl) eq_refl a w Ha). }
    destruct (addr =? 7).
    { destruct ((isz =? 96) && (osz =? 64)) eqn:Hsz; [|discriminate E].
      destruct (slook m inp) as [[| | |P|]|] eqn:L1; try discriminate E.
      destruct (slook m (inp + 32)) as [[| | | |P']|] eqn:L2; try discriminate E.
      destruct (slook m (inp + 64)) as [s|] eqn:L3; try discriminate E.
      destruct (tof Fr fr G1 s) as [k|] eqn:Ek; [|discriminate E].
      apply Hm in L1, L2, L3. cbn [rel] in L1, L2. apply (tof_rel _ _ _ L3) in Ek.
      injection E as <- <-. cbn [good cnd sput] in G. destruct G as (G & <-). split; [exact G|].
      rewrite !words1, words0, z1, L1, L2. change (px P, py P) with (enc P). rewrite !decode_enc, zmul_r, Ek.
      do 2 eexists; split; [reflexivity|]. split; [reflexivity|]. cbn [store_words].
      intros a w Ha. exact (Rm_sput _ _ _ (Y _) _ (Rm_sput _ _ _ (X _) _ Hm eq_refl) eq_refl a w Ha). }
    discriminate E.
  Qed.
  Lemma s_static_back m a b c d e v m1 : static A m a b c d e = Some (v, m1) -> good m1 -> good m.
  Proof.
    intros E G. cbn [static SYM] in E. unfold s_static in E.
    destruct a as [addr| | | |], b as [inp| | | |], c as [isz| | | |], d as [outp| | | |], e as [osz| | | |]; try discriminate E.
    destruct (negb (aligned inp && aligned outp)); [discriminate E|].
    destruct (addr =? 5).
    { destruct ((isz =? 192) && (osz =? 32)) eqn:Hsz; [|discriminate E].
      destruct (slook m inp) as [[za| | | |]|] eqn:L1; try discriminate E.
      destruct (slook m (inp + 32)) as [[zb| | | |]|] eqn:L2; try discriminate E.
      destruct (slook m (inp + 64)) as [[zc| | | |]|] eqn:L3; try discriminate E.
      destruct (slook m (inp + 96)) as [[|k| | |]|] eqn:L4; try discriminate E.
      destruct (slook m (inp + 128)) as [[zx| | | |]|] eqn:L5; try discriminate E.
      destruct (slook m (inp + 160)) as [[zn| | | |]|] eqn:L6; try discriminate E.
      destruct ((za =? 32) && (zb =? 32) && (zc =? 32) && (zx =? r_mod - 2) && (zn =? r_mod)) eqn:T; [|discriminate E].
      injection E as <- <-. exact G. }
    destruct (addr =? 6).
    { destruct ((isz =? 128) && (osz =? 64)) eqn:Hsz; [|discriminate E].
      destruct (slook m inp) as [[| | |P|]|] eqn:L1; try discriminate E.
      destruct (slook m (inp + 32)) as [[| | | |P']|] eqn:L2; try discriminate E.
      destruct (slook m (inp + 64)) as [[| | |Q|]|] eqn:L3; try discriminate E.
      destruct (slook m (inp + 96)) as [[| | | |Q']|] eqn:L4; try discriminate E.
      injection E as <- <-. exact (proj1 G). }
    destruct (addr =? 7).
    { destruct ((isz =? 96) && (osz =? 64)) eqn:Hsz; [|discriminate E].
      destruct (slook m inp) as [[| | |P|]|] eqn:L1; try discriminate E.
      destruct (slook m (inp + 32)) as [[| | | |P']|] eqn:L2; try discriminate E.
      destruct (slook m (inp + 64)) as [s|] eqn:L3; try discriminate E.
      destruct (tof Fr fr G1 s) as [k|] eqn:Ek; [|discriminate E].
      injection E as <- <-. exact (proj1 G). }
    discriminate E.
  Qed.

  Definition Renv : vars A -> vars B -> Prop := Re A B rel.
  Theorem sym_sound limit fs l e e' m m' e1 m1 : Renv e e' -> Rm m m' -> run A limit fs e m l = Cont e1 m1 -> cnd m1 ->
    exists e1' m1', run B limit fs e' m' l = Cont e1' m1' /\ Renv e1 e1' /\ Rm m1 m1'.
  Proof.
    intros He Hm E Gd. refine (run_sim A B rel Rm good _ _ _ _ _ _ _ _ _ _ _ _ _ _ _ _ limit fs l e e' m m' e1 m1 He Hm E Gd).
    - intros z. reflexivity.
    - intros. apply s_bin_sound; auto.
    - intros. apply s_ter_sound; auto.
    - intros a a' Ha v Ev. destruct a; try discriminate Ev. injection Ev as <-. cbn in Ha; subst. eexists; split; reflexivity.
    - intros a a' b Ha Eb. destruct a; try discriminate Eb. cbn in Ha; subst. exact Eb.
    - intros s s' a a' Hs Ha v Ev. cbn in Ev. destruct a; try discriminate Ev. cbn in Ha; subst a'. cbn in Ev |- *.
      unfold m_load. destruct (aligned z); [|discriminate Ev]. eexists; split; [reflexivity|]. apply Hs, Ev.
    - intros a a' Ha v Ev. cbn in Ev. destruct a; try discriminate Ev. cbn in Ha; subst a'. exact (Hcd _ _ Ev).
    - intros s s' a a' x x' _ _ _ v Ev. discriminate Ev.
    - intros s s' a a' x x' Hs Ha Hx s1 Ev Gs. cbn in Ev. destruct a; try discriminate Ev. cbn in Ha; subst a'.
      unfold s_store in Ev. cbn. unfold m_store. destruct (aligned z); [|discriminate Ev]. injection Ev as <-.
      split; [exact Gs|]. eexists; split; [reflexivity|]. apply Rm_sput; auto.
    - intros s s' a a' x x' _ _ _ s1 Ev. discriminate Ev.
    - intros s s' a a' x x' y y' w w' _ _ _ _ _ s1 Ev. discriminate Ev.
    - intros. apply s_static_sound; auto.
    - intros s a x s1 Ev Gs. cbn in Ev. destruct a; try discriminate Ev.
      unfold s_store in Ev. destruct (aligned z); [|discriminate Ev]. injection Ev as <-. exact Gs.
    - intros s a x s1 Ev. discriminate Ev.
    - intros s a x y w s1 Ev. discriminate Ev.
    - intros. eapply s_static_back; eauto.
  Qed.
End Sound.
