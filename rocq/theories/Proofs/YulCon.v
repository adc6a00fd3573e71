(** A machine that computes addresses and loop counters and leaves call data words, hashes and comparisons unevaluated, for the
    input-reading part of the verifier; and its soundness with respect to the EVM. *)
From Coq Require Import ZArith List String Bool Lia.
From Verif.Base Require Import Fld Fp EC Primes Curves Group.
From Verif.Model Require Import Monad Evm Points PairingSol Yul.
From Verif.Proofs Require Import YulSim.
Import ListNotations.
Open Scope Z_scope.

Inductive cv :=
| K (z : Z)           (** computed *)
| V (z : Z)           (** left as it is *)
| VK.                 (** the address of the verifying key *)
Definition cmem := list (Z * cv).
Fixpoint zlook (a : Z) (l : cmem) : option cv :=
  match l with [] => None | (b, v) :: l => if a =? b then Some v else zlook a l end.
Fixpoint zput (a : Z) (v : cv) (l : cmem) : cmem :=
  match l with [] => [(a, v)] | (b, w) :: l => if a =? b then (a, v) :: l else (b, w) :: zput a v l end.
Definition toz (v : cv) : option Z := match v with K z | V z => Some z | VK => None end.
Fixpoint zwords (m : cmem) (a : Z) (n : nat) : option (list Z) :=
  match n with
  | O => Some []
  | S n => match zlook a m with
           | Some v => match toz v, zwords m (a + 32) n with Some w, Some l => Some (w :: l) | _, _ => None end
           | None => None
           end
  end.
Fixpoint zputs (m : cmem) (a : Z) (l : list Z) : cmem :=
  match l with [] => m | w :: l => zputs (zput a (K w) m) (a + 32) l end.

Section Con.
  Variable vbin : binop -> Z -> Z -> Z.
  Variable vter : terop -> Z -> Z -> Z -> Z.
  Variable v8 : Z -> Z -> Z.
  Variable kec : list Z -> option (Z * Z) -> Z.
  Variable cdw : Z -> Z.
  Variable codew : list Z.
  Definition c_bin (o : binop) (a b : cv) : option cv :=
    match a, b with
    | K x, K y => Some (K (word_bin o x y))
    | K x, V y | V x, K y | V x, V y => Some (V (vbin o x y))
    | _, _ => None
    end.
  Definition c_ter (o : terop) (a b n : cv) : option cv :=
    match toz a, toz b, toz n with Some a, Some b, Some n => Some (V (vter o a b n)) | _, _, _ => None end.
  Definition c_keccak (m : cmem) (a len : cv) : option cv :=
    match a, len with
    | K a, K len =>
        if aligned a && (0 <=? len) then
          match zwords m a (Z.to_nat (len / 32)) with
          | Some ws =>
              if len mod 32 =? 0 then Some (V (kec ws None))
              else match zlook (a + 32 * (len / 32)) m with
                   | Some v => match toz v with Some w => Some (V (kec ws (Some (w, len mod 32)))) | None => None end
                   | None => None
                   end
          | None => None
          end
        else None
    | _, _ => None
    end.
  Definition CON : machine := {|
    val := cv; memory := cmem; num := K; bin := c_bin; ter := c_ter;
    isz := fun a => match a with K z => Some (K (if z =? 0 then 1 else 0)) | _ => None end;
    truth := fun a => match a with K z => Some (negb (z =? 0)) | _ => None end;
    mload := fun m a => match a with K a => if aligned a then zlook a m else None | _ => None end;
    mstore := fun m a v => match a with K a => if aligned a then Some (zput a v m) else None | _ => None end;
    mstore8 := fun m a v =>
      match a, v with
      | K a, K v => if aligned a then
                      match zlook a m with
                      | Some w => match toz w with Some w => Some (zput a (V (v8 v w)) m) | None => None end
                      | None => None
                      end
                    else None
      | _, _ => None
      end;
    cdload := fun a => match a with K a => if (a mod 32 =? 4) && (0 <=? a) then Some (V (cdw a)) else None | _ => None end;
    keccak_op := c_keccak;
    static := fun _ _ _ _ _ _ => None;
    extcodecopy := fun m ad d s l =>
      match ad, d, s, l with
      | VK, K d, K s, K l =>
          if aligned d && (s =? 0) && aligned l then
            Some (zputs m d (firstn (Z.to_nat (l / 32)) (codew ++ repeat 0 (Z.to_nat (l / 32)))))
          else None
      | _, _, _, _ => None
      end |}.
End Con.

Lemma zlook_zput a b v l : zlook b (zput a v l) = if b =? a then Some v else zlook b l.
Proof.
  induction l as [|[c w] l IH]; cbn; [reflexivity|].
  destruct (Z.eqb_spec a c) as [<-|H]; cbn.
  - destruct (b =? a); reflexivity.
  - rewrite IH. destruct (Z.eqb_spec b c) as [->|]; [|reflexivity].
    destruct (Z.eqb_spec c a); [congruence|reflexivity].
Qed.

(** the words and the hash as the EVM computes them *)
Definition e_v8 (v w : Z) : Z := (v mod 256) * 2 ^ 248 + w mod 2 ^ 248.
Definition e_kec (keccak : bytes -> Z) (ws : list Z) (o : option (Z * Z)) : Z :=
  keccak (flat_map word ws ++ match o with None => [] | Some (w, k) => firstn (Z.to_nat k) (word w) end).
Definition e_cdw (calldata : list Z) (a : Z) : Z := nth (Z.to_nat (a / 32)) calldata 0.

Section Sound.
  Variable keccak : bytes -> Z.
  Variable in_g2 : G2c -> bool.
  Variable pairing : list (G1 * G2c) -> bool.
  Variable calldata : list Z.
  Variable code : Z -> list Z.
  Variable codew : list Z.
  Variable cdw : Z -> Z.
  Hypothesis Hcdw : forall a, 0 <= a -> cdw a = e_cdw calldata a.
  Notation A := (CON word_bin word_ter e_v8 (e_kec keccak) cdw codew).
  Notation B := (EVM keccak in_g2 pairing calldata code).
  Definition crel (v : cv) (z : Z) : Prop := match v with K c | V c => z = c | VK => code z = codew end.
  Definition Rc (m : cmem) (m' : mem) : Prop := forall a v, zlook a m = Some v -> crel v (m' a).
  Lemma toz_rel v z w : crel v z -> toz v = Some w -> z = w.
  Proof. destruct v; cbn; intros H E; try discriminate; injection E as <-; exact H. Qed.
  Lemma Rc_zput m m' a v z : Rc m m' -> crel v z -> Rc (zput a v m) (upd m' a z).
  Proof.
    intros H Hv b w. rewrite zlook_zput. unfold upd. destruct (b =? a); [intros E; injection E as <-; exact Hv|apply H].
  Qed.
  Lemma Rc_zputs l : forall m m' a, Rc m m' -> Rc (zputs m a l) (store_words m' a l).
  Proof. induction l as [|w l IH]; intros m m' a H; cbn; [exact H|]. apply IH, Rc_zput; [exact H|reflexivity]. Qed.
  Lemma words_S m (a : Z) n : words_at m a (S n) = m a :: words_at m (a + 32) n.
  Proof.
    unfold words_at. cbn [seq map]. f_equal; [f_equal; lia|]. rewrite <- seq_shift, map_map. apply map_ext. intros i. f_equal. lia.
  Qed.
  Lemma zwords_rel m m' n : forall a l, Rc m m' -> zwords m a n = Some l -> words_at m' a n = l.
  Proof.
    induction n as [|n IH]; intros a l H E; cbn [zwords] in E; [injection E as <-; reflexivity|].
    destruct (zlook a m) as [v|] eqn:Ev; [|discriminate]. destruct (toz v) as [w|] eqn:Ew; [|discriminate].
    destruct (zwords m (a + 32) n) as [l1|] eqn:El; [|discriminate]. injection E as <-.
    rewrite words_S, (IH _ _ H El). f_equal. exact (toz_rel _ _ _ (H _ _ Ev) Ew).
  Qed.
  Theorem con_sound limit fs l e e' m m' e1 m1 : Re A B crel e e' -> Rc m m' -> run A limit fs e m l = Cont e1 m1 ->
    exists e1' m1', run B limit fs e' m' l = Cont e1' m1' /\ Re A B crel e1 e1' /\ Rc m1 m1'.
  Proof.
    intros He Hm E. refine (run_sim A B crel Rc (fun _ => True) _ _ _ _ _ _ _ _ _ _ _ _ _ _ _ _ limit fs l e e' m m' e1 m1 He Hm E I).
    - intros z. reflexivity.
    - intros o a b a' b' Ha Hb v Ev. cbn in *. eexists; split; [reflexivity|].
      destruct a, b; cbn in Ev; try discriminate; injection Ev as <-; cbn in *; subst; reflexivity.
    - intros o a b n a' b' n' Ha Hb Hn v Ev. cbn [ter CON EVM] in *. unfold c_ter in Ev. eexists; split; [reflexivity|].
      destruct (toz a) as [x|] eqn:E1; [|discriminate]. destruct (toz b) as [y|] eqn:E2; [|discriminate].
      destruct (toz n) as [k|] eqn:E3; [|discriminate]. injection Ev as <-. cbn [crel].
      rewrite (toz_rel _ _ _ Ha E1), (toz_rel _ _ _ Hb E2), (toz_rel _ _ _ Hn E3). reflexivity.
    - intros a a' Ha v Ev. destruct a; try discriminate Ev. injection Ev as <-. cbn in Ha; subst. eexists; split; reflexivity.
    - intros a a' b Ha Eb. destruct a; try discriminate Eb. cbn in Ha; subst. exact Eb.
    - intros s s' a a' Hs Ha v Ev. cbn in Ev. destruct a; try discriminate Ev. cbn in Ha; subst a'. cbn in Ev |- *.
      unfold m_load. destruct (aligned z); [|discriminate Ev]. eexists; split; [reflexivity|]. apply Hs, Ev.
    - intros a a' Ha v Ev. cbn in Ev. destruct a; try discriminate Ev. cbn in Ha; subst a'. cbn. unfold cd_load.
      destruct ((z mod 32 =? 4) && (0 <=? z)) eqn:Ez; [|discriminate Ev]. injection Ev as <-. eexists; split; [reflexivity|].
      apply andb_true_iff in Ez as [_ Ez]. apply Z.leb_le in Ez. symmetry. exact (Hcdw z Ez).
    - intros s s' a a' x x' Hs Ha Hx v Ev. cbn [keccak_op CON EVM] in *. unfold c_keccak in Ev.
      destruct a as [a| |]; try discriminate Ev. destruct x as [x| |]; try discriminate Ev. cbn in Ha, Hx; subst a' x'.
      unfold m_keccak. destruct (aligned a); [|discriminate Ev]. cbn [andb] in Ev. eexists; split; [reflexivity|].
      destruct (Z.leb_spec 0 x); [|discriminate Ev].
      destruct (zwords s a (Z.to_nat (x / 32))) as [ws|] eqn:Ew; [|discriminate Ev].
      unfold m_bytes. rewrite (zwords_rel _ _ _ _ _ Hs Ew). destruct (Z.eqb_spec (x mod 32) 0) as [E0|E0].
      + injection Ev as <-. cbn [crel]. unfold e_kec. rewrite E0. cbn. reflexivity.
      + destruct (zlook (a + 32 * (x / 32)) s) as [w|] eqn:E1; [|discriminate Ev].
        destruct (toz w) as [w'|] eqn:E2; [|discriminate Ev]. injection Ev as <-. cbn [crel]. unfold e_kec.
        rewrite (toz_rel _ _ _ (Hs _ _ E1) E2). reflexivity.
    - intros s s' a a' x x' Hs Ha Hx s1 Ev _. cbn in Ev. destruct a; try discriminate Ev. cbn in Ha; subst a'.
      cbn. unfold m_store. destruct (aligned z); [|discriminate Ev]. injection Ev as <-.
      split; [exact I|]. eexists; split; [reflexivity|]. apply Rc_zput; auto.
    - intros s s' a a' x x' Hs Ha Hx s1 Ev _. cbn [mstore8 CON EVM] in *. destruct a as [a| |]; try discriminate Ev.
      destruct x as [x| |]; try discriminate Ev. cbn in Ha, Hx; subst a' x'. unfold m_store8.
      destruct (aligned a); [|discriminate Ev]. destruct (zlook a s) as [w|] eqn:E1; [|discriminate Ev].
      destruct (toz w) as [w'|] eqn:E2; [|discriminate Ev]. injection Ev as <-. split; [exact I|].
      eexists; split; [reflexivity|]. apply Rc_zput; [exact Hs|]. cbn [crel]. unfold e_v8.
      rewrite (toz_rel _ _ _ (Hs _ _ E1) E2). reflexivity.
    - intros s s' a a' d d' x x' n n' Hs Ha Hd Hx Hn s1 Ev _. cbn [extcodecopy CON EVM] in *.
      destruct a; try discriminate Ev. destruct d as [d| |]; try discriminate Ev. destruct x as [x| |]; try discriminate Ev.
      destruct n as [n| |]; try discriminate Ev. cbn in Ha, Hd, Hx, Hn; subst d' x' n'. unfold m_extcodecopy.
      destruct (aligned d && (x =? 0) && aligned n); [|discriminate Ev]. injection Ev as <-. split; [exact I|].
      eexists; split; [reflexivity|]. rewrite Ha. apply Rc_zputs, Hs.
    - intros s s' a a' b b' c c' d d' x x' _ _ _ _ _ _ v s1 Ev. discriminate Ev.
    - intros s a x s1 _ _. exact I.
    - intros s a x s1 _ _. exact I.
    - intros s a x y w s1 _ _. exact I.
    - intros. exact I.
  Qed.
End Sound.
