(** Pocklington primality certificates (mathematics, no code modelled here). *)
From Coq Require Import ZArith Znumtheory Zpow_facts List Lia Bool.
From Verif.Base Require Import Fermat Bignum.
Import ListNotations.
Open Scope Z_scope.

(** square-and-multiply modulo m *)
Fixpoint powm (a : Z) (e : positive) (m : Z) : Z :=
  match e with
  | xH => a mod m
  | xO e' => let t := powm a e' m in (t * t) mod m
  | xI e' => let t := powm a e' m in ((t * t) mod m * a) mod m
  end.

Lemma powm_spec a e m : powm a e m = (a ^ Z.pos e) mod m.
Proof.
  induction e as [e IH|e IH|]; cbn [powm].
  - cbv zeta. rewrite IH, mod_mul_l.
    rewrite <- Z.mul_assoc, mod_mul_l, Z.mul_assoc, (Z.mul_comm (a ^ Z.pos e)), <- Z.mul_assoc, mod_mul_l.
    f_equal. replace (Z.pos e~1) with (Z.pos e + Z.pos e + 1) by lia.
    rewrite !Z.pow_add_r, Z.pow_1_r by lia. ring.
  - cbv zeta. rewrite IH, mod_mul_l, mod_mul_r. f_equal.
    replace (Z.pos e~0) with (Z.pos e + Z.pos e) by lia. rewrite Z.pow_add_r by lia. ring.
  - rewrite Z.pow_1_r; auto.
Qed.

Lemma pow_eq1_mult a p u v : 1 < p -> 0 <= u -> 0 <= v -> a ^ u mod p = 1 -> a ^ (u * v) mod p = 1.
Proof.
  intros Hp Hu Hv H. rewrite Z.pow_mul_r by auto.
  rewrite Zpower_mod, H, Z.pow_1_l, Z.mod_1_l by lia. auto.
Qed.

Lemma pow_gcd a p u v : prime p -> 0 < u -> 0 < v ->
  a ^ u mod p = 1 -> a ^ v mod p = 1 -> a ^ (Z.gcd u v) mod p = 1.
Proof.
  intros Hp Hu Hv H1 H2. pose proof Hp as [Hp1 _].
  destruct (Z.gcd_bezout u v _ eq_refl) as [x [y E]].
  set (d := Z.gcd u v) in *.
  assert (0 <= d) by apply Z.gcd_nonneg.
  (* choose k large so that both coefficients have known sign: x + k v >= 0, y - k u <= 0 *)
  set (k := Z.abs x + Z.abs y).
  assert (Hx : 0 <= x + k * v) by (unfold k; nia).
  assert (Hy : 0 <= k * u - y) by (unfold k; nia).
  assert (E2 : u * (x + k * v) = d + v * (k * u - y)) by nia.
  pose proof (pow_eq1_mult a p u (x + k * v) Hp1 ltac:(lia) Hx H1) as A1.
  rewrite E2, Z.pow_add_r in A1 by nia.
  pose proof (pow_eq1_mult a p v (k * u - y) Hp1 ltac:(lia) Hy H2) as A2.
  rewrite <- mod_mul_r, A2, Z.mul_1_r in A1. exact A1.
Qed.

Lemma prime_pow_dvd_quot d M f e : prime f -> 0 <= e -> 0 < M -> (d | M) -> (f ^ e | M) -> ~ (f ^ e | d) ->
  (d | M / f).
Proof.
  intros Hf He HM [k Hk] Hfe Hnd.
  assert (Hfk : (f | k)).
  { destruct (Zdivide_dec f k) as [Y|N]; auto. exfalso. apply Hnd.
    apply Gauss with k.
    - rewrite <- Hk. exact Hfe.
    - apply rel_prime_sym. apply rel_prime_Zpower_r; auto.
      apply rel_prime_sym. apply prime_rel_prime; auto. }
  destruct Hfk as [k' Hk']. exists k'.
  subst k. rewrite Hk. replace (k' * f * d) with (k' * d * f) by ring.
  rewrite Z.div_mul; auto. destruct Hf; lia.
Qed.

Lemma pocklington_step N p f e a : prime p -> (p | N) -> 1 < N -> prime f -> 0 <= e -> (f ^ e | N - 1) -> (f | N - 1) ->
  a ^ (N - 1) mod N = 1 -> Z.gcd (a ^ ((N - 1) / f) - 1) N = 1 -> (f ^ e | p - 1).
Proof.
  intros Hp HpN HN Hf He Hfe HfN Ha Hg.
  pose proof Hp as [Hp1 _]. pose proof Hf as [Hf1 _].
  assert (Hap : a ^ (N - 1) mod p = 1).
  { destruct HpN as [k Hk].
    rewrite (Zmod_div_mod p N (a ^ (N - 1))) by (try lia; exists k; auto).
    rewrite Ha, Z.mod_1_l; lia. }
  assert (Hna : ~ (p | a)).
  { intros D. assert (D2 : (p | a ^ (N - 1))).
    { replace (N - 1) with (Z.succ (N - 2)) by lia.
      rewrite Z.pow_succ_r by lia. apply Z.divide_mul_l; auto. }
    apply Z.mod_divide in D2; lia. }
  pose proof (fermat p a Hp Hna) as Hfer.
  pose proof (pow_gcd a p (N - 1) (p - 1) Hp ltac:(lia) ltac:(lia) Hap Hfer) as Hd.
  destruct (Zdivide_dec (f ^ e) (Z.gcd (N - 1) (p - 1))) as [Y|No].
  - eapply Z.divide_trans; [exact Y | apply Z.gcd_divide_r].
  - exfalso.
    pose proof (prime_pow_dvd_quot (Z.gcd (N - 1) (p - 1)) (N - 1) f e Hf He ltac:(lia)
                  (Z.gcd_divide_l _ _) Hfe No) as [k Hk].
    assert (0 < Z.gcd (N - 1) (p - 1)).
    { pose proof (Z.gcd_nonneg (N - 1) (p - 1)).
      assert (Z.gcd (N - 1) (p - 1) <> 0) by (intros E0; apply Z.gcd_eq_0_l in E0; lia). lia. }
    assert (0 <= (N - 1) / f) by (apply Z.div_pos; lia).
    assert (0 <= k) by nia.
    assert (Hq1 : a ^ ((N - 1) / f) mod p = 1).
    { rewrite Hk, Z.mul_comm. apply pow_eq1_mult; auto; lia. }
    assert (D : (p | 1)).
    { rewrite <- Hg. apply Z.gcd_greatest; auto.
      apply Z.mod_divide; [lia|]. rewrite Zminus_mod, Hq1, Z.mod_1_l by lia. reflexivity. }
    destruct D as [j Hj]. assert (0 < j) by nia. nia.
Qed.

(** Square-and-multiply with certificates: each step (b, k, t') claims t*t*(b ? a : 1) = k*m + t'. *)
Fixpoint pw (a m : Z) (e : positive) (t : Z) (l : list (bool * Z * Z)) : option (positive * Z) :=
  match l with
  | [] => Some (e, t)
  | (b, k, t') :: l' =>
    if (if b : bool then zmulw (zmulw t t) a else zmulw t t) =? zmulw k m + t'
    then pw a m (if b then xI e else xO e) t' l' else None
  end.
Lemma pw_ok a m : forall l e t e' t', pw a m e t l = Some (e', t') -> t mod m = a ^ Z.pos e mod m -> t' mod m = a ^ Z.pos e' mod m.
Proof.
  induction l as [|[[b k] t1] l IH]; cbn [pw]; intros e t e' t' H E.
  - inversion H; subst; auto.
  - destruct (_ =? _) eqn:Q in H; [|discriminate]. apply Z.eqb_eq in Q. apply (IH _ _ _ _ H). clear IH H.
    assert (E2 : (t * t) mod m = (a ^ Z.pos e * a ^ Z.pos e) mod m).
    { rewrite <- (mod_mul_l t t), <- (mod_mul_r _ t), E. rewrite mod_mul_l, mod_mul_r. auto. }
    assert (Hm : t1 mod m = ((if b then t * t * a else t * t) mod m)).
    { destruct b; rewrite !zmulw_ok in Q; rewrite Q, Z.add_comm, Z_mod_plus_full; auto. }
    rewrite Hm. destruct b.
    + rewrite <- mod_mul_l, E2, mod_mul_l. f_equal.
      replace (Z.pos e~1) with (Z.pos e + Z.pos e + 1) by lia. rewrite !Z.pow_add_r, Z.pow_1_r by lia. ring.
    + rewrite E2. f_equal. replace (Z.pos e~0) with (Z.pos e + Z.pos e) by lia. rewrite Z.pow_add_r by lia. ring.
Qed.

(** A certificate line: N, and for each used prime power f^e of N-1 a witness a with the steps of a^((N-1)/f) and of its f-th power. *)
Definition wit := (Z * list (bool * Z * Z) * list (bool * Z * Z))%type.
Definition cert := (Z * list (Z * Z * wit))%type.

Definition fprod (l : list (Z * Z * wit)) : Z := fold_right (fun '(f, e, _) acc => f ^ e * acc) 1 l.

Definition check_factor (N : Z) (t : Z * Z * wit) : bool :=
  let '(f, e, (a, h1, h2)) := t in
  match pw a N 1 a h1 with
  | Some (k, b) =>
    match pw b N 1 b h2 with
    | Some (f', c) => (0 <? e) && ((N - 1) mod (f ^ e) =? 0) && (Z.pos f' =? f) && (zmulw (Z.pos k) f =? N - 1) && (c =? 1) && (Z.gcd (b - 1) N =? 1)
    | None => false
    end
  | None => false
  end.

Lemma check_factor_ok N f e w : 1 < N -> check_factor N (f, e, w) = true ->
  0 < f /\ 0 < e /\ (N - 1) mod (f ^ e) = 0 /\ exists a, a ^ (N - 1) mod N = 1 /\ Z.gcd (a ^ ((N - 1) / f) - 1) N = 1.
Proof.
  intros HN. destruct w as [[a h1] h2]. unfold check_factor.
  destruct (pw a N 1 a h1) as [[k b]|] eqn:E1; [|discriminate].
  destruct (pw b N 1 b h2) as [[f' c]|] eqn:E2; [|discriminate].
  intros H. apply andb_prop in H as [H H6]. apply andb_prop in H as [H H5]. apply andb_prop in H as [H H4].
  apply andb_prop in H as [H H3]. apply andb_prop in H as [H1 H2].
  apply Z.ltb_lt in H1. apply Z.eqb_eq in H2, H3, H4, H5, H6. rewrite zmulw_ok in H4. subst f.
  apply pw_ok in E1; [|rewrite Z.pow_1_r; auto]. apply pw_ok in E2; [|rewrite Z.pow_1_r; auto].
  split; [lia|]. split; [auto|]. split; [auto|]. exists a.
  replace ((N - 1) / Z.pos f') with (Z.pos k) by (rewrite <- H4, Z.div_mul; lia). split.
  - rewrite <- H4, Z.pow_mul_r, Zpower_mod, <- E1, <- Zpower_mod, <- E2, H5, Z.mod_1_l by lia. auto.
  - etransitivity; [|exact H6].
    rewrite (Z.gcd_comm (a ^ Z.pos k - 1)), (Z.gcd_comm (b - 1)).
    rewrite <- (Z.gcd_mod (a ^ Z.pos k - 1)), <- (Z.gcd_mod (b - 1)) by lia.
    f_equal. rewrite (Zminus_mod (a ^ Z.pos k)), <- E1, <- Zminus_mod; auto.
Qed.

Fixpoint distinct_fst (l : list (Z * Z * wit)) : bool :=
  match l with
  | [] => true
  | (f, _, _) :: t => forallb (fun '(g, _, _) => negb (f =? g)) t && distinct_fst t
  end.

Definition check_cert (known : list Z) (c : cert) : bool :=
  let '(N, l) := c in
  (1 <? N) && distinct_fst l
  && forallb (fun '(f, _, _) => existsb (Z.eqb f) known) l
  && forallb (check_factor N) l
  && (N <? (fprod l + 1) ^ 2).

Fixpoint check_certs (known : list Z) (cs : list cert) : bool :=
  match cs with
  | [] => true
  | c :: t => check_cert known c && check_certs (fst c :: known) t
  end.

Lemma coprime_pow_mul_dvd f e m n : prime f -> 0 <= e -> ~ (f | m) -> (f ^ e | n) -> (m | n) -> (f ^ e * m | n).
Proof.
  intros Hf He Hnd H1 [k Hk].
  assert (Hrp : rel_prime (f ^ e) m).
  { apply rel_prime_sym, rel_prime_Zpower_r; auto. apply rel_prime_sym, prime_rel_prime; auto. }
  assert ((f ^ e | k)).
  { apply Gauss with m; auto. rewrite Z.mul_comm, <- Hk; auto. }
  destruct H as [j Hj]. exists j. rewrite Hk, Hj. ring.
Qed.

Lemma prime_ndvd_fprod f l : prime f -> (forall g e a, In (g, e, a) l -> prime g /\ 0 <= e) ->
  forallb (fun '(g, _, _) => negb (f =? g)) l = true -> ~ (f | fprod l).
Proof.
  intros Hf; pose proof Hf as [Hf1 _].
  induction l as [|[[g e] a] l IH]; cbn [fprod fold_right forallb]; intros Hl Hb D.
  - destruct D as [k Hk]. assert (0 < k) by nia. nia.
  - apply andb_prop in Hb as [Hb1 Hb2]. apply negb_true_iff, Z.eqb_neq in Hb1.
    destruct (Hl g e a (or_introl eq_refl)) as [Hg He].
    apply prime_mult in D; auto. destruct D as [D|D].
    + apply prime_power_prime in D; auto.
    + apply IH; auto. intros; apply (Hl g0 e0 a0); right; auto.
Qed.

Lemma fprod_dvd N p l : prime p -> (p | N) -> 1 < N ->
  (forall f e a, In (f, e, a) l -> prime f) -> distinct_fst l = true ->
  forallb (check_factor N) l = true -> (fprod l | p - 1).
Proof.
  intros Hp HpN HN.
  induction l as [|[[f e] a] l IH]; cbn [fprod fold_right forallb distinct_fst]; intros Hl Hd Hc.
  - exists (p - 1); ring.
  - apply andb_prop in Hd as [Hd1 Hd2]. apply andb_prop in Hc as [Hc1 Hc2].
    assert (Hf : prime f) by (apply (Hl f e a); left; auto).
    pose proof Hf as [Hf1 _].
    fold (fprod l).
    apply check_factor_ok in Hc1 as [H0 [H1 [H2 [w [H3 H4]]]]]; auto.
    apply coprime_pow_mul_dvd; auto; try lia.
    + apply prime_ndvd_fprod; auto. intros g e' a' Hin; split.
      * apply (Hl g e' a'); right; auto.
      * rewrite forallb_forall in Hc2. specialize (Hc2 _ Hin). apply check_factor_ok in Hc2 as [_ [Hc2 _]]; auto; lia.
    + assert (Hdiv : (f ^ e | N - 1)) by (apply Z.mod_divide; [nia | auto]).
      assert (HdivF : (f | N - 1)).
      { eapply Z.divide_trans; [|exact Hdiv]. replace e with (Z.succ (e - 1)) by lia.
        rewrite Z.pow_succ_r by lia. exists (f ^ (e - 1)); ring. }
      apply (pocklington_step N p f e w); auto; lia.
    + apply IH; auto. intros g e' a' Hin; apply (Hl g e' a'); right; auto.
Qed.

Lemma prime_divisor_exists n : 1 < n -> exists p, prime p /\ (p | n) /\ (p = n \/ p * p <= n).
Proof.
  intros Hn.
  assert (G : forall m, 0 <= m -> 1 < m -> exists p, prime p /\ (p | m)).
  { intros m Hm0. pattern m. apply Z_lt_induction; auto. clear m Hm0. intros m IH Hm.
    destruct (prime_dec m) as [Hp|Hnp]; [exists m; split; auto; apply Z.divide_refl|].
    apply not_prime_divide in Hnp; auto. destruct Hnp as [d [Hd Hdm]].
    destruct (IH d ltac:(lia) ltac:(lia)) as [p [Hp Hpd]].
    exists p; split; auto. eapply Z.divide_trans; eauto. }
  destruct (prime_dec n) as [Hp|Hnp].
  - exists n; split; auto; split; [apply Z.divide_refl|auto].
  - apply not_prime_divide in Hnp; auto. destruct Hnp as [d [Hd [k Hk]]].
    destruct (Z_le_dec d k) as [Hle|Hgt].
    + destruct (G d ltac:(lia) ltac:(lia)) as [p [Hp Hpd]].
      exists p; split; auto. pose proof Hp as [Hp1 _]. assert (p <= d) by (apply Z.divide_pos_le; auto; lia).
      split; [eapply Z.divide_trans; [exact Hpd|exists k; auto]|]. right. nia.
    + assert (1 < k) by nia.
      destruct (G k ltac:(lia) ltac:(lia)) as [p [Hp Hpd]].
      exists p; split; auto. pose proof Hp as [Hp1 _]. assert (p <= k) by (apply Z.divide_pos_le; auto; lia).
      split; [eapply Z.divide_trans; [exact Hpd|exists d; rewrite Hk; ring]|]. right. nia.
Qed.

Lemma fprod_pos l : (forall f e a, In (f, e, a) l -> prime f) -> forall N, 1 < N -> forallb (check_factor N) l = true -> 0 < fprod l.
Proof.
  intros Hl N HN Hc. induction l as [|[[f e] a] l IH]; cbn [fprod fold_right]; [lia|].
  fold (fprod l). cbn in Hc. apply andb_prop in Hc as [Hc1 Hc2].
  assert (0 < fprod l) by (apply IH; auto; intros g e' a' Hin; apply (Hl g e' a'); right; auto).
  assert (Hf : prime f) by (apply (Hl f e a); left; auto). destruct Hf as [Hf1 _].
  assert (0 <= e).
  { apply check_factor_ok in Hc1 as [_ [Hc1 _]]; auto; lia. }
  assert (0 < f ^ e) by (apply Z.pow_pos_nonneg; lia). nia.
Qed.

Lemma check_cert_prime known c : (forall x, In x known -> prime x) -> check_cert known c = true -> prime (fst c).
Proof.
  destruct c as [N l]; unfold check_cert; cbn [fst]; intros Hk H.
  apply andb_prop in H as [H H5]. apply andb_prop in H as [H H4]. apply andb_prop in H as [H H3].
  apply andb_prop in H as [H1 H2]. apply Z.ltb_lt in H1, H5.
  assert (Hl : forall f e a, In (f, e, a) l -> prime f).
  { intros f e a Hin. rewrite forallb_forall in H3. specialize (H3 _ Hin). cbn in H3.
    apply existsb_exists in H3 as [x [Hx E]]. apply Z.eqb_eq in E; subst; auto. }
  destruct (prime_divisor_exists N H1) as [p [Hp [HpN [->|Hle]]]]; auto.
  exfalso. pose proof (fprod_dvd N p l Hp HpN H1 Hl H2 H4) as D.
  pose proof (fprod_pos l Hl N H1 H4). pose proof Hp as [Hp1 _].
  apply Z.divide_pos_le in D; [|lia].
  rewrite Z.pow_2_r in H5. nia.
Qed.

Theorem check_certs_prime cs : forall known, (forall x, In x known -> prime x) -> check_certs known cs = true ->
  forall c, In c cs -> prime (fst c).
Proof.
  induction cs as [|c cs IH]; cbn [check_certs]; intros known Hk H c' Hin; [contradiction|].
  apply andb_prop in H as [H1 H2].
  assert (Hc : prime (fst c)) by (eapply check_cert_prime; eauto).
  destruct Hin as [<-|Hin]; auto.
  apply (IH (fst c :: known)); auto. intros x [<-|Hx]; auto.
Qed.
