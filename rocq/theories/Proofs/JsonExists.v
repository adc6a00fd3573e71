(** A text format satisfying [json_ok] exists. *)
From Coq Require Import ZArith String List Bool Lia Arith.
From Verif.Base Require Import Fld Fp EC Primes Curves Group.
From Verif.Model Require Import Monad Evm Strings Points HashEvm Dkg Lib Serialise Files Cache Client.
From Verif.Spec Require Import ClientSpec.
Import ListNotations.
Open Scope Z_scope.

Record tok (A : Type) := Tok { t_ : A -> list Z; u_ : list Z -> option (A * list Z); tu : forall a r, u_ (t_ a ++ r) = Some (a, r) }.
Arguments t_ {A} _ _.
Arguments u_ {A} _ _.
Arguments tu {A} _ _ _.
Program Definition tz : tok Z := Tok Z (fun z => [z]) (fun l => match l with z :: r => Some (z, r) | [] => None end) _.
Program Definition tbytes : tok bytes :=
  Tok bytes (fun b => zlen b :: b) (fun l => match l with n :: r => Some (firstn (Z.to_nat n) r, skipn (Z.to_nat n) r) | [] => None end) _.
Next Obligation. unfold zlen. rewrite Nat2Z.id, firstn_app, Nat.sub_diag, firstn_all, skipn_app, Nat.sub_diag, skipn_all. cbn. rewrite app_nil_r. reflexivity. Qed.
Program Definition tpair {A B} (x : tok A) (y : tok B) : tok (A * B) :=
  Tok (A * B) (fun p => t_ x (fst p) ++ t_ y (snd p)) (fun l => match u_ x l with Some (a, r) => match u_ y r with Some (b, r') => Some ((a, b), r') | None => None end | None => None end) _.
Next Obligation. rewrite <- app_assoc, tu, tu. reflexivity. Qed.
Fixpoint reads {A} (x : tok A) (n : nat) (l : list Z) : option (list A * list Z) :=
  match n with
  | O => Some ([], l)
  | S n' => match u_ x l with Some (a, r) => match reads x n' r with Some (as_, r') => Some (a :: as_, r') | None => None end | None => None end
  end.
Program Definition tlist {A} (x : tok A) : tok (list A) :=
  Tok (list A) (fun l => zlen l :: flat_map (t_ x) l) (fun l => match l with n :: r => reads x (Z.to_nat n) r | [] => None end) _.
Next Obligation.
  unfold zlen. rewrite Nat2Z.id. induction a as [|b a IH]; [reflexivity|]. cbn [length reads flat_map]. rewrite <- app_assoc, tu, IH. reflexivity.
Qed.
Program Definition tiso {A B} (f : B -> A) (g : A -> B) (H : forall b, g (f b) = b) (x : tok A) : tok B :=
  Tok B (fun b => t_ x (f b)) (fun l => match u_ x l with Some (a, r) => Some (g a, r) | None => None end) _.
Next Obligation. rewrite tu, H. reflexivity. Qed.

Definition cod {A} (x : tok A) : codec A :=
  Codec A (fun a => zlen (t_ x a) :: t_ x a)
    (fun l => match l with n :: r => if zlen r =? n then match u_ x r with Some (a, []) => Ok a | _ => Err "parse error" end else Err "parse error" | [] => Err "parse error" end).
Lemma cod_ok {A} (x : tok A) : codec_ok (cod x).
Proof.
  split.
  - intros a. cbn [dec enc cod]. rewrite Z.eqb_refl. pose proof (tu x a []) as E. rewrite app_nil_r in E. rewrite E. reflexivity.
  - intros a j y L. cbn [dec enc cod] in *. destruct j as [|j]; [discriminate|]. cbn [firstn length] in *. rewrite (proj2 (Z.eqb_neq _ _)); [discriminate|].
    unfold zlen. rewrite firstn_length. lia.
Qed.

Definition tpoint : tok s_point := tiso (fun p => (s_x p, s_y p)) (fun p => SPoint (fst p) (snd p)) ltac:(intros []; reflexivity) (tpair tbytes tbytes).
Definition tpoint2 : tok s_point2 := tiso (fun p => (s_x0 p, (s_x1 p, (s_y0 p, s_y1 p)))) (fun p => SPoint2 (fst p) (fst (snd p)) (fst (snd (snd p))) (snd (snd (snd p)))) ltac:(intros []; reflexivity) (tpair tbytes (tpair tbytes (tpair tbytes tbytes))).
Definition tmember : tok s_member := tiso (fun p => (sm_sk p, sm_pk p)) (fun p => SMember (fst p) (snd p)) ltac:(intros []; reflexivity) (tpair tbytes tpoint).
Definition tshare : tok s_share := tiso (fun p => (ss_index p, (ss_sk p, ss_vk p))) (fun p => SShare (fst p) (fst (snd p)) (snd (snd p))) ltac:(intros []; reflexivity) (tpair tz (tpair tbytes tpoint)).
Definition teval : tok s_eval := tiso (fun p => (se_index p, (se_value p, (se_z p, se_c p)))) (fun p => SEval (fst p) (fst (snd p)) (fst (snd (snd p))) (snd (snd (snd p)))) ltac:(intros []; reflexivity) (tpair tz (tpair tpoint (tpair tbytes tbytes))).
Definition trandom : tok s_random := tiso (fun p => (sr_proof p, sr_value p)) (fun p => SRandom (fst p) (snd p)) ltac:(intros []; reflexivity) (tpair tpoint tbytes).
Definition tpp : tok s_pp := tiso (fun p => (sp_shares p, (sp_ciphers p, (sp_gr p, (sp_ga p, sp_g2a p)))))
  (fun p => SPP (fst p) (fst (snd p)) (fst (snd (snd p))) (fst (snd (snd (snd p)))) (snd (snd (snd (snd p))))) ltac:(intros []; reflexivity)
  (tpair (tlist tpoint) (tpair (tlist tbytes) (tpair tpoint (tpair tpoint tpoint2)))).
Definition tconfig : tok config := tiso (fun c => (threshold c, number_of_members c)) (fun p => mkConfig (fst p) (snd p)) ltac:(intros []; reflexivity) (tpair tz tz).
Definition tparams : tok s_params := tiso (fun p => (sd_config p, (sd_coeffs p, (sd_shares p, (sd_r p, (sd_public_keys p, sd_public_params p))))))
  (fun p => SParams (fst p) (fst (snd p)) (fst (snd (snd p))) (fst (snd (snd (snd p)))) (fst (snd (snd (snd (snd p))))) (snd (snd (snd (snd (snd p)))))) ltac:(intros []; reflexivity)
  (tpair tconfig (tpair (tlist tbytes) (tpair (tlist tbytes) (tpair tbytes (tpair (tlist tpoint) tpp))))).
Definition tgpp : tok s_gpp := tiso (fun p => (sg_ga p, (sg_g2a p, sg_vks p))) (fun p => SGpp (fst p) (fst (snd p)) (snd (snd p))) ltac:(intros []; reflexivity) (tpair tpoint (tpair tpoint2 (tlist tpoint))).

Definition some_json : json := Json (cod (tlist tpoint)) (cod tpoint2) (cod tmember) (cod tshare) (cod teval) (cod (tlist teval)) (cod trandom)
  (cod (tlist tbytes)) (cod (tlist (tlist tbytes))) (cod tparams) (cod (tlist tpp)) (cod tgpp).
Theorem some_json_ok : json_ok some_json.
Proof. constructor; apply cod_ok. Qed.
