(** bin/serialise.rs: hexadecimal strings and the records written to JSON files.  A string is the list of its (UTF-8)
    bytes.  serde_json itself (struct <-> text) is a dependency and appears in Model/Client.v as a codec parameter. *)
From Coq Require Import ZArith String List Bool.
From Verif.Base Require Import Fld Fp EC Primes Curves Group.
From Verif.Model Require Import Monad Evm Strings Points HashEvm Dkg Lib.
Import ListNotations.
Open Scope string_scope.
Open Scope list_scope.
Open Scope Z_scope.

(** hex::encode (crate hex, a dependency): two lower-case digits per byte *)
Definition hex_digit (d : Z) : Z := if d <? 10 then 48 + d else 87 + d.
Definition hex_encode (b : bytes) : bytes := flat_map (fun x => [hex_digit (x / 16); hex_digit (x mod 16)]) b.
(** String::to_lowercase on ASCII *)
Definition to_lowercase (s : bytes) : bytes := map (fun c => if (65 <=? c) && (c <=? 90) then c + 32 else c) s.
(** hex::decode: pairs of digits of either case; an odd length or another character is an error *)
Definition hex_val (c : Z) : option Z :=
  if (48 <=? c) && (c <=? 57) then Some (c - 48)
  else if (97 <=? c) && (c <=? 102) then Some (c - 87)
  else if (65 <=? c) && (c <=? 70) then Some (c - 55) else None.
Fixpoint hex_decode (s : bytes) : option bytes :=
  match s with
  | [] => Some []
  | [_] => None
  | a :: b :: r =>
      match hex_val a, hex_val b, hex_decode r with
      | Some x, Some y, Some l => Some (16 * x + y :: l)
      | _, _, _ => None
      end
  end.

(** Option::expect *)
Definition expect {A} (o : option A) (msg : string) : res A := match o with Some a => Ok a | None => Panic msg end.

(** serialise.rs:15-20 *)
Definition le_bytes_to_hex (b : bytes) : bytes := [48; 120] ++ to_lowercase (hex_encode (rev b)).
(** serialise.rs:22-34; [s.starts_with("0x")] *)
Definition trim_0x (s : bytes) : bytes := match s with 48 :: 120 :: r => r | _ => s end.
Definition hex_to_le_bytes (s : bytes) : res bytes :=
  let* b := expect (hex_decode (trim_0x s)) "failed to decode hex to bytes" in
  let* _ := assert (Nat.leb (length b) 32) "assertion failed: len <= 32" in
  Ok (rev (repeat 0 (32 - length b) ++ b)).

(** Fr::from_bytes / Fq::from_bytes (halo2curves): the little-endian value, if smaller than the modulus *)
Definition of_le (b : bytes) : Z := of_be (rev b).
Definition from_bytes (p : Z) (b : bytes) : option (Fp p) := if of_le b <? p then Some (of_Z p (of_le b)) else None.

(** the two idioms of the file: [le_bytes_to_hex(x.to_bytes())] and [F::from_bytes(&hex_to_le_bytes(s)).expect(..)] *)
Definition write_field {p} (x : Fp p) : bytes := le_bytes_to_hex (to_bytes x).
Definition read_field (p : Z) (s : bytes) : res (Fp p) :=
  let* b := hex_to_le_bytes s in expect (from_bytes p b) "failed to deserialise field element".
Definition write_fr (x : Fr) : bytes := write_field (x : Fp r_mod).
Definition write_fq (x : Fq) : bytes := write_field (x : Fp q_mod).
Definition read_fr (s : bytes) : res Fr := read_field r_mod s.
Definition read_fq (s : bytes) : res Fq := read_field q_mod s.

(** serialise.rs:36-40 *)
Record s_point := SPoint { s_x : bytes; s_y : bytes }.
(** serialise.rs:48-54 *)
Definition of_gk (P : Gk) : s_point := SPoint (write_fr (fst (xy P))) (write_fr (snd (xy P))).
(** serialise.rs:62-68 *)
Definition of_g1 (P : G1) : s_point := SPoint (write_fq (fst (xy P))) (write_fq (snd (xy P))).
(** serialise.rs:76-84 *)
Definition to_gk (p : s_point) : res Gk :=
  let* x := read_fr (s_x p) in let* y := read_fr (s_y p) in expect (gk_from_xy x y) "invalid Grumpkin point".
(** serialise.rs:92-100 *)
Definition to_g1 (p : s_point) : res G1 :=
  let* x := read_fq (s_x p) in let* y := read_fq (s_y p) in expect (g1_from_xy x y) "invalid Bn256 G1 point".

(** serialise.rs:102-106 *)
Record s_point2 := SPoint2 { s_x0 : bytes; s_x1 : bytes; s_y0 : bytes; s_y1 : bytes }.
(** serialise.rs:114-124 *)
Definition of_g2 (P : G2c) : s_point2 :=
  let '(x, y) := xy P in SPoint2 (write_fq (fst x)) (write_fq (snd x)) (write_fq (fst y)) (write_fq (snd y)).
(** serialise.rs:132-150 *)
Definition to_g2 (p : s_point2) : res G2c :=
  let* x0 := read_fq (s_x0 p) in let* x1 := read_fq (s_x1 p) in
  let* y0 := read_fq (s_y0 p) in let* y1 := read_fq (s_y1 p) in
  expect (g2_from_xy (x0, x1) (y0, y1)) "invalid Bn256 G2 point".

(** serialise.rs:152-156, 164-170, 178-189 *)
Record s_member := SMember { sm_sk : bytes; sm_pk : s_point }.
Definition of_member (k : member_key) : s_member := SMember (write_fq (mk_sk k)) (of_gk (mk_pk k)).
Definition to_member (m : s_member) : res member_key :=
  let* sk_ := read_fq (sm_sk m) in
  let* pk := to_gk (sm_pk m) in
  let* _ := assert (geqb pk (gkmul gk sk_)) "assertion failed: pk == p" in
  Ok (mkMemberKey sk_ pk).

(** serialise.rs:191-199, 207-224, 232-252 *)
Record s_pp := SPP { sp_shares : list s_point; sp_ciphers : list bytes; sp_gr : s_point; sp_ga : s_point; sp_g2a : s_point2 }.
Definition of_pp (pp : member_pp) : s_pp :=
  SPP (map of_g1 (public_shares pp)) (map write_fr (ciphers pp)) (of_gk (gr pp)) (of_g1 (ga pp)) (of_g2 (g2a pp)).
Definition to_pp (s : s_pp) : res member_pp :=
  let* shares_ := mapM to_g1 (sp_shares s) in
  let* cs := mapM read_fr (sp_ciphers s) in
  let* gr_ := to_gk (sp_gr s) in let* ga_ := to_g1 (sp_ga s) in let* g2a_ := to_g2 (sp_g2a s) in
  Ok (mkPP shares_ cs gr_ ga_ g2a_).

(** serialise.rs:254-262, 270-294, 302-336 *)
Record s_params := SParams { sd_config : config; sd_coeffs : list bytes; sd_shares : list bytes; sd_r : bytes;
                             sd_public_keys : list s_point; sd_public_params : s_pp }.
Definition of_params (mp : member_params) : s_params :=
  SParams (mp_config mp) (map write_fr (mp_coeffs mp)) (map write_fr (mp_shares mp)) (write_fr (mp_r mp))
          (map of_gk (mp_public_keys mp)) (of_pp (mp_public_params mp)).
Definition to_params (s : s_params) : res member_params :=
  let* cs := mapM read_fr (sd_coeffs s) in let* sh := mapM read_fr (sd_shares s) in
  let* r_ := read_fr (sd_r s) in let* pks := mapM to_gk (sd_public_keys s) in let* pp := to_pp (sd_public_params s) in
  Ok (mkMP (sd_config s) cs sh r_ pks pp).

(** serialise.rs:338-343, 351-361, 369-379 *)
Record s_gpp := SGpp { sg_ga : s_point; sg_g2a : s_point2; sg_vks : list s_point }.
Definition of_gpp (g : global_pp) : s_gpp := SGpp (of_g1 (g_ga g)) (of_g2 (g_g2a g)) (map of_g1 (verify_keys g)).
Definition to_gpp (s : s_gpp) : res global_pp :=
  let* vks := mapM to_g1 (sg_vks s) in let* ga_ := to_g1 (sg_ga s) in let* g2a_ := to_g2 (sg_g2a s) in
  Ok (mkGPP ga_ g2a_ vks).

(** serialise.rs:381-386, 394-404, 412-423 *)
Record s_share := SShare { ss_index : Z; ss_sk : bytes; ss_vk : s_point }.
Definition of_share (k : share_key) : s_share := SShare (index k) (write_fr (sk k)) (of_g1 (vk k)).
Definition to_share (s : s_share) : res share_key :=
  let* sk_ := read_fr (ss_sk s) in
  let* vk_ := to_g1 (ss_vk s) in
  let* _ := assert (geqb vk_ (g1mul g1 sk_)) "assertion failed: vk == p" in
  Ok (mkShareKey (ss_index s) sk_ vk_).

(** serialise.rs:425-468, 437-444, 452-461, 476-486, 494-504 (the nested PartialEvalProof record is flattened) *)
Record s_eval := SEval { se_index : Z; se_value : s_point; se_z : bytes; se_c : bytes }.
Definition of_eval (e : partial_eval) : s_eval :=
  SEval (pe_index e) (of_g1 (pe_value e)) (write_fr (pe_z e)) (write_fr (pe_c e)).
Definition to_eval (s : s_eval) : res partial_eval :=
  let* value := to_g1 (se_value s) in let* z := read_fr (se_z s) in let* c := read_fr (se_c s) in
  Ok (mkPartialEval (se_index s) value z c).

(** serialise.rs:506-510, 518-526, 534-543 *)
Record s_random := SRandom { sr_proof : s_point; sr_value : bytes }.
Definition of_random (p : pseudo_random) : s_random := SRandom (of_g1 (pr_proof p)) (pr_value p).
Definition to_random (s : s_random) : res pseudo_random :=
  let* proof := to_g1 (sr_proof s) in Ok (mkPseudoRandom proof (sr_value s)).
