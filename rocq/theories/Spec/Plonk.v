(** What contracts/Halo2Verifier.sol is meant to check, written independently of its code: the constraints of the circuit at one
    point (main gate, Poseidon gates, permutation and lookup arguments), the challenges drawn from the transcript, and the
    SHPLONK opening equation.  Reference: the halo2 book and halo2_proofs (dev of the version the generator was built with);
    nothing here mentions memory, call data or the EVM. *)
From Coq Require Import ZArith NArith List Bool Arith.
From Verif.Base Require Import Fld Group.
Import ListNotations.

(** ** Columns, rotations, and the openings a proof contains *)
Inductive rot := Prev | Cur | Next | Last.
Inductive col :=
| Adv (i : nat) | Fix_ (i : nat) | Sig (i : nat) | PermZ (i : nat) | LookZ (i : nat) | LookA (i : nat) | LookS (i : nat) | Quot | Rand.
Definition rot_eq_dec (x y : rot) : {x = y} + {x <> y}. Proof. decide equality. Defined.
Definition col_eq_dec (x y : col) : {x = y} + {x <> y}. Proof. decide equality; apply Nat.eq_dec. Defined.

Definition at_ (r : rot) (c : col) : col * rot := (c, r).
(** the evaluations in a proof, in order *)
Definition openings : list (col * rot) :=
  map (at_ Cur) [Adv 0; Adv 1; Adv 2; Adv 3; Adv 4] ++
  map (at_ Next) [Adv 4; Adv 0; Adv 1; Adv 2] ++ map (at_ Prev) [Adv 2; Adv 0; Adv 1] ++
  map (fun i => at_ Cur (Fix_ i)) [0; 1; 2; 3; 4; 7; 5; 6; 8; 9; 10; 11; 15; 16; 17; 12; 13; 14; 18; 19; 20; 21; 22]%nat ++
  [at_ Cur Rand] ++
  map (fun i => at_ Cur (Sig i)) (seq 0 9) ++
  flat_map (fun i => [(PermZ i, Cur); (PermZ i, Next); (PermZ i, Last)]) [0; 1]%nat ++ [(PermZ 2, Cur); (PermZ 2, Next)] ++
  flat_map (fun i => [(LookZ i, Cur); (LookZ i, Next); (LookA i, Cur); (LookA i, Prev); (LookS i, Cur)]) (seq 0 5).
(** the commitments in a proof, in order; the pieces of the quotient come last *)
Definition commitments : list col :=
  map Adv (seq 0 5) ++ flat_map (fun i => [LookA i; LookS i]) (seq 0 5) ++ map PermZ (seq 0 3) ++ map LookZ (seq 0 5) ++ [Rand].
Definition pieces : nat := 5.

(** ** The constraints *)
Section Constraints.
  Variable K : Fld.
  Open Scope fld_scope.
  Notation sum := (fold_right (@fadd K) 0).
  Notation prod := (fold_right (@fmul K) 1).
  Variables mds mds_inv : nat -> nat -> K.
  (** the generator of the cosets of the permutation, and the tag of the range table the limbs are looked up in *)
  Variables delta tag : K.
  (** values of the columns, of the instance column, and of the Lagrange polynomials of the first row, of the last usable row,
      and of the sum over the blinding rows *)
  Variable e : col -> rot -> K.
  Variables inst l0 llast lblind : K.
  Variables theta beta gamma x : K.
  Definition a (i : nat) : K := e (Adv i) Cur.
  Definition f (i : nat) : K := e (Fix_ i) Cur.
  Definition pow5 (v : K) : K := v * v * (v * v) * v.

  (** maingate: a row of five cells, two products, the next row's last cell and a constant *)
  Definition main_gate : K :=
    a 0 * f 0 + a 1 * f 1 + a 2 * f 2 + a 3 * f 3 + a 4 * f 4 + a 0 * a 1 * f 5 + a 2 * a 3 * f 6 + f 7 * e (Adv 4) Next + f 8.
  (** Poseidon: a full round, *)
  Definition full_round (i : nat) : K :=
    f 20 * (sum (map (fun j => pow5 (a j + f (12 + j)) * mds i j) (seq 0 3)) - e (Adv i) Next).
  (** two partial rounds, *)
  Definition middle (i : nat) : K := a 3 * mds i 0%nat + (a 1 + f 13) * mds i 1%nat + (a 2 + f 14) * mds i 2%nat.
  Definition unmixed (i : nat) : K := sum (map (fun j => e (Adv j) Next * mds_inv i j) (seq 0 3)).
  Definition partial_rounds : list K :=
    [f 21 * (pow5 (a 0 + f 12) - a 3);
     f 21 * (pow5 (middle 0 + f 15) - unmixed 0);
     f 21 * (middle 1 + f 16 - unmixed 1);
     f 21 * (middle 2 + f 17 - unmixed 2)].
  (** and the addition of the input *)
  Definition pad_and_add : list K :=
    [f 22 * (e (Adv 0) Prev + a 0 - e (Adv 0) Next);
     f 22 * (e (Adv 1) Prev + a 1 - e (Adv 1) Next);
     f 22 * (e (Adv 2) Prev - e (Adv 2) Next)].
  (** the rows that are neither the last usable one nor blinding *)
  Definition active : K := 1 - (llast + lblind).
  (** copy constraints: nine columns, in groups of four, four and one *)
  Definition permuted (j : nat) : K :=
    match j with 0 => a 0 | 1 => a 1 | 2 => a 2 | 3 => a 3 | 4 => a 4 | 5 => inst | 6 => f 15 | 7 => f 16 | _ => f 17 end%nat.
  Definition permutation_step (k : nat) (js : list nat) : K :=
    active * (e (PermZ k) Next * prod (map (fun j => permuted j + beta * e (Sig j) Cur + gamma) js)
              - e (PermZ k) Cur * prod (map (fun j => permuted j + fpow delta (N.of_nat j) * (beta * x) + gamma) js)).
  Definition permutation : list K :=
    [l0 * (1 - e (PermZ 0) Cur);
     llast * (e (PermZ 2) Cur * e (PermZ 2) Cur - e (PermZ 2) Cur);
     l0 * (e (PermZ 1) Cur - e (PermZ 0) Last);
     l0 * (e (PermZ 2) Cur - e (PermZ 1) Last);
     permutation_step 0 [0; 1; 2; 3]%nat; permutation_step 1 [4; 5; 6; 7]%nat; permutation_step 2 [8]%nat].
  (** lookups: four of limbs of the fixed width, one of a limb of the width given by the row, all into the table (f 9, f 10) *)
  Definition look_input (i : nat) : K :=
    match i with 4%nat => f 11 * theta + f 19 * a 0 | i => f 18 * tag * theta + f 18 * a i end.
  Definition look_table : K := f 9 * theta + f 10.
  Definition lookup (i : nat) : list K :=
    [l0 * (1 - e (LookZ i) Cur);
     llast * (e (LookZ i) Cur * e (LookZ i) Cur - e (LookZ i) Cur);
     active * (e (LookZ i) Next * ((e (LookA i) Cur + beta) * (e (LookS i) Cur + gamma))
               - e (LookZ i) Cur * ((look_input i + beta) * (look_table + gamma)));
     l0 * (e (LookA i) Cur - e (LookS i) Cur);
     active * ((e (LookA i) Cur - e (LookS i) Cur) * (e (LookA i) Cur - e (LookA i) Prev))].
  Definition constraints : list K :=
    [main_gate] ++ map full_round (seq 0 3) ++ partial_rounds ++ pad_and_add ++ permutation ++ flat_map lookup (seq 0 5).
  (** all of them together: a polynomial in y, the first constraint with the highest power *)
  Definition combined (y : K) : K := fold_left (fun acc c => acc * y + c) constraints 0.
End Constraints.

(** ** Lagrange polynomials of the domain of n-th roots of unity *)
Section Lagrange.
  Variable K : Fld.
  Open Scope fld_scope.
  (** l_i(x), i being the exponent of omega of the row *)
  Variables (omega : K) (n : N) (n_inv : K).
  Definition lagrange (w x : K) : K := w * (fpow x n - 1) * n_inv / (x - w).
  Definition blinding : nat := 5.
  Definition w_at (i : nat) : K := fpow omega (N.of_nat i).
  Definition w_back (i : nat) : K := finv (fpow omega (N.of_nat i)).
  Definition l_0 (x : K) : K := lagrange 1 x.
  Definition l_last (x : K) : K := lagrange (w_back (blinding + 1)) x.
  Definition l_blind (x : K) : K := fold_right fadd 0 (map (fun i => lagrange (w_back i) x) (seq 1 blinding)).
  Definition instance_at (insts : list K) (x : K) : K :=
    fold_right fadd 0 (map (fun p => lagrange (w_at (fst p)) x * snd p) (combine (seq 0 (length insts)) insts)).
  (** the points a column is opened at *)
  Definition point (x : K) (r : rot) : K :=
    match r with Prev => x * w_back 1 | Cur => x | Next => x * omega | Last => x * w_back (blinding + 1) end.
End Lagrange.

(** ** The SHPLONK opening *)
Definition rotation_sets : list (list rot * list col) :=
  [([Prev; Cur; Next], [Adv 0; Adv 1; Adv 2]);
   ([Cur], [Adv 3] ++ map LookS (seq 0 5) ++
           map Fix_ [0; 1; 2; 3; 4; 7; 5; 6; 8; 9; 10; 11; 15; 16; 17; 12; 13; 14; 18; 19; 20; 21; 22]%nat ++ map Sig (seq 0 9) ++ [Quot; Rand]);
   ([Cur; Next], [Adv 4; PermZ 2] ++ map LookZ (seq 0 5));
   ([Last; Cur; Next], [PermZ 0; PermZ 1]);
   ([Prev; Cur], map LookA (seq 0 5))].
Definition all_rots : list rot := [Last; Prev; Cur; Next].
Definition others (rs : list rot) : list rot := filter (fun r => negb (existsb (fun r' => if rot_eq_dec r r' then true else false) rs)) all_rots.

Section Opening.
  Variable K : Fld.
  Variable G : Grp.
  Variable smul : K -> G -> G.
  Open Scope fld_scope.
  Open Scope grp_scope.
  Variable p : rot -> K.              (** the points *)
  Variable e : col -> rot -> K.       (** the values claimed *)
  Variable c : col -> G.              (** the commitments *)
  Variable gen : G.                   (** the commitment to 1 *)
  Variables zeta nu mu : K.
  Definition vanish (rs : list rot) : K := (fold_right fmul 1 (map (fun r => mu - p r) rs))%fld.
  (** the value at mu of the polynomial of degree below [length rs] taking the values [v r] at the points [p r] *)
  Definition basis (rs : list rot) (r : rot) : K :=
    (fold_right fmul 1 (map (fun r' => (mu - p r') / (p r - p r')) (filter (fun r' => if rot_eq_dec r r' then false else true) rs)))%fld.
  Definition interpolated (rs : list rot) (v : rot -> K) : K := (fold_right fadd 0 (map (fun r => v r * basis rs r) rs))%fld.
  (** combinations of one set of columns by powers of zeta *)
  Definition values (cs : list col) (r : rot) : K := (fold_right (fun cl acc => e cl r + zeta * acc) 0 cs)%fld.
  Definition commitment (cs : list col) : G := fold_right (fun cl acc => c cl ⊕ smul zeta acc) g0 cs.
  (** combination of the sets by powers of nu, each scaled by the points its columns are not opened at, relative to the first *)
  Definition scale (rs : list rot) : K := (vanish (others rs) / vanish (others [Prev; Cur; Next]))%fld.
  Definition linearised (w w' : G) : G :=
    fold_right (fun s acc => (smul (scale (fst s)) (commitment (snd s)
                                ⊕ ⊖ smul (interpolated (fst s) (values (snd s))) gen)) ⊕ smul nu acc) g0 rotation_sets
    ⊕ ⊖ smul (vanish [Prev; Cur; Next]) w ⊕ smul mu w'.
End Opening.

(** ** The transcript *)
Section Transcript.
  Variable byte : Type.
  Variable hash : list byte -> Z.
  Variable word : Z -> list byte.
  Variable one : byte.
  Definition absorb (h : Z) (ws : list Z) : Z := hash (flat_map word (h :: ws)).
  Definition again (h : Z) : Z := hash (word h ++ [one]).
  Definition words_between (i j : nat) (proof : list Z) : list Z := firstn (j - i) (skipn i proof).
  Record hashes := { h_theta : Z; h_beta : Z; h_gamma : Z; h_y : Z; h_x : Z; h_zeta : Z; h_nu : Z; h_mu : Z }.
  (** the digest of the verifying key and the instances first; then each message of the prover, each challenge depending on
      everything before it.  Points are two words, evaluations one. *)
  Definition transcript (digest : Z) (insts proof : list Z) : hashes :=
    let th := absorb digest (insts ++ words_between 0 10 proof) in         (* advice *)
    let be := absorb th (words_between 10 30 proof) in                     (* permuted lookup columns *)
    let ga := again be in
    let y := absorb ga (words_between 30 48 proof) in                      (* products, random polynomial *)
    let x := absorb y (words_between 48 58 proof) in                       (* quotient *)
    let ze := absorb x (words_between 58 136 proof) in                     (* evaluations *)
    let nu := again ze in
    let mu := absorb nu (words_between 136 138 proof) in                   (* first opening proof *)
    {| h_theta := th; h_beta := be; h_gamma := ga; h_y := y; h_x := x; h_zeta := ze; h_nu := nu; h_mu := mu |}.
End Transcript.
