(** What an outside observer records about a contract: the list of transactions with their outcome.
    Nothing here looks inside the contract except [currentRoundNum] (a public getter), to say in which round a
    submission was made. *)
From Coq Require Import ZArith List Bool.
From Verif.Model Require Import Monad Evm Strings Zkdvrf.
Import ListNotations.
Open Scope Z_scope.

Record step := mkStep { before : st; txn : tx; outcome : res (st * list event) }.

Section H.
  Variable v : variant.
  Variable E : env.
  Variable c : cfg.

  (** [hist tr s]: the contract deployed with arguments [c] has executed exactly the transactions in [tr] (oldest first,
      successful or reverted) and its storage is now [s]. *)
  Inductive hist : list step -> st -> Prop :=
  | hist_deploy s : cfg_ok c = true -> construct c = Ok s -> hist [] s
  | hist_tx tr s t : hist tr s -> hist (tr ++ [mkStep s t (apply v E s t)]) (exec v E s t).

  Definition reachable (s : st) : Prop := exists tr, hist tr s.
End H.

Definition accepted (x : step) : bool := is_ok (outcome x).
Definition emitted (x : step) : list event := match outcome x with Ok (_, ev) => ev | _ => [] end.
(** all events logged, in order *)
Definition log (tr : list step) : list event := flat_map emitted tr.

(** addresses added by accepted addPermissionedNodes calls *)
Definition added (tr : list step) : list Z :=
  flat_map (fun x => if accepted x then match what (txn x) with AddPermissionedNodes a => [a] | _ => [] end else []) tr.
(** (address, key, deposit) of accepted registrations *)
Definition registrations (tr : list step) : list (Z * pt * Z) :=
  flat_map (fun x => if accepted x then match what (txn x) with
                     | RegisterNode p => [(sender (txn x), p, tvalue (txn x))] | _ => [] end else []) tr.
(** (address, instance vector, proof) of accepted public parameters *)
Definition submissions (tr : list step) : list (Z * list Z * bytes) :=
  flat_map (fun x => if accepted x then match what (txn x) with
                     | SubmitPublicParams pp zk => [(sender (txn x), pp, zk)] | _ => [] end else []) tr.
(** (address, evaluation) accepted while the public round number was [k] *)
Definition evals (tr : list step) (k : Z) : list (Z * peval) :=
  flat_map (fun x => if accepted x && (currentRoundNum (before x) =? k) then match what (txn x) with
                     | SubmitPartialEval e => [(sender (txn x), e)] | _ => [] end else []) tr.
(** randoms accepted while the public round number was [k] *)
Definition randoms (tr : list step) (k : Z) : list prand :=
  flat_map (fun x => if accepted x && (currentRoundNum (before x) =? k) then match what (txn x) with
                     | SubmitRandom p => [p] | _ => [] end else []) tr.
(** number of accepted initiateRandom calls *)
Definition initiations (tr : list step) : list unit :=
  flat_map (fun x => if accepted x then match what (txn x) with InitiateRandom => [tt] | _ => [] end else []) tr.
(** ether forced in *)
Definition forced (tr : list step) : list Z :=
  flat_map (fun x => if accepted x then match what (txn x) with ForceEther => [tvalue (txn x)] | _ => [] end else []) tr.
(** (gpk argument, contract phase change) of accepted computeVk calls *)
Definition computed (tr : list step) : list g2pt :=
  flat_map (fun x => if accepted x then match what (txn x) with ComputeVk g => [g] | _ => [] end else []) tr.

(** the i-th element of a list, i counted from 0; the components of a registration and of a submission *)
Definition znth {A} (l : list A) (i : Z) : option A := if i <? 0 then None else nth_error l (Z.to_nat i).
Definition who (x : Z * pt * Z) : Z := fst (fst x).
Definition key (x : Z * pt * Z) : pt := snd (fst x).
Definition dep (x : Z * pt * Z) : Z := snd x.
Definition psender (x : Z * list Z * bytes) : Z := fst (fst x).
Definition pvec (x : Z * list Z * bytes) : list Z := snd (fst x).
Definition pzk (x : Z * list Z * bytes) : bytes := snd x.

(** the coordinates of a list of points, one after the other *)
Definition flat (l : list pt) : list Z := flat_map (fun p => [fst p; snd p]) l.
(** the message of round k: the text "zkRand-v1-2024:" followed by k in decimal *)
Definition round_input (k : Z) : bytes := INPUT_PREFIX ++ to_dec k.

Definition zsum (l : list Z) : Z := fold_right Z.add 0 l.
Definition phase_rank (p : phase) : Z :=
  match p with Unregistered => 0 | Registered => 1 | Nidkg => 2 | NidkgComplete => 3 | Ready => 4 end.
