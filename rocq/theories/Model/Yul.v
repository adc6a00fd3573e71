(** The fragment of Yul (Solidity inline assembly) in which contracts/Halo2Verifier.sol is written, and its execution.
    The programs themselves are transcribed statement by statement by tools/gen_yul.py.

    The interpreter is parameterised by the machine that gives meaning to words, memory and opcodes; [Evm] instance below is
    the EVM.  Simplifications, all checked by the interpreter rather than assumed:
    - memory is a map from byte addresses that are multiples of 32 to words; any other access is [Stuck];
    - loops are executed for at most [limit] iterations, then [Stuck];
    - a statement [x := and(e, staticcall(gas(), ...))] is one statement; gas is not modelled;
    - functions declared in the assembly block do not call each other (true of the programs transcribed).
    A theorem about [Ret] or [Rev] outcomes therefore says in particular that no such simplification was hit. *)
From Coq Require Import ZArith List String Bool.
From Verif.Base Require Import Fld Fp EC Primes Curves Group.
From Verif.Model Require Import Monad Evm Points PairingSol.
Import ListNotations.
Open Scope Z_scope.

(** ** Syntax *)
Inductive binop := ADD | SUB | MUL | LT | EQ | AND | MOD | SHL.
Inductive terop := ADDMOD | MULMOD.
Inductive expr :=
| Num (z : Z)
| Var (x : string)
| Bin (o : binop) (a b : expr)
| Ter (o : terop) (a b n : expr)
| Iszero (a : expr)
| Mload (a : expr)
| Cdload (a : expr)
| Keccak (a len : expr).
Inductive rhs :=
| E (e : expr)
| Call (f : string) (args : list expr)
| AndStatic (e addr inp insize outp outsize : expr).   (** and(e, staticcall(gas(), addr, inp, insize, outp, outsize)) *)
Inductive stmt :=
| Let (xs : list string) (r : rhs)
| Set_ (xs : list string) (r : rhs)
| Mstore (a v : expr)
| Mstore8 (a v : expr)
| Extcodecopy (addr dst src len : expr)
| Pop (e : expr)
| Block (l : list stmt)
| For (init : list stmt) (cond : expr) (post body : list stmt)
| If (c : expr) (l : list stmt)
| Revert (a len : expr)
| Return (a len : expr).
Record func := Func { f_params : list string; f_rets : list string; f_body : list stmt }.

(** ** Execution *)
Record machine := Machine {
  val : Type;
  memory : Type;
  num : Z -> val;
  bin : binop -> val -> val -> option val;
  ter : terop -> val -> val -> val -> option val;
  isz : val -> option val;
  truth : val -> option bool;
  mload : memory -> val -> option val;
  mstore : memory -> val -> val -> option memory;
  mstore8 : memory -> val -> val -> option memory;
  cdload : val -> option val;
  keccak_op : memory -> val -> val -> option val;
  static : memory -> val -> val -> val -> val -> val -> option (val * memory);
  extcodecopy : memory -> val -> val -> val -> val -> option memory
}.

Section Exec.
  Variable M : machine.
  Notation V := (val M).
  Definition vars := list (string * V).

  Inductive outcome :=
  | Cont (e : vars) (m : memory M)
  | Ret (m : memory M) (a len : V)
  | Rev
  | Stuck.

  Fixpoint lookup (x : string) (e : vars) : option V :=
    match e with [] => None | (y, v) :: r => if String.eqb x y then Some v else lookup x r end.
  (** assignment to a declared variable *)
  Fixpoint assign (x : string) (v : V) (e : vars) : option vars :=
    match e with
    | [] => None
    | (y, w) :: r => if String.eqb x y then Some ((y, v) :: r) else option_map (cons (y, w)) (assign x v r)
    end.
  Fixpoint assigns (xs : list string) (vs : list V) (e : vars) : option vars :=
    match xs, vs with
    | [], [] => Some e
    | x :: xs, v :: vs => match assign x v e with Some e => assigns xs vs e | None => None end
    | _, _ => None
    end.
  Fixpoint declares (xs : list string) (vs : list V) (e : vars) : option vars :=
    match xs, vs with
    | [], [] => Some e
    | x :: xs, v :: vs => declares xs vs ((x, v) :: e)
    | _, _ => None
    end.

  Definition obind {A B} (o : option A) (f : A -> option B) : option B := match o with Some a => f a | None => None end.

  Fixpoint eval (e : vars) (m : memory M) (x : expr) : option V :=
    match x with
    | Num z => Some (num M z)
    | Var x => lookup x e
    | Bin o a b => obind (eval e m a) (fun a => obind (eval e m b) (fun b => bin M o a b))
    | Ter o a b n => obind (eval e m a) (fun a => obind (eval e m b) (fun b => obind (eval e m n) (fun n => ter M o a b n)))
    | Iszero a => obind (eval e m a) (isz M)
    | Mload a => obind (eval e m a) (mload M m)
    | Cdload a => obind (eval e m a) (cdload M)
    | Keccak a l => obind (eval e m a) (fun a => obind (eval e m l) (fun l => keccak_op M m a l))
    end.
  Fixpoint evals (e : vars) (m : memory M) (xs : list expr) : option (list V) :=
    match xs with
    | [] => Some []
    | x :: xs => obind (eval e m x) (fun v => obind (evals e m xs) (fun vs => Some (v :: vs)))
    end.

  (** functions: arguments and memory to results and memory *)
  Definition calls := string -> list V -> memory M -> option (list V * memory M).

  Section Step.
    Variable call : calls.
    Variable limit : nat.

    Definition eval_rhs (e : vars) (m : memory M) (r : rhs) : option (list V * memory M) :=
      match r with
      | E x => obind (eval e m x) (fun v => Some ([v], m))
      | Call f args => obind (evals e m args) (fun vs => call f vs m)
      | AndStatic x addr inp insize outp outsize =>
          obind (eval e m x) (fun s =>
          obind (eval e m addr) (fun addr =>
          obind (eval e m inp) (fun inp =>
          obind (eval e m insize) (fun insize =>
          obind (eval e m outp) (fun outp =>
          obind (eval e m outsize) (fun outsize =>
          obind (static M m addr inp insize outp outsize) (fun '(b, m') =>
          obind (bin M AND s b) (fun v => Some ([v], m')))))))))
      end.

    (** leaving a block forgets the variables it declared *)
    Definition leave (e0 : vars) (o : outcome) : outcome :=
      match o with
      | Cont e m => Cont (skipn (List.length e - List.length e0) e) m
      | o => o
      end.
    Definition cont (o : outcome) (f : vars -> memory M -> outcome) : outcome :=
      match o with Cont e m => f e m | o => o end.
    Definition ok_env (o : option vars) (m : memory M) : outcome := match o with Some e => Cont e m | None => Stuck end.
    Definition ok_mem (e : vars) (o : option (memory M)) : outcome := match o with Some m => Cont e m | None => Stuck end.
    Definition test (e : vars) (m : memory M) (c : expr) : option bool := obind (eval e m c) (truth M).

    Fixpoint loop (n : nat) (cond : vars -> memory M -> option bool) (body : vars -> memory M -> outcome) (e : vars)
        (m : memory M) : outcome :=
      match n with
      | O => Stuck
      | S n => match cond e m with
               | None => Stuck
               | Some false => Cont e m
               | Some true => cont (body e m) (loop n cond body)
               end
      end.

    Fixpoint step (e : vars) (m : memory M) (s : stmt) {struct s} : outcome :=
      let seq := fix seq (e : vars) (m : memory M) (l : list stmt) {struct l} : outcome :=
        match l with [] => Cont e m | s :: l => cont (step e m s) (fun e m => seq e m l) end in
      match s with
      | Let xs r => match eval_rhs e m r with Some (vs, m) => ok_env (declares xs vs e) m | None => Stuck end
      | Set_ xs r => match eval_rhs e m r with Some (vs, m) => ok_env (assigns xs vs e) m | None => Stuck end
      | Mstore a v => ok_mem e (obind (eval e m a) (fun a => obind (eval e m v) (fun v => mstore M m a v)))
      | Mstore8 a v => ok_mem e (obind (eval e m a) (fun a => obind (eval e m v) (fun v => mstore8 M m a v)))
      | Extcodecopy ad d s l =>
          ok_mem e (obind (eval e m ad) (fun ad => obind (eval e m d) (fun d => obind (eval e m s) (fun s =>
                    obind (eval e m l) (fun l => extcodecopy M m ad d s l)))))
      | Pop x => match eval e m x with Some _ => Cont e m | None => Stuck end
      | Block l => leave e (seq e m l)
      | For init c post body =>
          leave e (cont (seq e m init) (loop limit (fun e m => test e m c)
                     (fun e m => cont (leave e (seq e m body)) (fun e m => seq e m post))))
      | If c l => match test e m c with
                  | Some true => leave e (seq e m l)
                  | Some false => Cont e m
                  | None => Stuck
                  end
      | Revert _ _ => Rev
      | Return a l => match eval e m a, eval e m l with Some a, Some l => Ret m a l | _, _ => Stuck end
      end.
    Fixpoint exec (e : vars) (m : memory M) (l : list stmt) : outcome :=
      match l with [] => Cont e m | s :: l => cont (step e m s) (fun e m => exec e m l) end.
  End Step.

  (** functions run on their parameters and zero-initialised results only *)
  Definition run_func (limit : nat) (fs : list (string * func)) : calls := fun name args m =>
    match find (fun p => String.eqb name (fst p)) fs with
    | None => None
    | Some (_, f) =>
        obind (declares (f_params f) args []) (fun e =>
        obind (declares (f_rets f) (map (fun _ => num M 0) (f_rets f)) e) (fun e =>
        match exec (fun _ _ _ => None) limit e m (f_body f) with
        | Cont e m => obind (evals e m (map Var (f_rets f))) (fun vs => Some (vs, m))
        | _ => None
        end))
    end.
  Definition run (limit : nat) (fs : list (string * func)) (e : vars) (m : memory M) (l : list stmt) : outcome :=
    exec (run_func limit fs) limit e m l.
End Exec.
Arguments Cont {M} _ _.
Arguments Ret {M} _ _ _.
Arguments Rev {M}.
Arguments Stuck {M}.

(** ** The EVM *)
Section EVM.
  Variable keccak : bytes -> Z.
  Variable in_g2 : G2c -> bool.
  Variable pairing : list (G1 * G2c) -> bool.
  (** the words of the call data after the 4-byte selector, and the code of each account, word by word *)
  Variable calldata : list Z.
  Variable code : Z -> list Z.

  Definition W256 : Z := 0x10000000000000000000000000000000000000000000000000000000000000000.
  Definition word_bin (o : binop) (a b : Z) : Z :=
    match o with
    | ADD => (a + b) mod W256
    | SUB => (a - b) mod W256
    | MUL => (a * b) mod W256
    | LT => if a <? b then 1 else 0
    | EQ => if a =? b then 1 else 0
    | AND => Z.land a b
    | MOD => if b =? 0 then 0 else a mod b
    | SHL => if a <? 256 then Z.shiftl b a mod W256 else 0
    end.
  Definition word_ter (o : terop) (a b n : Z) : Z :=
    if n =? 0 then 0 else match o with ADDMOD => addmod a b n | MULMOD => mulmod a b n end.

  Definition mem := Z -> Z.
  Definition aligned (a : Z) : bool := a mod 32 =? 0.
  Definition m_load (m : mem) (a : Z) : option Z := if aligned a then Some (m a) else None.
  Definition m_store (m : mem) (a v : Z) : option mem := if aligned a then Some (upd m a v) else None.
  (** the byte stored at a multiple of 32 is the most significant one of its word *)
  Definition m_store8 (m : mem) (a v : Z) : option mem :=
    if aligned a then Some (upd m a ((v mod 256) * 2 ^ 248 + m a mod 2 ^ 248)) else None.
  (** the words of memory[a .. a + 32 n) *)
  Definition words_at (m : mem) (a : Z) (n : nat) : list Z := map (fun i => m (a + 32 * Z.of_nat i)) (seq 0 n).
  Fixpoint store_words (m : mem) (a : Z) (l : list Z) : mem :=
    match l with [] => m | w :: l => store_words (upd m a w) (a + 32) l end.
  (** the bytes of memory[a .. a + len) *)
  Definition m_bytes (m : mem) (a len : Z) : bytes :=
    flat_map word (words_at m a (Z.to_nat (len / 32))) ++
    firstn (Z.to_nat (len mod 32)) (word (m (a + 32 * (len / 32)))).
  Definition m_keccak (m : mem) (a len : Z) : option Z := if aligned a then Some (keccak (m_bytes m a len)) else None.
  (** calldataload: bytes past the end read as zero (the data is a whole number of words after the selector) *)
  Definition cd_load (a : Z) : option Z :=
    if (a mod 32 =? 4) && (0 <=? a) then Some (nth (Z.to_nat (a / 32)) calldata 0) else None.
  (** precompiles 5 (EIP-198 with 32-byte operands), 6, 7 (EIP-196), 8 (EIP-197); a failed call returns 0 and writes nothing *)
  Definition m_static (m : mem) (addr inp insize outp outsize : Z) : option (Z * mem) :=
    if negb (aligned inp && aligned outp) then None else
    if addr =? 5 then
      match words_at m inp 6, (insize =? 0xc0) && (outsize =? 0x20) with
      | [lb; le; lm; b; x; n], true =>
          if (lb =? 32) && (le =? 32) && (lm =? 32) then
            Some (1, upd m outp (if n =? 0 then 0 else b ^ x mod n))
          else None
      | _, _ => None
      end
    else if addr =? 6 then
      match words_at m inp 4, (insize =? 0x80) && (outsize =? 0x40) with
      | [x1; y1; x2; y2], true =>
          Some match decode (x1, y1), decode (x2, y2) with
               | Some P, Some Q => let '(x, y) := enc (P ⊕ Q)%grp in (1, store_words m outp [x; y])
               | _, _ => (0, m)
               end
      | _, _ => None
      end
    else if addr =? 7 then
      match words_at m inp 3, (insize =? 0x60) && (outsize =? 0x40) with
      | [x; y; s], true =>
          Some match decode (x, y) with
               | Some P => let '(x, y) := enc (zmul s P) in (1, store_words m outp [x; y])
               | None => (0, m)
               end
      | _, _ => None
      end
    else if addr =? 8 then
      if (insize mod 0xc0 =? 0) && (outsize =? 0x20) then
        Some match decode_pairs in_g2 (words_at m inp (Z.to_nat (insize / 32))) with
             | Some l => (1, upd m outp (if pairing l then 1 else 0))
             | None => (0, m)
             end
      else None
    else None.
  Definition m_extcodecopy (m : mem) (ad dst src len : Z) : option mem :=
    if aligned dst && (src =? 0) && aligned len then
      Some (store_words m dst (firstn (Z.to_nat (len / 32)) (code ad ++ repeat 0 (Z.to_nat (len / 32)))))
    else None.

  Definition EVM : machine := {|
    val := Z; memory := mem; num := fun z => z;
    bin := fun o a b => Some (word_bin o a b);
    ter := fun o a b n => Some (word_ter o a b n);
    isz := fun a => Some (if a =? 0 then 1 else 0);
    truth := fun a => Some (negb (a =? 0));
    mload := m_load; mstore := m_store; mstore8 := m_store8; cdload := cd_load; keccak_op := m_keccak;
    static := m_static; extcodecopy := m_extcodecopy
  |}.
End EVM.
