(** The file system the client works on, and programs that read and write whole files (std::fs read_to_string / read /
    write / File::create / metadata).  A program returns the writes it made, in order, and its result; a failing program
    keeps the writes made so far.  Simplifications: paths are compared as texts; a read or write has no other failure
    than a missing file or directory (an interrupted write is covered by [crashed]). *)
From Coq Require Import ZArith String List Bool.
From Verif.Model Require Import Monad Evm Strings.
Import ListNotations.
Open Scope Z_scope.

Definition path := bytes.
Inductive node := File (content : bytes) | Dir.
Definition fs := path -> option node.
Definition path_eqb (a b : path) : bool := if list_eq_dec Z.eq_dec a b then true else false.
Definition set (s : fs) (p : path) (n : node) : fs := fun p' => if path_eqb p' p then Some n else s p'.
Definition effects (s : fs) (w : list (path * bytes)) : fs := fold_left (fun s '(p, b) => set s p (File b)) w s.

Definition cmd (A : Type) := fs -> list (path * bytes) * res A.
Definition cret {A} (a : A) : cmd A := fun _ => ([], Ok a).
(** a computation that touches no file *)
Definition lift {A} (r : res A) : cmd A := fun _ => ([], r).
Definition cbind {A B} (m : cmd A) (f : A -> cmd B) : cmd B := fun s =>
  let '(w, r) := m s in
  match r with
  | Ok a => let '(w', r') := f a (effects s w) in (w ++ w', r')
  | Err e => (w, Err e)
  | Panic e => (w, Panic e)
  end.
Notation "'do' x := m 'in' k" := (cbind m (fun x => k)) (at level 200, x pattern, right associativity).
(** [if let Ok(x) = m { .. }]: an [Err] is forgotten, a panic is not *)
Definition try_ok {A} (m : cmd A) : cmd (option A) := fun s =>
  let '(w, r) := m s in
  (w, match r with Ok a => Ok (Some a) | Err _ => Ok None | Panic e => Panic e end).

(** metadata(p)?.is_dir() *)
Definition is_dir (p : path) : cmd bool := fun s =>
  ([], match s p with Some Dir => Ok true | Some (File _) => Ok false | None => Err "No such file or directory" end).
(** read(p)? , read_to_string(p)? , File::open(p)? and the reads that follow *)
Definition read_file (p : path) : cmd bytes := fun s =>
  ([], match s p with Some (File b) => Ok b | _ => Err "No such file or directory" end).
(** the directory of a path: what precedes the last '/' *)
Fixpoint drop_to_slash (r : bytes) : bytes :=
  match r with [] => [] | c :: t => if c =? 47 then t else drop_to_slash t end.
Definition parent (p : path) : path := rev (drop_to_slash (rev p)).
(** write(p, b)? , File::create(p)? and the writes that follow: the directory must exist, p must not be a directory *)
Definition write_file (p : path) (b : bytes) : cmd unit := fun s =>
  match s p, s (parent p) with
  | Some Dir, _ => ([], Err "Is a directory")
  | _, Some Dir => ([(p, b)], Ok tt)
  | _, _ => ([], Err "No such file or directory")
  end.

(** the file system after the process is killed somewhere in the writes [w] (or has finished them): some of them are
    done, the next one may be truncated *)
Definition crashed (s : fs) (w : list (path * bytes)) (s' : fs) : Prop :=
  (exists k, s' = effects s (firstn k w)) \/
  (exists w1 p b w2 j, w = w1 ++ (p, b) :: w2 /\ s' = effects s (w1 ++ [(p, firstn j b)])).

Definition str (s : string) : bytes := ascii_bytes s.
Definition join (l : list bytes) : bytes := concat l.
