(** * File systems and programs that use them

    A file is known by its path, a list of components; a directory exists when
    it holds a file. Simplification: empty directories, permissions, links and
    the listing caches of fsspec are not represented.

    A program is a tree of file operations, so that it can be run to its end
    ([exec]), stopped at any point or interleaved with others ([step]). A file
    being written may be found incomplete ([torn]), a directory being removed
    may be found partly removed; renaming a directory is atomic, as on a POSIX
    file system. *)
From Verif Require Import Py.

Notation path := (list str).

(** [q] is [p] or lies below [p]. *)
Definition under (p q : path) : Prop := exists t, q = p ++ t.

(** The rest of [q] below [p]. *)
Fixpoint strip (p q : path) : option path :=
  match p, q with
  | [], _ => Some q
  | x :: p, y :: q => if decide (x = y) then strip p q else None
  | _, [] => None
  end.

Section fs.
  Context {C : Type} (torn : C).
  Local Notation fs := (@gmap path (@list_eq_dec str str_eq_dec) (@list_countable str str_eq_dec (@list_countable ascii ascii_eq_dec ascii_countable)) C).

  (** The files at or below [p], by their relative path. *)
  Definition sub (p : path) (s : fs) : fs :=
    map_fold (fun q c t => match strip p q with Some r => <[r := c]> t | None => t end) ∅ s.
  (** The other files. *)
  Definition prune (p : path) (s : fs) : fs :=
    map_fold (fun q c t => match strip p q with Some _ => t | None => <[q := c]> t end) ∅ s.
  (** [s] with the tree [t] put at [p]. *)
  Definition graft (p : path) (t s : fs) : fs := map_fold (fun q c u => <[p ++ q := c]> u) s t.
  Definition empty_at (p : path) (s : fs) : bool := bool_decide (map_to_list (sub p s) = []).

  (** The operations: read a tree; write a file (and the directories above);
      remove a tree ([fs.rm(recursive=True)], which fails on a missing path, or
      [shutil.rmtree(ignore_errors=True)], which does not); rename a directory
      ([shutil.move]: into the target when the target exists). *)
  Inductive op :=
    | Get (p : path)
    | Write (p : path) (c : C)
    | Rm (p : path)
    | RmTree (p : path)
    | Move (a b : path).

  (** The answer to an operation: the tree read, or a failure. *)
  Definition exec_op (o : op) (s : fs) : option fs * fs :=
    match o with
    | Get p => (Some (sub p s), s)
    | Write p c => (Some ∅, <[p := c]> s)
    | Rm p => if empty_at p s then (None, s) else (Some ∅, prune p s)
    | RmTree p => (Some ∅, prune p s)
    | Move a b =>
        if empty_at a s then (None, s) else
        let s' := prune a s in
        let b' := if empty_at b s' then b else b ++ match last a with Some n => [n] | None => [] end in
        (Some ∅, graft b' (sub a s) s')
    end.

  Inductive prog (A : Type) : Type :=
    | Ret (r : res A)
    | Op (o : op) (k : option fs -> prog A).
  Global Arguments Ret {A} _.
  Global Arguments Op {A} _ _.

  Fixpoint pbind {A B} (p : prog A) (f : A -> prog B) : prog B :=
    match p with
    | Ret (Ok a) => f a
    | Ret (Raise e) => Ret (Raise e)
    | Op o k => Op o (fun r => pbind (k r) f)
    end.
  (** [try: p except: h] *)
  Fixpoint pcatch {A} (p : prog A) (h : exn -> prog A) : prog A :=
    match p with
    | Ret (Ok a) => Ret (Ok a)
    | Ret (Raise e) => h e
    | Op o k => Op o (fun r => pcatch (k r) h)
    end.
  Definition pret {A} (a : A) : prog A := Ret (Ok a).
  Definition praise {A} (e : exn) : prog A := Ret (Raise e).
  Fixpoint pseq {A} (l : list (prog A)) : prog (list A) :=
    match l with
    | [] => pret []
    | p :: l => pbind p (fun a => pbind (pseq l) (fun r => pret (a :: r)))
    end.
  Definition pfor {A B} (l : list A) (f : A -> prog B) : prog unit := pbind (pseq (map f l)) (fun _ => pret tt).

  (** Operations as programs; a failure raises OSError or, for a missing path,
      its subclass FileNotFoundError. *)
  Definition get_tree (p : path) : prog fs :=
    Op (Get p) (fun r => match r with Some t => pret t | None => praise OSError end).
  Definition read_file (p : path) : prog (option C) := pbind (get_tree p) (fun t => pret (t !! [])).
  Definition exists_path (p : path) : prog bool :=
    pbind (get_tree p) (fun t => pret (negb (bool_decide (map_to_list t = [])))).
  Definition write_file (p : path) (c : C) : prog unit :=
    Op (Write p c) (fun r => match r with Some _ => pret tt | None => praise OSError end).
  Definition rm (p : path) : prog unit :=
    Op (Rm p) (fun r => match r with Some _ => pret tt | None => praise FileNotFoundError end).
  Definition rmtree (p : path) : prog unit := Op (RmTree p) (fun _ => pret tt).
  Definition move (a b : path) : prog unit :=
    Op (Move a b) (fun r => match r with Some _ => pret tt | None => praise FileNotFoundError end).

  (** Running a program to its end. *)
  Fixpoint exec {A} (p : prog A) (s : fs) : res A * fs :=
    match p with
    | Ret r => (r, s)
    | Op o k => let '(r, s') := exec_op o s in exec (k r) s'
    end.

  (** Some of the files below [p] are gone. *)
  Definition partly_removed (p : path) (s s' : fs) : Prop :=
    forall q, s' !! q = s !! q \/ (under p q /\ s' !! q = None).

  (** One step of a running program. *)
  Inductive step {A} : prog A * fs -> prog A * fs -> Prop :=
    | step_do o k s : step (Op o k, s) (k (exec_op o s).1, (exec_op o s).2)
    | step_tear p c k s : step (Op (Write p c) k, s) (Op (Write p c) k, <[p := torn]> s)
    | step_rm p k s s' : empty_at p s = false -> partly_removed p s s' ->
        step (Op (Rm p) k, s) (Op (RmTree p) k, s')
    | step_rmtree p k s s' : partly_removed p s s' -> step (Op (RmTree p) k, s) (Op (RmTree p) k, s').

  (** One step of a pool of programs running concurrently. *)
  Inductive pool_step {A} : list (prog A) * fs -> list (prog A) * fs -> Prop :=
    | pool_one ps i p p' s s' : ps !! i = Some p -> step (p, s) (p', s') ->
        pool_step (ps, s) (<[i := p']> ps, s').
  Definition finished {A} (ps : list (prog A)) (rs : list (res A)) : Prop := ps = map Ret rs.
End fs.
Notation fs C := (@gmap path (@list_eq_dec str str_eq_dec) (@list_countable str str_eq_dec (@list_countable ascii ascii_eq_dec ascii_countable)) C).
Global Arguments prog C A : clear implicits.
Notation "'let!' x <- m ; k" := (pbind m (fun x => k))
  (at level 200, x pattern, m at level 100, k at level 200, format "'[v' 'let!'  x  <-  m ;  '/' k ']'").
