(** * Py: the fragment of Python the model relies on

    Exceptions are values of [exn], a computation that may raise returns a
    [res].  Strings are lists of characters ([str]), because the library
    manipulates paths character by character.  Nothing in this file models a
    function of /repo; it fixes the vocabulary of the other files. *)
From Coq Require Export Ascii String ZArith Lia List.
From stdpp Require Export base tactics numbers list list_numbers sets sorting strings gmap.
Export List ListNotations.
Export stdpp.list.
#[global] Open Scope nat_scope.
#[global] Open Scope list_scope.

(** Python exceptions that the modelled code raises or lets through. *)
Inductive exn :=
  | ValueError | TypeError | KeyError | IndexError | NameError
  | ZeroDivisionError | AssertionError | AttributeError | RuntimeError
  | OverflowError | OSError | FileNotFoundError | UnsupportedOperation
  | ContainsGroupError | ContainsArrayError | SyntaxError.

Global Instance exn_eq_dec : EqDecision exn.
Proof. solve_decision. Defined.

Inductive res (A : Type) : Type := Ok (a : A) | Raise (e : exn).
Arguments Ok {A} _.
Arguments Raise {A} _.

Definition rbind {A B} (m : res A) (f : A -> res B) : res B :=
  match m with Ok a => f a | Raise e => Raise e end.
Notation "'do' x <- m ; k" := (rbind m (fun x => k))
  (at level 200, x pattern, m at level 100, k at level 200,
   format "'[v' 'do'  x  <-  m ;  '/' k ']'").

Definition rmap {A B} (f : A -> B) (m : res A) : res B :=
  match m with Ok a => Ok (f a) | Raise e => Raise e end.

(** [if c: raise e] *)
Definition raise_if (c : bool) (e : exn) : res unit :=
  if c then Raise e else Ok tt.

(** A loop that evaluates [f] on each item in turn and stops at the first
    exception. *)
Fixpoint traverse {A B} (f : A -> res B) (l : list A) : res (list B) :=
  match l with
  | [] => Ok []
  | x :: l => do y <- f x; do ys <- traverse f l; Ok (y :: ys)
  end.

(** A loop that threads a state and stops at the first exception. *)
Fixpoint foldM {A S} (f : S -> A -> res S) (s : S) (l : list A) : res S :=
  match l with
  | [] => Ok s
  | x :: l => do s' <- f s x; foldM f s' l
  end.

Definition is_ok {A} (m : res A) : bool :=
  match m with Ok _ => true | Raise _ => false end.

(** [l\[a:b\]] for non-negative bounds: Python clips both bounds. *)
Definition slice {A} (a b : nat) (l : list A) : list A :=
  take (b - a) (drop a l).

(** [itertools.accumulate] with addition, from the first element on. *)
Fixpoint accumulate_from (acc : nat) (l : list nat) : list nat :=
  match l with
  | [] => []
  | x :: l => (acc + x) :: accumulate_from (acc + x) l
  end.
Definition accumulate (l : list nat) : list nat :=
  match l with
  | [] => []
  | x :: l => x :: accumulate_from x l
  end.

(** ** Strings *)
Definition str := list ascii.
Definition lit (s : string) : str := list_ascii_of_string s.
Arguments lit _%string.

Global Instance str_eq_dec : EqDecision str := list_eq_dec.

Definition sep : ascii := "/"%char.

(** [sep.join(parts)] *)
Fixpoint join_with (s : str) (parts : list str) : str :=
  match parts with
  | [] => []
  | [x] => x
  | x :: rest => x ++ s ++ join_with s rest
  end.

(** ** Association lists: Python dictionaries with insertion order *)
Section dict.
  Context {K V : Type} `{EqDecision K}.

  Fixpoint dget (d : list (K * V)) (k : K) : option V :=
    match d with
    | [] => None
    | (k', v) :: d => if decide (k = k') then Some v else dget d k
    end.

  Definition dmem (d : list (K * V)) (k : K) : bool :=
    match dget d k with Some _ => true | None => false end.

  (** [d\[k\] = v]: overwrites in place or appends. *)
  Fixpoint dset (d : list (K * V)) (k : K) (v : V) : list (K * V) :=
    match d with
    | [] => [(k, v)]
    | (k', v') :: d =>
        if decide (k = k') then (k', v) :: d else (k', v') :: dset d k v
    end.

  (** [del d\[k\]] / [d.pop(k)] on a present key; identity otherwise. *)
  Fixpoint ddel (d : list (K * V)) (k : K) : list (K * V) :=
    match d with
    | [] => []
    | (k', v') :: d => if decide (k = k') then ddel d k else (k', v') :: ddel d k
    end.

  Definition dkeys (d : list (K * V)) : list K := map fst d.
  Definition dvals (d : list (K * V)) : list V := map snd d.

  (** [dict(pairs)] / [{k: v for ...}]: later pairs overwrite earlier ones. *)
  Definition dict_of (l : list (K * V)) : list (K * V) :=
    fold_left (fun d kv => dset d kv.1 kv.2) l [].
End dict.

Global Instance res_eq_dec {A} `{EqDecision A} : EqDecision (res A).
Proof. solve_decision. Defined.

(** Python's [x in list]. *)
Definition memb {A} `{EqDecision A} (x : A) (l : list A) : bool :=
  bool_decide (x ∈ l).
