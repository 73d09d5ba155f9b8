(** * Model of the listing and the selection of partitions
    (partitioning/abc.py, expression.py, collection/abc.py) *)
From Verif Require Import Py Order PartPath_Model FS_Model.

(** The absolute path of a file or directory as a string; paths are lists of
    components everywhere else.  Only local file systems are modelled: the
    separator is '/'. *)
Definition path_str (p : path) : str := concat (map (fun c => lit "/" ++ c) p).

(** ** Listing (partitioning/abc.py) *)
Section listing.
  Context {C : Type}.
  (** The order in which the file system lists the entries of a directory: an
      arbitrary rearrangement. *)
  Variable order : list str -> list str.

  (** Names of the entries of the directory [p] (fs.ls). The file system of the
      model has no empty directories. *)
  Definition children (p : path) (t : fs C) : list str :=
    order (remove_dups (omap (fun qc => head qc.1) (map_to_list (sub p t)))).

  (** [info\['type'\] == 'directory']: some file lies below. *)
  Definition is_dir (p : path) (t : fs C) : bool :=
    existsb (fun qc => match qc.1 with [] => false | _ => true end) (map_to_list (sub p t)).

  (** [fs.ls(path, detail=False)]; listing a file gives the file itself. *)
  Definition ls (p : path) (t : fs C) : list path :=
    match t !! p with
    | Some _ => [p]
    | None => map (fun n => p ++ [n]) (children p t)
    end.

  (** [name.startswith('.')] *)
  Definition hidden (n : str) : bool := match n with c :: _ => bool_decide (c = "."%char) | [] => false end.

  (** zcollection/partitioning/abc.py:154-203, [list_partitions] with
      [root=False] (lines 198-203) *)
  Fixpoint list_deep (depth : nat) (t : fs C) (p : path) : list path :=
    match depth with
    | 0 => ls p t
    | S d => concat (map (list_deep d t) (ls p t))
    end.

  (** zcollection/partitioning/abc.py:154-203, [list_partitions] with
      [root=True]: the entries found [n] levels below [p]; [n = 0] is the depth
      -1 of the code. *)
  Definition list_root (n : nat) (t : fs C) (p : path) : list path :=
    let folders := map (fun n => p ++ [n])
      (List.filter (fun n => is_dir (p ++ [n]) t && negb (hidden n)) (children p t)) in
    match n with
    | 0 => []
    | 1 => folders
    | S (S d) => concat (map (list_deep d t) folders)
    end.

  (** Order of the results of [parse]. *)
  Definition scheme_lt : list (str * Z) -> list (str * Z) -> bool := list_lt (pair_lt str_lt Z.ltb).

  (** zcollection/partitioning/abc.py:414-428, [Partitioning.list_partitions];
      the first path that cannot be parsed raises. *)
  Definition list_partitions (p : partitioning) (t : fs C) (d : path) : res (list path) :=
    do keyed <- traverse (fun q => do k <- p_parse p (path_str q); Ok (k, q)) (list_root (p_len p) t d);
    Ok (map snd (sorted_by scheme_lt fst keyed)).
End listing.

(** ** Expressions (expression.py) *)

(** The Python expressions of the model: integers, names, arithmetic,
    comparisons, membership, boolean operators and calls. A chain a < b < c is written as a conjunction.  Other forms (attributes,
    subscripts, comprehensions, strings, ...) are not modelled. *)
Inductive arith := Add | Sub | Mul | FloorDiv | Mod.
Inductive cmp := Eq | Ne | Lt | Le | Gt | Ge.
Inductive expr :=
  | EInt (z : Z) | EBool (b : bool) | EName (n : str)
  | ENeg (e : expr) | EArith (o : arith) (a b : expr)
  | ECmp (o : cmp) (a b : expr) | EIn (a b : expr) | ENotIn (a b : expr)
  | ENot (e : expr) | EAnd (a b : expr) | EOr (a b : expr)
  | ECall (f : expr) (args : list expr).

(** Python values that appear during the evaluation; [VRangeType] is the
    builtin [range]. *)
Inductive value := VInt (z : Z) | VBool (b : bool) | VRange (start stop step : Z) | VRangeType.

(** [code.co_names]: every name in the expression. *)
Fixpoint co_names (e : expr) : list str :=
  match e with
  | EInt _ | EBool _ => []
  | EName n => [n]
  | ENeg e | ENot e => co_names e
  | EArith _ a b | ECmp _ a b | EIn a b | ENotIn a b | EAnd a b | EOr a b => co_names a ++ co_names b
  | ECall f args => co_names f ++ concat (map co_names args)
  end.

(** Python's evaluation of expressions (language reference, 6 and
    library reference, 4.1 and 4.6.6). *)
Definition int_value (v : value) : res Z :=
  match v with
  | VInt z => Ok z
  | VBool b => Ok (if b then 1 else 0)%Z
  | _ => Raise TypeError
  end.
Definition range_len (a b s : Z) : Z :=
  if (0 <? s)%Z then Z.max 0 ((b - a + s - 1) / s) else Z.max 0 ((a - b - s - 1) / (- s)).
Definition range_mem (z a b s : Z) : bool :=
  (if (0 <? s)%Z then ((a <=? z) && (z <? b))%Z else ((b <? z) && (z <=? a))%Z) && ((z - a) mod s =? 0)%Z.
Definition truth (v : value) : bool :=
  match v with
  | VInt z => negb (z =? 0)%Z
  | VBool b => b
  | VRange a b s => (0 <? range_len a b s)%Z
  | VRangeType => true
  end.
Definition value_eq (v w : value) : bool :=
  match v, w with
  | VRange a b s, VRange a' b' s' =>
      let n := range_len a b s in
      ((n =? range_len a' b' s') && ((n =? 0) || ((a =? a') && ((n =? 1) || (s =? s')))))%Z
  | VRangeType, VRangeType => true
  | _, _ => match int_value v, int_value w with Ok x, Ok y => (x =? y)%Z | _, _ => false end
  end.
Definition eval_cmp (o : cmp) (v w : value) : res value :=
  match o with
  | Eq => Ok (VBool (value_eq v w))
  | Ne => Ok (VBool (negb (value_eq v w)))
  | _ => do x <- int_value v; do y <- int_value w;
         Ok (VBool (match o with Lt => x <? y | Le => x <=? y | Gt => y <? x | _ => y <=? x end)%Z)
  end.
Definition eval_arith (o : arith) (v w : value) : res value :=
  do x <- int_value v; do y <- int_value w;
  match o with
  | Add => Ok (VInt (x + y)) | Sub => Ok (VInt (x - y)) | Mul => Ok (VInt (x * y))
  | FloorDiv => if (y =? 0)%Z then Raise ZeroDivisionError else Ok (VInt (x / y))
  | Mod => if (y =? 0)%Z then Raise ZeroDivisionError else Ok (VInt (x mod y))
  end.
Definition eval_in (v w : value) : res bool :=
  match w with
  | VRange a b s => Ok (match int_value v with Ok z => range_mem z a b s | Raise _ => false end)
  | _ => Raise TypeError
  end.
Definition eval_call (f : value) (args : list value) : res value :=
  match f with
  | VRangeType =>
      do zs <- traverse int_value args;
      match zs with
      | [b] => Ok (VRange 0 b 1)
      | [a; b] => Ok (VRange a b 1)
      | [a; b; s] => if (s =? 0)%Z then Raise ValueError else Ok (VRange a b s)
      | _ => Raise TypeError
      end
  | _ => Raise TypeError
  end.

Definition RANGE : str := lit "range".

(** [eval(code, {'__builtins__': BUILTINS}, locals)] *)
Fixpoint eval (locals : list (str * Z)) (e : expr) : res value :=
  match e with
  | EInt z => Ok (VInt z)
  | EBool b => Ok (VBool b)
  | EName n => match dget locals n with
               | Some z => Ok (VInt z)
               | None => if decide (n = RANGE) then Ok VRangeType else Raise NameError
               end
  | ENeg a => do v <- eval locals a; do z <- int_value v; Ok (VInt (- z))
  | EArith o a b => do v <- eval locals a; do w <- eval locals b; eval_arith o v w
  | ECmp o a b => do v <- eval locals a; do w <- eval locals b; eval_cmp o v w
  | EIn a b => do v <- eval locals a; do w <- eval locals b; do r <- eval_in v w; Ok (VBool r)
  | ENotIn a b => do v <- eval locals a; do w <- eval locals b; do r <- eval_in v w; Ok (VBool (negb r))
  | ENot a => do v <- eval locals a; Ok (VBool (negb (truth v)))
  | EAnd a b => do v <- eval locals a; if truth v then eval locals b else Ok v
  | EOr a b => do v <- eval locals a; if truth v then Ok v else eval locals b
  | ECall f args => do v <- eval locals f; do vs <- traverse id (map (eval locals) args); eval_call v vs
  end.

(** zcollection/expression.py:40-52, [Expression.__call__]: the local variables
    are the names of the expression other than [range]; the first one missing
    raises NameError before the evaluation. *)
Definition call_expression (e : expr) (variables : list (str * Z)) : res value :=
  do locals <- traverse (fun n => match dget variables n with
                                  | Some z => Ok (n, z)
                                  | None => Raise NameError end)
                        (List.filter (fun n => negb (bool_decide (n = RANGE))) (co_names e));
  eval (dict_of locals) e.

(** ** partitions() (collection/abc.py) *)

(** The argument [filters]: None, a Python expression, or a function of the
    dictionary of the keys, seen through the truth of its result. *)
Inductive filter := NoFilter | FExpr (e : expr) | FFun (f : list (str * Z) -> res bool).

(** [str.replace(old, '')]: the occurrences of [old] are removed from left to
    right. [fuel] is the length of the string. *)
Fixpoint remove_fuel (fuel : nat) (old s : str) : str :=
  match fuel, s with
  | S f, c :: s' => match strip_prefix old s with
                    | Some rest => remove_fuel f old rest
                    | None => c :: remove_fuel f old s'
                    end
  | _, _ => s
  end.
Definition str_remove (old s : str) : str :=
  match old with [] => s | _ => remove_fuel (length s) old s end.

(** zcollection/collection/abc.py:280-295, [_is_selected], on the path with the
    base directory removed (splitting at '/' and joining again with '/' is the
    identity). *)
Definition is_selected (p : partitioning) (f : filter) (item : str) : res bool :=
  match f with
  | NoFilter => Ok true
  | FExpr e => do k <- p_parse p item; do v <- call_expression e (dict_of k); Ok (truth v)
  | FFun g => do k <- p_parse p item; g (dict_of k)
  end.

(** [\[item for item in items if cond(item)\]] *)
Fixpoint filter_res {A} (f : A -> res bool) (l : list A) : res (list A) :=
  match l with
  | [] => Ok []
  | x :: l => do b <- f x; do r <- filter_res f l; Ok (if b then x :: r else r)
  end.

(** zcollection/collection/abc.py:309-365, [partitions], for a collection whose
    directory is [d]. [cache] is the argument [cache]; [immutable] the path of
    the immutable group, if any.  Simplification: the generator is consumed at
    once.  The argument [lock] only matters for C40. *)
Definition partitions {C} (order : list str -> list str) (p : partitioning) (d : path)
  (immutable : option path) (cache : option (list path)) (f : filter) (t : fs C) : res (list path) :=
  do items <- match cache with
              | Some c => Ok c
              | None => list_partitions order p t d
              end;
  filter_res (fun item => if bool_decide (Some item = immutable) then Ok false
                          else is_selected p f (str_remove (path_str d) (path_str item))) items.

(** The strings yielded: absolute paths, or relative ones
    (collection/abc.py:297-307, [_relative_path]). *)
Definition partition_strings (d : path) (relative : bool) (items : list path) : list str :=
  map (fun q => if relative then join_with (lit "/") (drop (length d) q) else path_str q) items.
