(** * n-dimensional arrays

    NumPy, dask and zarr arrays are modelled by their shape and their items in
    row-major order; the library functions used by zcollection (indexing along
    an axis, concatenate, delete, full, masked_equal) are modelled by their
    documentation. Chunks, and the laziness of dask arrays, are not
    represented. *)
From Verif Require Import Py.

(** An item: a number (integer, date, or any value that equals itself, coded
    by an integer), or a not-a-number (NaN, NaT). *)
Inductive val := Num (z : Z) | NaN.
Global Instance val_eq_dec : EqDecision val.
Proof. solve_decision. Defined.

(** Python's and NumPy's [==]: a NaN differs from itself. *)
Definition py_eq (a b : val) : bool :=
  match a, b with Num x, Num y => (x =? y)%Z | _, _ => false end.

Record arr := Arr { a_shape : list nat; a_flat : list val }.
Global Instance arr_eq_dec : EqDecision arr.
Proof. solve_decision. Defined.

Fixpoint nprod (s : list nat) : nat :=
  match s with [] => 1 | n :: s => n * nprod s end.

(** The array has as many items as its shape says. *)
Definition arr_wf (a : arr) : Prop := length (a_flat a) = nprod (a_shape a).

(** The indices of a shape, in row-major order. *)
Fixpoint indices (s : list nat) : list (list nat) :=
  match s with
  | [] => [[]]
  | n :: s => flat_map (fun i => map (cons i) (indices s)) (seq 0 n)
  end.

(** Position of an index in row-major order. *)
Fixpoint ravel (s idx : list nat) : nat :=
  match s, idx with
  | _ :: s, i :: idx => i * nprod s + ravel s idx
  | _, _ => 0
  end.

(** [a\[idx\]], for an index of the shape. *)
Definition get (a : arr) (idx : list nat) : val := nth (ravel (a_shape a) idx) (a_flat a) NaN.

(** The array of shape [s] whose item at [idx] is [f idx]. *)
Definition tabulate (s : list nat) (f : list nat -> val) : arr := Arr s (map f (indices s)).

(** numpy.full *)
Definition full (s : list nat) (v : val) : arr := tabulate s (fun _ => v).

(** [a\[:, ..., ixs, ..., :\]]: the items at positions [ixs] along axis [ax]. *)
Definition take_axis (ax : nat) (ixs : list nat) (a : arr) : arr :=
  tabulate (<[ax := length ixs]> (a_shape a))
    (fun idx => get a (<[ax := nth (nth ax idx 0) ixs 0]> idx)).

(** numpy.concatenate((a, b), axis): the arrays must have the same number of
    dimensions and agree on all of them except [ax]. *)
Definition cat2 (ax : nat) (a b : arr) : res arr :=
  let sa := a_shape a in
  let sb := a_shape b in
  let n := nth ax sa 0 in
  if (length sa <=? ax) || negb (length sa =? length sb) ||
     negb (bool_decide (<[ax := 0]> sa = <[ax := 0]> sb)) then Raise ValueError else
  Ok (tabulate (<[ax := n + nth ax sb 0]> sa)
       (fun idx => let i := nth ax idx 0 in
          if i <? n then get a idx else get b (<[ax := i - n]> idx))).

(** numpy.concatenate of several arrays. *)
Definition cat (ax : nat) (a : arr) (others : list arr) : res arr := foldM (cat2 ax) a others.

(** An index along an axis: a slice with step 1 or a list of integers.
    Simplification: integers and steps are not used by the modelled code. *)
Inductive indexer := ISlice (start stop : option Z) | IList (l : list Z).

(** [slice(start, stop).indices(n)] *)
Definition clip (n : nat) (x : Z) : nat :=
  Z.to_nat (if (x <? 0)%Z then Z.max 0 (x + Z.of_nat n) else Z.min x (Z.of_nat n)).
Definition slice_bounds (n : nat) (start stop : option Z) : nat * nat :=
  (match start with None => 0 | Some x => clip n x end,
   match stop with None => n | Some x => clip n x end).

(** The positions an indexer designates on an axis of size [n]. *)
Definition positions (n : nat) (ix : indexer) : res (list nat) :=
  match ix with
  | ISlice start stop => let '(a, b) := slice_bounds n start stop in Ok (seq a (b - a))
  | IList l => traverse (fun x =>
      if (((- Z.of_nat n) <=? x) && (x <? Z.of_nat n))%Z
      then Ok (Z.to_nat (if (x <? 0)%Z then x + Z.of_nat n else x)%Z)
      else Raise IndexError) l
  end.

(** [array\[key\]] for a tuple of indexers, one per axis from [ax] on, applied to
    each axis independently. Simplification: NumPy pairs the lists when there
    are several of them; the modelled code gives at most one. *)
Fixpoint index_axes (ax : nat) (key : list indexer) (a : arr) : res arr :=
  match key with
  | [] => Ok a
  | ix :: key =>
      if length (a_shape a) <=? ax then Raise IndexError else
      do ps <- positions (nth ax (a_shape a) 0) ix;
      index_axes (S ax) key (take_axis ax ps a)
  end.

(** numpy.delete(a, indexer, ax): the positions that are not designated. *)
Definition delete_axis (ax : nat) (ix : indexer) (a : arr) : res arr :=
  if length (a_shape a) <=? ax then Raise IndexError else
  let n := nth ax (a_shape a) 0 in
  do ps <- positions n ix;
  Ok (take_axis ax (List.filter (fun i => negb (memb i ps)) (seq 0 n)) a).

(** ** Masked arrays *)
Record marr := MArr { m_data : arr; m_mask : list bool; m_fill : val }.
Definition marr_wf (m : marr) : Prop := arr_wf (m_data m) /\ length (m_mask m) = length (a_flat (m_data m)).

(** numpy.ma.filled(m, fill) *)
Definition filled (m : marr) (fill : val) : arr :=
  Arr (a_shape (m_data m))
      (zip_with (fun (v : val) (b : bool) => if b then fill else v) (a_flat (m_data m)) (m_mask m)).
(** numpy.ma.masked_equal(a, fill) *)
Definition masked_equal (a : arr) (fill : val) : marr :=
  MArr a (map (fun v => py_eq v fill) (a_flat a)) fill.
