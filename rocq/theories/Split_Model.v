(** * Model of the splitting of a dataset into partitions
    (partitioning/abc.py, sequence.py and date.py) *)
From Verif Require Import Py.

(** An index array: its dtype (given by the exclusive upper bound of the
    values it can hold) and its values. *)
Record indices := Indices { ix_bound : Z; ix_vals : list nat }.

(** zcollection/partitioning/abc.py:84-109, [unique], for the rows of a lazy
    array. [mask\[0\] = True] raises IndexError on an empty array;
    [mask\[1:\]] marks the rows that differ from their predecessor
    (abc.py:47-81, [_logical_or_reduce], for rows of several columns).
    l.102: the dtype of the indices is uint32 below 2**32 rows, else uint64.
    [arr\[mask\]] keeps the marked items. Simplification: blocks (chunks) of
    the dask array are not represented. *)
Definition select {A} (mask : list bool) (arr : list A) : list A :=
  map fst (List.filter (fun xm => snd xm) (combine arr mask)).

Definition unique {A} `{EqDecision A} (arr : list A) : res (list A * indices) :=
  let size := length arr in
  if size =? 0 then Raise IndexError else
  let mask := true :: zip_with (fun x y => bool_decide (x <> y))
                               (drop 1 arr) (take (size - 1) arr) in
  let bound := (if Z.of_nat size <? 2^32 then 2^32 else 2^64)%Z in
  Ok (select mask arr, Indices bound (select mask (seq 0 size))).

(** numpy.unique(arr, axis=0, return_index=True): the distinct items in
    increasing order and the index of the first occurrence of each (library
    function, modelled by its documentation). [leb] is the order of the
    items. *)
Fixpoint usort_insert {A} (leb : A -> A -> bool) (x : A) (l : list A) : list A :=
  match l with
  | [] => [x]
  | y :: l' => if leb x y then if leb y x then l else x :: l
               else y :: usort_insert leb x l'
  end.
Definition usort {A} (leb : A -> A -> bool) (l : list A) : list A :=
  foldr (usort_insert leb) [] l.
Fixpoint first_index {A} `{EqDecision A} (x : A) (l : list A) : nat :=
  match l with
  | [] => 0
  | y :: l => if decide (x = y) then 0 else S (first_index x l)
  end.
Definition np_unique {A} `{EqDecision A} (leb : A -> A -> bool) (arr : list A)
  : list A * list nat :=
  let index := usort leb arr in (index, map (fun x => first_index x arr) index).

(** [numpy.all(numpy.diff(l) > 0)] on integers. *)
Fixpoint all_increasing (l : list nat) : bool :=
  match l with
  | x :: (y :: _) as l' => (x <? y) && all_increasing l'
  | _ => true
  end.

(** zcollection/partitioning/abc.py:112-127, [unique_and_check_monotony];
    the indices are int64. *)
Definition unique_and_check_monotony {A} `{EqDecision A} (leb : A -> A -> bool)
    (arr : list A) : res (list A * indices) :=
  let '(index, indices) := np_unique leb arr in
  if negb (all_increasing indices) then Raise ValueError
  else Ok (index, Indices (2^63)%Z indices).

(** zcollection/partitioning/abc.py:142-151, [concatenate_item]: the item must
    fit the dtype of the array. *)
Definition concatenate_item (arr : indices) (item : nat) : res (list nat) :=
  if (Z.of_nat item <? ix_bound arr)%Z then Ok (ix_vals arr ++ [item])
  else Raise OverflowError.

(** The generator expressions of sequence.py:122-124 and date.py:145-146:
    [for item, (ix, start) in zip(index, enumerate(indices\[:-1\]))]. *)
Definition slices_of {A} (index : list A) (indices : list nat)
  : list (A * (nat * nat)) :=
  zip_with (fun item (ixs : nat * nat) => (item, (ixs.2, nth (ixs.1 + 1) indices 0)))
           index (imap pair (take (length indices - 1) indices)).

(** ** Sequence *)

(** Order of the rows of an integer matrix: lexicographic. *)
Fixpoint row_leb (a b : list Z) : bool :=
  match a, b with
  | [], _ => true
  | _ :: _, [] => false
  | x :: a, y :: b => (x <? y)%Z || ((x =? y)%Z && row_leb a b)
  end.

(** numpy.lexsort(keys): indirect stable sort; the last key is the primary
    one.  Modelled as successive stable sorts of the row numbers, from the
    first (least significant) key to the last. *)
Fixpoint stable_insert (key : nat -> Z) (i : nat) (l : list nat) : list nat :=
  match l with
  | [] => [i]
  | j :: l' => if (key i <=? key j)%Z then i :: l else j :: stable_insert key i l'
  end.
Definition stable_sort (key : nat -> Z) (l : list nat) : list nat :=
  foldr (stable_insert key) [] l.
Definition lexsort (keys : list (list Z)) (n : nat) : list nat :=
  fold_left (fun order key => stable_sort (fun i => nth i key 0%Z) order) keys (seq 0 n).

(** Column [ix] of a matrix given by rows: [arr\[:, ix\]]. *)
Definition column (rows : list (list Z)) (ix : nat) : list Z :=
  map (fun r => nth ix r 0%Z) rows.

(** zcollection/partitioning/sequence.py:21-39, [_is_monotonic]; [ncols] is
    [arr.shape\[1\]]. abc.py:130-139, [difference], is inlined in
    [all_increasing]. *)
Definition is_monotonic (rows : list (list Z)) (ncols : nat) : bool :=
  let values := map (column rows) (rev (seq 0 ncols)) in
  let sort_order := lexsort values (length rows) in
  all_increasing sort_order.

(** zcollection/partitioning/sequence.py:42-59, [_unique]. *)
Definition seq_unique (rows : list (list Z)) (ncols : nat) (is_delayed : bool)
  : res (list (list Z) * indices) :=
  if is_delayed then
    do ii <- unique rows;
    if negb (is_monotonic ii.1 ncols) then Raise ValueError else Ok ii
  else unique_and_check_monotony row_leb rows.

(** A partition key as announced by the splitting: variables and values. *)
Definition scheme := list (str * Z).

(** [vstack(...).transpose()]: the rows of the matrix of columns. *)
Definition transpose_rows (cols : list (list Z)) (n : nat) : list (list Z) :=
  map (fun i => map (fun c => nth i c 0%Z) cols) (seq 0 n).

(** zcollection/partitioning/sequence.py:90-125, [Sequence._split].
    [variables] is the ordered dictionary of the columns, [integer] tells
    whether the dtype kind of the matrix is 'i' or 'u'.  vstack raises
    ValueError on columns of different sizes. *)
Definition sequence_split (variables : list (str * list Z)) (integer is_delayed : bool)
  : res (list (scheme * (nat * nat))) :=
  let cols := map snd variables in
  let n := match cols with [] => 0 | c :: _ => length c end in
  (* l.104-106 *)
  if (length cols =? 0) || negb (forallb (fun c => length c =? n) cols) then Raise ValueError else
  let matrix := transpose_rows cols n in
  (* l.107-108 *)
  if negb integer then Raise TypeError else
  (* l.110 *)
  do ii <- seq_unique matrix (length cols) is_delayed;
  (* l.111 *)
  do indices <- concatenate_item ii.2 n;
  (* l.113-119 *)
  let fields := map fst variables in
  let concat := fun (keys : list Z) =>
    match fields, keys with
    | [f], [k] => [(f, k)]          (* (fields + keys, ) *)
    | _, _ => zip fields keys       (* tuple(zip(fields, keys)) *)
    end in
  (* l.122-124 *)
  Ok (map (fun ks => (concat ks.1, ks.2)) (slices_of ii.1 indices)).

(** ** Date *)

(** [numpy.all(abc.difference(index.view(int64)) >= 0)] *)
Fixpoint all_nondecreasing (l : list Z) : bool :=
  match l with
  | x :: (y :: _) as l' => (0 <=? y - x)%Z && all_nondecreasing l'
  | _ => true
  end.

(** zcollection/partitioning/date.py:40-62, [_unique], on the dates truncated
    to the resolution (integers counted in units of the resolution). *)
Definition date_unique (arr : list Z) (is_delayed : bool) : res (list Z * indices) :=
  if is_delayed then
    do ii <- unique arr;
    if negb (all_nondecreasing ii.1) then Raise ValueError else Ok ii
  else unique_and_check_monotony Z.leb arr.

(** zcollection/partitioning/date.py:122-146, [Date._split]: [datetime] tells
    whether the dtype is datetime64; [trunc] is
    [astype(f'datetime64\[{self.resolution}\]')], defined in Calendar_Model. *)
Definition date_split (trunc : Z -> Z) (values : list Z) (datetime is_delayed : bool)
  : res (list (Z * (nat * nat))) :=
  if negb datetime then Raise TypeError else
  do ii <- date_unique (map trunc values) is_delayed;
  do indices <- concatenate_item ii.2 (length values);
  Ok (slices_of ii.1 indices).
