(** * Model of merging/time_series.py *)
From Verif Require Import Py NdArray_Model Dataset_Model Period_Model Period_Spec.

(** [ds.variables\[axis\].values], the values of a variable of dates, in units of
    its resolution [r]. Simplification: no NaT and no masked date (TypeError
    stands for them); the axis is used as the flat list of its values. *)
Definition axis_values (ds : dataset) (axis : str) : res (list Z) :=
  match dget (d_vars ds) axis with
  | None => Raise KeyError
  | Some v => traverse (fun x => match x with Num z => Ok z | NaN => Raise TypeError end) (a_flat (v_array v))
  end.

(** [values.min()] and [values.max()]; ValueError for an empty array. *)
Definition zmin (l : list Z) : res Z :=
  match l with [] => Raise ValueError | x :: l => Ok (fold_left Z.min l x) end.
Definition zmax (l : list Z) : res Z :=
  match l with [] => Raise ValueError | x :: l => Ok (fold_left Z.max l x) end.

(** [numpy.where(cond)\[0\]] *)
Definition where_ (p : Z -> bool) (l : list Z) : list nat :=
  List.filter (fun i => p (nth i l 0%Z)) (seq 0 (length l)).

(** [index\[0\]] and [index\[-1\]] of an array. *)
Definition first_of (l : list nat) : res Z :=
  match l with [] => Raise IndexError | x :: _ => Ok (Z.of_nat x) end.
Definition last_of (l : list nat) : res Z :=
  match last l with None => Raise IndexError | Some x => Ok (Z.of_nat x) end.

(** merging/time_series.py:16-89, [_merge_time_series]. Simplification: the
    axes of the two datasets have the same resolution [r]. *)
Definition merge_time_series_ (r : resolution) (existing_ds inserted_ds : dataset) (axis partitioning_dim : str)
  : res dataset :=
  (* l.27-34 *)
  do existing_axis <- axis_values existing_ds axis;
  do inserted_axis <- axis_values inserted_ds axis;
  do emin <- zmin existing_axis;
  do emax <- zmax existing_axis;
  let existing_period := Period (instant r emin) (instant r emax) true in
  do imin <- zmin inserted_axis;
  do imax <- zmax inserted_axis;
  let inserted_period := Period (instant r imin) (instant r imax) true in
  (* l.36-37 *)
  do relation <- get_relation inserted_period existing_period;
  (* l.40-41 *)
  if rel_is_before relation then ds_concat inserted_ds [existing_ds] partitioning_dim else
  (* l.44-45 *)
  if rel_is_after relation then ds_concat existing_ds [inserted_ds] partitioning_dim else
  (* l.48-49 *)
  if rel_contains relation then Ok inserted_ds else
  (* l.51 *)
  let inter := intersection inserted_period existing_period in
  let later := where_ (fun t => (tick (p_end inter) <? tick (instant r t))%Z) existing_axis in
  let earlier := where_ (fun t => (tick (instant r t) <? tick (p_begin inter))%Z) existing_axis in
  (* l.55-62 *)
  if rel_is_before_overlapping relation then
    do tail <- ds_isel existing_ds [(partitioning_dim, IList (map Z.of_nat later))];
    ds_concat inserted_ds [tail] partitioning_dim else
  (* l.66-74 *)
  if rel_is_after_overlapping relation then
    do head <- ds_isel existing_ds [(partitioning_dim, IList (map Z.of_nat earlier))];
    ds_concat head [inserted_ds] partitioning_dim else
  (* l.76 *)
  if negb (rel_is_inside relation) then Raise AssertionError else
  (* l.78-89 *)
  do n <- last_of earlier;
  do before <- ds_isel existing_ds [(partitioning_dim, ISlice (Some 0%Z) (Some (n + 1)%Z))];
  do a <- first_of later;
  do b <- last_of later;
  do after <- ds_isel existing_ds [(partitioning_dim, ISlice (Some a) (Some (b + 1)%Z))];
  ds_concat before [inserted_ds; after] partitioning_dim.

(** numpy.diff *)
Fixpoint diff (l : list Z) : list Z :=
  match l with
  | x :: ((y :: _) as l') => (y - x)%Z :: diff l'
  | _ => []
  end.

(** merging/time_series.py:92-153, [merge_time_series]; the tolerance is in
    units of the axis. *)
Definition merge_time_series (r : resolution) (existing_ds inserted_ds : dataset) (axis partitioning_dim : str)
    (tolerance : option Z) : res dataset :=
  (* l.134-143; roll by 0 is the identity *)
  do index <- match tolerance with
    | None => Ok []
    | Some t =>
        do inserted_axis <- axis_values inserted_ds axis;
        let delta := 0%Z :: diff inserted_axis in
        Ok (0 :: where_ (fun d => (t <? d)%Z) delta ++ [length inserted_axis])
    end;
  (* l.145-153 *)
  if 1 <? length index then
    foldM (fun ds ab =>
        do part <- ds_isel inserted_ds [(partitioning_dim, ISlice (Some (Z.of_nat ab.1)) (Some (Z.of_nat ab.2)))];
        merge_time_series_ r ds part axis partitioning_dim)
      existing_ds (zip index (tail index))
  else merge_time_series_ r existing_ds inserted_ds axis partitioning_dim.
