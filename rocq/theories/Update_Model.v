(** * Model of the calls that transform the partitions of a collection
    (collection/__init__.py, collection/abc.py, collection/detail.py,
    storage.py): update, map, map_overlap, add_variable, drop_variable,
    validate_partitions, copy

    Simplifications: those of Collection_Model; the arguments [args] and
    [kwargs] are part of the callback; a value is stored as it is (the casts to
    the dtype of the variable are not modelled). *)
From Verif Require Import Py NdArray_Model Dataset_Model Meta_Model PartPath_Model DaskUtils_Model FS_Model Pool_Model Storage_Model Listing_Model Collection_Model.

(** ** Callbacks *)

(** What a callback returns for a variable: an array, or a lazy (dask) array
    computed from the dataset that the callback received. *)
Inductive result := Known (d : vdata) | Lazy (g : dataset -> res vdata).

(** [partition_info]: the name of the partitioning dimension and a slice. *)
Definition info : Type := str * (nat * nat).

(** collection/callable_objects.py: a callback given by its results;
    [cb_info]: it has a keyword partition_info. *)
Record callback (B : Type) := Callback { cb_info : bool; cb_call : dataset -> option info -> res B }.
Global Arguments Callback {B} _ _.
Global Arguments cb_info {B} _.
Global Arguments cb_call {B} _ _ _.
Notation update_callback := (callback (list (str * result))).

Definition call_with {B} (f : callback B) (ds : dataset) (i : info) : res B :=
  cb_call f ds (if cb_info f then Some i else None).

(** ** Writing the values of a variable *)

(** storage.py:370-372: masked values are written as the fill value of the
    stored array. *)
Definition to_store (fill : option val) (d : vdata) : arr :=
  match d with
  | Plain a => a
  | Masked m => match fill with Some f => filled m f | None => m_data m end
  end.

(** [array\[key\]] of a plain or masked array: the mask is indexed as the data. *)
Definition mask_arr (m : marr) : arr := Arr (a_shape (m_data m)) (map (fun b : bool => Num (if b then 1 else 0)) (m_mask m)).
Definition vd_index (key : list indexer) (d : vdata) : res vdata :=
  match d with
  | Plain a => do a <- index_axes 0 key a; Ok (Plain a)
  | Masked m =>
      do a <- index_axes 0 key (m_data m);
      do b <- index_axes 0 key (mask_arr m);
      Ok (Masked (MArr a (map (fun v => bool_decide (v = Num 1)) (a_flat b)) (m_fill m)))
  end.

(** storage.py:345-377, [update_zarr_array]: zarr.open_array(mode='a') raises
    TypeError when there is no array (no shape to create one with); a lazy
    array is computed; [store\[:\] = array] raises ValueError when the shapes
    differ (NumPy's broadcasting of smaller shapes is not modelled) and
    IndexError on an array without dimension; all the chunks are written. *)
Definition update_zarr_array (d : path) (array : program vdata) : program unit :=
  let! z <- read_file (d ++ [ZARRAY]);
  match z with
  | None => praise TypeError
  | Some (CMeta (MArray z)) =>
      let! x <- array;
      let a := to_store (z_fill z) x in
      match z_shape z with
      | [] => praise IndexError
      | _ => if bool_decide (z_shape z = a_shape a) then write_chunks d z false a else praise ValueError
      end
  | Some _ => praise ValueError
  end.

(** The computation of a returned array. A dataset opened with [delayed] is
    read when the array is computed: [reload] gives it as it is then. *)
Definition evaluate (reload : program dataset) (delayed : bool) (ds : dataset) (r : result) : program vdata :=
  match r with
  | Known d => pret d
  | Lazy g => if delayed then let! ds <- reload; Ret (g ds) else Ret (g ds)
  end.

(** The dictionary that a callback returns: the keys are distinct. *)
Definition call_dict (r : res (list (str * result))) : res (list (str * result)) := do l <- r; Ok (dict_of l).

(** ** Partition by partition *)

(** collection/detail.py:146-173, [_load_dataset] *)
Definition load_dataset (c : collection) (delayed : bool) (selected : option (list str)) (part : path) : program dataset :=
  let! ds <- open_zarr_group part delayed selected;
  match immutable_path c with
  | None => pret ds
  | Some q => let! i <- open_zarr_group q delayed selected; Ret (of_mut (ds_merge ds i))
  end.

(** collection/detail.py:282-293, [wrap_function] of [_wrap_update_func], for
    one partition *)
Definition update_partition (c : collection) (delayed : bool) (selected : option (list str)) (f : update_callback)
    (part : path) : program unit :=
  let load := load_dataset c delayed selected part in
  let! ds <- load;
  let! l <- Ret (call_dict (cb_call f ds None));
  pfor l (fun nr => update_zarr_array (part ++ [nr.1]) (evaluate load delayed ds nr.2)).

(** ** With the neighbours *)

(** [partitions.index(partition)] *)
Fixpoint where_is (part : path) (parts : list path) : option nat :=
  match parts with
  | [] => None
  | q :: parts => if decide (part = q) then Some 0 else option_map S (where_is part parts)
  end.
(** collection/detail.py:221-224: the partitions at [range(where - depth,
    where + depth + 1)] that exist. *)
Definition zrange (a b : Z) : list Z := map (fun i => (a + Z.of_nat i)%Z) (seq 0 (Z.to_nat (b - a))).
Definition window {A} (l : list A) (i : nat) (depth : Z) : list A :=
  omap (fun ix => if (0 <=? ix)%Z then l !! Z.to_nat ix else None) (zrange (Z.of_nat i - depth) (Z.of_nat i + depth + 1)).

(** collection/detail.py:203-216, [calculate_slice] *)
Fixpoint calculate_slice (dim : str) (part : path) (start : nat) (ix : nat * nat) (groups : list (path * dataset))
  : res (nat * nat) :=
  match groups with
  | [] => Ok ix
  | (q, ds) :: groups =>
      match dget (d_dims ds) dim with
      | None => Raise KeyError
      | Some size =>
          let ix := (start, start + size) in
          if decide (part = q) then Ok ix else calculate_slice dim part (start + size) ix groups
      end
  end.

(** collection/detail.py:176-250, [_load_dataset_with_overlap]; lines 244-249
    merge the partition itself when the collection has immutable variables. *)
Definition load_overlap (c : collection) (delayed : bool) (depth : Z) (parts : list path) (selected : option (list str))
    (part : path) : program (dataset * (nat * nat)) :=
  match where_is part parts with
  | None => praise ValueError
  | Some w =>
      let chosen := window parts w depth in
      let! groups <- pseq (map (fun q => open_zarr_group q delayed selected) chosen);
      let! ix <- Ret (calculate_slice (c_dim c) part 0 (0, 0) (zip chosen groups));
      match groups with
      | [] => praise IndexError
      | g :: others =>
          let! ds <- Ret (match others with [] => Ok g | _ => ds_concat g others (c_dim c) end);
          let! ds <- match immutable_path c with
                     | None => pret ds
                     | Some _ => let! p <- open_zarr_group part delayed selected; Ret (of_mut (ds_merge ds p))
                     end;
          pret (ds, ix)
      end
  end.

(** collection/detail.py:41-55, [_get_slices] *)
Definition get_slices (v : variable) (dim : str) (ix : nat * nat) : res (list indexer) :=
  match index_of dim (v_dims v) with
  | None => Raise ValueError
  | Some k => Ok (<[k := ISlice (Some (Z.of_nat ix.1)) (Some (Z.of_nat ix.2))]> (replicate (length (v_dims v)) (ISlice None None)))
  end.

(** collection/detail.py:96-143, [_update_with_overlap], and 338-363,
    [wrap_function] of [_wrap_update_func_with_overlap], for one partition.
    Simplification: a lazy array is indexed when it is computed. *)
Definition update_overlap (c : collection) (delayed : bool) (depth : Z) (parts : list path) (selected : option (list str))
    (trim : bool) (f : update_callback) (part : path) : program unit :=
  let load := load_overlap c delayed depth parts selected part in
  let! di <- load;
  let '(ds, ix) := di in
  let! l <- Ret (call_dict (call_with f ds (c_dim c, ix)));
  pfor l (fun nr =>
    let value := evaluate (let! di <- load; pret di.1) delayed ds nr.2 in
    if trim then
      let! v <- Ret (get_var ds nr.1);
      let! key <- Ret (get_slices v (c_dim c) ix);
      update_zarr_array (part ++ [nr.1]) (let! x <- value; Ret (vd_index key x))
    else update_zarr_array (part ++ [nr.1]) value).

(** ** update *)

(** collection/__init__.py:77-105, [_infer_callable], with
    collection/detail.py:58-93, [_try_infer_callable] *)
Definition infer_callable (e : env) (c : collection) (f : update_callback) (filt : filter) (delayed : bool)
    (selected : option (list str)) : program (list str) :=
  let! parts <- select_parts e c filt;
  match parts with
  | [] => pret []
  | q :: _ =>
      let! ds <- open_zarr_group q delayed selected;
      match dget (d_dims ds) (c_dim c) with
      | None => praise KeyError
      | Some n =>
          match call_dict (call_with f ds (c_dim c, (0, n))) with
          | Raise _ => praise RuntimeError
          | Ok l => if forallb (fun x => dmem (md_vars (c_meta c)) x) (dkeys l) then pret (dkeys l) else praise ValueError
          end
      end
  end.

(** collection/__init__.py:478-585, [update]. [workers]: the number of cores of
    the dask workers; [sched]: how the tasks interleave. The code also extends
    the list [selected_variables] of the caller (551-553). *)
Definition update (e : env) (sched : schedule) (workers : Z) (c : collection) (f : update_callback) (delayed : bool) (depth : Z)
    (filt : filter) (npartitions : option Z) (selected : option (list str)) (trim : bool) (variables : list str)
  : program unit :=
  if c_readonly c then praise UnsupportedOperation else
  let! variables <- match variables with
                    | [] => infer_callable e c f filt delayed selected
                    | _ => pret variables
                    end;
  match variables with
  | [] => pret tt
  | _ =>
      let selected := if (depth =? 0)%Z then selected
                      else match selected with
                           | None => None
                           | Some l => Some (l ++ List.filter (fun n => negb (memb n l)) variables)
                           end in
      let! parts <- select_parts e c filt;
      if (depth <? 0)%Z then praise ValueError else
      let one := if (depth =? 0)%Z then update_partition c delayed selected f
                 else update_overlap c delayed depth parts selected trim f in
      let n := match npartitions with Some n => if (n =? 0)%Z then workers else n | None => workers end in
      let! batches <- Ret (split_sequence parts (Some n));
      let! _ <- execute_transaction CTorn sched (map (fun b => pfor b one) batches);
      pret tt
  end.

(** ** map *)

(** collection/abc.py:369-444, [map], with the computation of the bag it
    returns (in the order of the partitions; nothing is written). *)
Definition map_partitions {B} (e : env) (c : collection) (f : callback B) (delayed : bool) (filt : filter)
    (selected : option (list str)) : program (list (list (str * Z) * B)) :=
  let! parts <- select_parts e c filt;
  pseq (map (fun q =>
    let! ds <- load_dataset c delayed selected q;
    let! k <- Ret (p_parse (c_part c) (path_str q));
    let! b <- Ret (cb_call f ds None);
    pret (k, b)) parts).

(** collection/abc.py:447-559, [map_overlap], computed *)
Definition map_overlap {B} (e : env) (c : collection) (f : callback B) (delayed : bool) (depth : Z) (filt : filter)
    (selected : option (list str)) : program (list (list (str * Z) * B)) :=
  let! parts <- select_parts e c filt;
  pseq (map (fun q =>
    let! di <- load_overlap c delayed depth parts selected q;
    let! k <- Ret (p_parse (c_part c) (path_str q));
    let! b <- Ret (call_with f di.1 (c_dim c, di.2));
    pret (k, b)) parts).

(** ** Adding and dropping a variable *)

Definition with_meta (c : collection) (m : mdataset) : collection :=
  Coll (c_axis c) m (c_part c) (c_dir c) (c_dim c) (c_immutable c) (c_readonly c).

(** collection/abc.py:660-677, [_bag_from_partitions], mapped with [f]:
    dask.bag.from_sequence(\[\], npartitions=0) raises TypeError. *)
Definition bag_map {A B} (parts : list A) (f : A -> B) : res (list B) :=
  match parts with [] => Raise TypeError | _ => Ok (map f parts) end.

(** collection/__init__.py:587-627, [drop_variable]: the collection after the
    call; it does not change when the call raises. *)
Definition drop_variable (e : env) (sched : schedule) (c : collection) (name : str) : program collection :=
  if c_readonly c then praise UnsupportedOperation else
  if memb name (p_variables (c_part c)) then praise ValueError else
  if negb (dmem (md_vars (c_meta c)) name) then praise ValueError else
  let! _ <- match immutable_path c with
            | None => pret tt
            | Some q => let! i <- open_zarr_group q true None;
                        if dmem (d_vars i) name then praise ValueError else pret tt
            end;
  let! parts <- select_parts e c NoFilter;
  let! tasks <- Ret (bag_map parts (fun q => del_zarr_array q name));
  let! _ <- execute_transaction CTorn sched tasks;
  let c' := with_meta c (md_del_variable (c_meta c) name) in
  let! _ <- write_config c' false;
  pret c'.

(** collection/__init__.py:629-689, [add_variable]: the collection after the
    call, and what the call raised; a call that raises before the metadata
    changes leaves the collection as it is. *)
Definition add_variable (e : env) (sched sched' : schedule) (c : collection) (v : mvar) : program (mut collection) :=
  if c_readonly c then praise UnsupportedOperation else
  if negb (memb (c_dim c) (mv_dims v)) then praise ValueError else
  let! m <- Ret (md_add_variable (c_meta c) v);
  let c1 := with_meta c m in
  let! _ <- write_config c1 false;
  let v := mv_set_for_insertion v in
  match md_search_same_dimensions_as m v with
  | Raise ex => pret (c1, Some ex)
  | Ok template =>
      let! r <- attempt (
        let! parts <- select_parts e c1 NoFilter;
        let! tasks <- Ret (bag_map parts (fun q => add_zarr_array q v (mv_name template) (md_chunks m)));
        execute_transaction CTorn sched tasks);
      match r with
      | Ok _ => pret (c1, None)
      | Raise ex =>
          let! r <- attempt (drop_variable e sched' c1 (mv_name v));
          match r with
          | Ok c2 => pret (c2, Some ex)
          | Raise ex' => pret (c1, Some ex')
          end
      end
  end.

(** ** Validation *)

(** collection/__init__.py:108-128, [_check_partition] *)
Definition check_partition (c : collection) (q : path) : program (path * bool) :=
  match p_parse (c_part c) (path_str q) with
  | Raise ValueError => pret (q, false)
  | Raise ex => praise ex
  | Ok _ => let! b <- check_zarr_group q; pret (q, b)
  end.

(** collection/__init__.py:760-797, [validate_partitions]; [done]: the order in
    which the checks end. *)
Definition validate_partitions (e : env) (done : list path -> list path) (c : collection) (filt : filter) (fix_ : bool)
  : program (list path) :=
  let! parts <- select_parts e c filt;
  let! checks <- pseq (map (check_partition c) (done parts));
  let invalid := map fst (List.filter (fun qb => negb qb.2) checks) in
  let! _ <- (if fix_ then pfor invalid rm else pret tt);
  pret invalid.

(** ** Copy *)

(** fs_utils.py:151-179, [copy_tree], with 111-127, [copy_file]: the files, in
    the order of the walk (not specified). The directories are in Copy_Model. *)
Definition copy_tree (source target : path) : program unit :=
  let! x <- exists_path target;
  if x then praise ValueError else
  let! t <- get_tree source;
  pfor (map fst (map_to_list t)) (fun q =>
    let! f <- read_file (source ++ q);
    match f with
    | Some f => write_file (target ++ q) f
    | None => praise FileNotFoundError
    end).

(** fs_utils.py:130-148, [copy_files] *)
Definition copy_files (source : list path) (target : path) : program unit :=
  pfor source (fun q =>
    let! f <- read_file q;
    match f, last q with
    | Some f, Some n => write_file (target ++ [n]) f
    | _, _ => praise FileNotFoundError
    end).

(** collection/__init__.py:691-758, [copy]; the target is in the same store (as
    another tree if the file system is another one). The tasks are mapped and
    gathered. *)
Definition copy (e : env) (sched : schedule) (workers : Z) (reg : registry) (c : collection) (target : path) (filt : filter)
    (mode : str) (npartitions : option Z) : program collection :=
  let n := match npartitions with Some n => if (n =? 0)%Z then workers else n | None => workers end in
  let! parts <- select_parts e c filt;
  let args := map (fun q => (q, target ++ drop (length (c_dir c)) q)) parts in
  let! batches <- Ret (split_sequence args (Some n));
  let! _ <- execute_transaction CTorn sched (map (fun b => pfor b (fun st => copy_tree st.1 st.2)) batches);
  let! t <- get_tree (c_dir c);
  let files := map (fun n => c_dir c ++ [n]) (List.filter (fun n => bool_decide (is_Some (t !! [n]))) (children (e_order e) [] t)) in
  let! _ <- copy_files files target;
  from_config reg target (Some mode).
