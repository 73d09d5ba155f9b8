(** * Model of collections (collection/abc.py, collection/__init__.py,
    collection/detail.py, merging/__init__.py)

    Simplifications: paths are lists of components on a local file system; the
    listing of the partitions sees one state of the file system; logging,
    warnings and the caches of fsspec are not represented; the lock is modelled
    in Sync_Model. *)
From Verif Require Import Py NdArray_Model Dataset_Model Meta_Model Calendar_Model PartPath_Model Split_Model DaskUtils_Model FS_Model Pool_Model Storage_Model Listing_Model.

(** What the library does not decide: the order in which a directory is listed,
    and the SHA-256 digest of a path. *)
Record env := Env { e_order : list str -> list str; e_hash : path -> str }.

(** collection/abc.py:67 and 191 *)
Definition IMMUTABLE : str := lit ".immutable".
Definition CONFIG : str := lit ".zcollection".

(** collection/abc.py:150-228: the properties and the settings of a collection;
    [c_immutable] tells whether [_immutable] is not None. *)
Record collection := Coll {
  c_axis : str;
  c_meta : mdataset;
  c_part : partitioning;
  c_dir : path;
  c_dim : str;
  c_immutable : bool;
  c_readonly : bool;
}.

(** collection/abc.py:130-147, [_immutable_path] *)
Definition has_immutable (m : mdataset) (dim : str) : bool :=
  negb (length (md_select_variables_by_dims m [dim] false) =? 0).
Definition immutable_path (c : collection) : option path :=
  if c_immutable c then Some (c_dir c ++ [IMMUTABLE]) else None.

(** collection/abc.py:193-228, [ReadOnlyCollection.__init__], with
    CollectionSettings.__post_init__ (176-178). *)
Definition new_collection (axis : str) (m : mdataset) (p : partitioning) (d : path) (mode : option str)
  : res collection :=
  match dget (md_vars m) axis with
  | None => Raise ValueError
  | Some v =>
      if negb (forallb (fun n => dmem (md_vars m) n) (p_variables p)) then Raise ValueError else
      let mode := default (lit "w") mode in
      if negb (memb mode [lit "r"; lit "w"]) then Raise ValueError else
      match mv_dims v with
      | [] => Raise IndexError
      | dim :: _ => Ok (Coll axis m p d dim (has_immutable m dim) (bool_decide (mode = lit "r")))
      end
  end.

(** collection/__init__.py:225-247, [_write_config] *)
Definition config_of (c : collection) : colconfig :=
  ColConfig (c_axis c) (md_get_config (c_meta c)) (p_get_config (c_part c)).
Definition write_config (c : collection) (skip_if_exists : bool) : program unit :=
  let! e <- exists_path (c_dir c ++ [CONFIG]);
  if e && skip_if_exists then pret tt
  else write_file (c_dir c ++ [CONFIG]) (CConf (config_of c)).

(** collection/__init__.py:171-197, [Collection.__init__] *)
Definition make_collection (axis : str) (m : mdataset) (p : partitioning) (d : path) (mode : option str)
  : program collection :=
  let! c <- Ret (new_collection axis m p d mode);
  if c_readonly c then pret c
  else let! _ <- write_config c true; pret c.

(** collection/__init__.py:253-298, [from_config]; an incomplete JSON file is a
    JSONDecodeError, a subclass of ValueError. *)
Definition from_config (reg : registry) (d : path) (mode : option str) : program collection :=
  let! e <- exists_path (d ++ [CONFIG]);
  if negb e then praise ValueError else
  let! f <- read_file (d ++ [CONFIG]);
  match f with
  | Some (CConf cc) =>
      let! m <- Ret (md_from_config (cc_dataset cc));
      let! p <- Ret (get_codecs reg (cc_part cc));
      make_collection (cc_axis cc) m p d (Some (default (lit "r") mode))
  | _ => praise ValueError
  end.

(** convenience/collection.py:18-65, [create_collection]; the dataset may have
    been given as a zcollection or an xarray dataset. *)
Definition create_collection (axis : str) (ds : dataset) (p : partitioning) (d : path) : program collection :=
  let! e <- exists_path d;
  if e then praise ValueError else make_collection axis (ds_metadata ds) p d (Some (lit "w")).

(** convenience/collection.py:69-88, [open_collection] *)
Definition open_collection (reg : registry) (d : path) (mode : option str) : program collection :=
  from_config reg d mode.

(** ** Splitting a dataset in partitions *)

(** The values of an array of integers or of dates. Simplification: a date that
    is not a time (NaT) is a ValueError. *)
Definition ints_of (a : arr) : res (list Z) :=
  traverse (fun v => match v with Num z => Ok z | NaN => Raise ValueError end) (a_flat a).

(** The kind of the promoted dtype is 'i' or 'u': only integers, and not uint64
    with a signed dtype (numpy promotes these to float64). *)
Definition promotes_to_integer (dtypes : list str) : bool :=
  forallb (fun t => memb t DATA_TYPES) dtypes &&
  negb (memb (lit "uint64") dtypes &&
        existsb (fun t => memb t [lit "int8"; lit "int16"; lit "int32"; lit "int64"]) dtypes).
(** The ticks per second of a datetime64 dtype. Simplification: the units finer
    than a nanosecond or coarser than a second are not modelled. *)
Definition DATETIMES : list (str * Z) :=
  [(lit "datetime64[s]", 1%Z); (lit "datetime64[ms]", 1000%Z);
   (lit "datetime64[us]", 1000000%Z); (lit "datetime64[ns]", 1000000000%Z)].

Definition get_var (ds : dataset) (n : str) : res variable :=
  match dget (d_vars ds) n with Some v => Ok v | None => Raise KeyError end.

(** partitioning/abc.py:287-305, [index_dataset], with the [_split] of the
    class; the keys are those of the directories. *)
Definition split_keys (p : partitioning) (ds : dataset) : res (list (list str * (nat * nat))) :=
  do vs <- traverse (get_var ds) (p_variables p);
  match p with
  | Sequence names _ =>
      do cols <- traverse (fun v => ints_of (v_array v)) vs;
      do parts <- sequence_split (dict_of (zip names cols)) (promotes_to_integer (map v_dtype vs)) (d_delayed ds);
      Ok (map (fun ks => (seq_partition ks.1, ks.2)) parts)
  | Date _ _ r =>
      match vs with
      | [] => Raise IndexError
      | v :: _ =>
          match dget DATETIMES (v_dtype v) with
          | None => Raise TypeError
          | Some tps =>
              do values <- ints_of (v_array v);
              do parts <- date_split (trunc tps r) values true (d_delayed ds);
              traverse (fun cs => do dirs <- date_partition r cs.1; Ok (dirs, cs.2)) parts
          end
      end
  end.

(** partitioning/abc.py:306-335, [split_dataset]; the indexer is the slice of
    the axis. *)
Definition split_dataset (p : partitioning) (ds : dataset) : res (list (list str * (nat * nat))) :=
  do _ <- traverse (fun n => do v <- get_var ds n;
                             if length (v_shape v) =? 1 then Ok tt else Raise ValueError) (p_variables p);
  split_keys p ds.

(** ** Writing a partition *)

(** The merge strategies: merging/__init__.py:34-62. *)
Definition merge_callable : Type := dataset -> dataset -> str -> str -> res dataset.

Definition has_eq (n : str) : bool := memb "="%char n.
(** merging/__init__.py:90-93, [_extract_root_dirname], and 113-115: the
    temporary directory. *)
Definition temp_dir (e : env) (d : path) : path := List.filter (fun n => negb (has_eq n)) d ++ [e_hash e d].

(** merging/__init__.py:65-87, [_rename], on a local file system *)
Definition rename (source dest : path) : program unit :=
  let! _ <- rmtree dest; move source dest.

(** merging/__init__.py:96-133, [_update_fs] *)
Definition update_fs (e : env) (inner : schedule) (d : path) (ds : dataset) : program unit :=
  let temp := temp_dir e d in
  let! x <- exists_path temp;
  let! _ <- (if x then rm temp else pret tt);
  let! _ <- init_group temp;
  let! _ <- pcatch (write_zarr_group temp ds (Some inner)) (fun ex => let! _ <- rm temp; praise ex);
  rename temp d.

(** merging/__init__.py:136-175, [perform] *)
Definition perform (e : env) (inner : schedule) (inserted : dataset) (d : path) (axis dim : str)
    (delayed : bool) (merge : option merge_callable) : program unit :=
  let! ds <- match merge with
             | None => pret inserted
             | Some f =>
                 let! ds <- open_zarr_group d delayed None;
                 Ret (f (ds_copy_properties ds inserted) inserted axis dim)
             end;
  update_fs e inner d ds.

(** collection/detail.py:388-442, [_insert], with 368-385, [_rm]: tries to
    remove the directory up to ten times, whatever the errors (modelled as a
    removal that does not fail). *)
Definition insert_partition (e : env) (inner : path -> schedule) (c : collection) (ds : dataset)
    (merge : option merge_callable) (part : list str * (nat * nat)) : program unit :=
  let d := c_dir c ++ part.1 in
  let piece := ds_isel ds [(c_dim c, ISlice (Some (Z.of_nat part.2.1)) (Some (Z.of_nat part.2.2)))] in
  let! x <- exists_path (d ++ [ZMETADATA]);
  if x then
    let! piece <- Ret piece;
    perform e (inner d) piece d (c_axis c) (c_dim c) (d_delayed ds) merge
  else
    pcatch
      (let! _ <- init_group d;
       let! piece <- Ret piece;
       write_zarr_group d piece (Some (inner d)))
      (fun ex => let! _ <- rmtree d; praise ex).

(** ** Insertion *)

(** collection/__init__.py:358-367: the dataset that is split: the missing
    variables are added, and the metadata checked. The code adds the variables to the dataset of the caller. *)
Definition complete (c : collection) (ds : dataset) : res dataset :=
  do missing <- md_missing_variables (c_meta c) (ds_metadata ds);
  foldM (fun ds n => match dget (md_vars (c_meta c)) n with
                     | Some v => ds_add_variable ds v None
                     | None => Raise KeyError
                     end) ds missing.
Definition prepare (c : collection) (ds : dataset) (validate : bool) : res dataset :=
  do ds <- complete c ds;
  if validate && negb (md_eq (ds_metadata ds) (c_meta c)) then Raise ValueError else
  ds_set_for_insertion ds (md_chunks (c_meta c)) (md_block (c_meta c)).

(** collection/__init__.py:50-74, [_write_immutable_dataset] *)
Definition write_immutable (c : collection) (ds : dataset) : program unit :=
  let! ids <- Ret (ds_select_variables_by_dims ds [c_axis c] false);
  if length (d_vars ids) =? 0 then praise AssertionError
  else write_zarr_group (c_dir c ++ [IMMUTABLE]) ids None.

(** collection/__init__.py:370-381: the part of the dataset that is split. *)
Definition insert_immutable (c : collection) (ds : dataset) : program dataset :=
  if c_immutable c then
    let! x <- exists_path (c_dir c ++ [IMMUTABLE]);
    let! _ <- (if x then pret tt else write_immutable c ds);
    Ret (ds_select_variables_by_dims ds [c_axis c] true)
  else pret ds.

(** collection/__init__.py:388-391 *)
Definition batches_of {A} (parts : list A) (npartitions : option Z) : res (list (list A)) :=
  match npartitions with
  | None => split_sequence parts None
  | Some n => if (n <? 1)%Z then Raise ValueError
              else split_sequence parts (Some (Z.of_nat (length parts) / n + 1)%Z)
  end.

(** collection/__init__.py:301-414, [insert]. [scheds]: the schedule of each
    batch; [inner]: the schedule of the writers of each partition. *)
Definition insert (e : env) (scheds : nat -> schedule) (inner : path -> schedule) (c : collection)
    (ds : dataset) (merge : option merge_callable) (npartitions : option Z) (validate : bool)
  : program (list path) :=
  if c_readonly c then praise UnsupportedOperation else
  let! ds <- Ret (prepare c ds validate);
  let! ds <- insert_immutable c ds;
  let! parts <- Ret (split_dataset (c_part c) ds);
  let! batches <- Ret (batches_of parts npartitions);
  let! _ <- pfor (imap pair batches) (fun ib =>
      execute_transaction CTorn (scheds ib.1) (map (insert_partition e inner c ds merge) ib.2));
  pret (map (fun p => c_dir c ++ p.1) parts).

(** ** Selecting and dropping partitions *)

(** collection/abc.py:309-365, [partitions] *)
Definition select_parts (e : env) (c : collection) (f : filter) : program (list path) :=
  let! t <- get_tree [];
  Ret (partitions (e_order e) (c_part c) (c_dir c) (immutable_path c) None f t).

(** collection/__init__.py:417-475, [drop_partitions]; [older]: the partitions
    created before the time delta, if one is given. *)
Definition drop_partitions (e : env) (sched : schedule) (c : collection) (f : filter) (older : option (path -> bool))
  : program (list path) :=
  if c_readonly c then praise UnsupportedOperation else
  let! folders <- select_parts e c f;
  match folders with
  | [] => pret []
  | _ =>
      let folders := match older with None => folders | Some o => List.filter o folders end in
      let! _ <- execute_transaction CTorn sched (map rm folders);
      pret folders
  end.

(** ** Loading *)

(** The result of a method that mutates its object. *)
Definition of_mut {A} (m : mut A) : res A := match m.2 with None => Ok m.1 | Some e => Raise e end.

(** collection/abc.py:647-658: the datasets of the partitions put together. *)
Definition assemble (c : collection) (arrays : list dataset) (immutable : option dataset) : res dataset :=
  match arrays with
  | [] => Raise IndexError
  | a :: others =>
      do ds <- match others with [] => Ok a | _ => ds_concat a others (c_dim c) end;
      do ds <- match immutable with None => Ok ds | Some i => of_mut (ds_merge ds i) end;
      ds_fill_attrs ds (c_meta c)
  end.
Definition load_immutable (c : collection) (delayed : bool) (selected : option (list str)) : program (option dataset) :=
  match immutable_path c with
  | None => pret None
  | Some q => let! i <- open_zarr_group q delayed selected; pret (Some i)
  end.

(** collection/abc.py:561-658, [load], without an indexer. The partitions are
    opened by dask workers, in any order: nothing is written. *)
Definition load (e : env) (c : collection) (delayed : bool) (f : filter) (selected : option (list str))
  : program (option dataset) :=
  let! parts <- select_parts e c f;
  match parts with
  | [] => pret None
  | _ =>
      let! arrays <- pseq (map (fun q => open_zarr_group q delayed selected) parts);
      let! i <- load_immutable c delayed selected;
      let! ds <- Ret (assemble c arrays i);
      pret (Some ds)
  end.
