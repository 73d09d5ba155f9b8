(** * Model of the index of a collection (indexing/abc.py), and of the loading
    of a collection with an indexer (collection/abc.py, collection/detail.py)

    Simplifications: the cells of the table are integers (no floating point
    value, no bytes, no null, no casts); an error of pyarrow (ArrowInvalid) is
    the ValueError it derives from. *)
From Verif Require Import Py Order NdArray_Model Dataset_Model PartPath_Model FS_Model Storage_Model Listing_Model Collection_Model Update_Model.

(** indexing/abc.py:83-87 *)
Definition START : str := lit "start".
Definition STOP : str := lit "stop".

(** ** Tables (pyarrow.Table, and the parquet file that holds one) *)

(** The names of the columns and the rows; a row is a dictionary that has all
    the columns. *)
Notation row := (list (str * Z)).
Record table := Table { t_names : list str; t_rows : list row }.
Definition cell (r : row) (n : str) : Z := default 0%Z (dget r n).
(** [table\[name\]] *)
Definition column (t : table) (n : str) : res (list Z) :=
  if memb n (t_names t) then Ok (map (fun r => cell r n) (t_rows t)) else Raise KeyError.
(** [table.filter(mask)] *)
Definition table_filter (t : table) (mask : list bool) : res table :=
  if length mask =? length (t_rows t)
  then Ok (Table (t_names t) (map fst (List.filter snd (zip (t_rows t) mask))))
  else Raise ValueError.
(** [pyarrow.concat_tables]: the schemas must be the same. *)
Fixpoint concat_tables (t : table) (l : list table) : res table :=
  match l with
  | [] => Ok t
  | u :: l => if bool_decide (t_names u = t_names t) then concat_tables (Table (t_names t) (t_rows t ++ t_rows u)) l
              else Raise ValueError
  end.

(** ** The index *)

(** indexing/abc.py:89-107, an Indexer: the keys of the partitioning, the names
    of the columns that have a type, and the table if it was read. *)
Record index := Ix { ix_keys : list str; ix_types : list str; ix_table : option table }.
Definition with_table (ix : index) (t : table) : index := Ix (ix_keys ix) (ix_types ix) (Some t).

(** indexing/abc.py:152-167, [_set_schema], and 174-202, [_create]; [columns]:
    the names given by [dtype()]. *)
Definition ix_create (p : partitioning) (columns : list str) : index :=
  Ix (map fst (p_dtype p)) (columns ++ List.filter (fun n => negb (memb n columns)) (map fst (p_dtype p))) None.

(** indexing/abc.py:222-249, [open] *)
Definition ix_open (file : option table) (columns : list str) : res index :=
  match file with
  | None => Raise FileNotFoundError
  | Some t => Ok (Ix (List.filter (fun n => negb (memb n columns)) (t_names t)) (t_names t) None)
  end.

(** A structured array: the names of the fields and the items. *)
Record struct := Struct { s_fields : list str; s_items : list (list Z) }.

(** indexing/abc.py:283-297: the table of the items indexed in the partition
    [key]. *)
Definition dict_update (d : row) (e : row) : row := fold_left (fun d kv => dset d kv.1 kv.2) e d.
Definition partition_table (ix : index) (key : row) (a : struct) : res table :=
  if negb (forallb (fun n => memb n (ix_types ix)) (s_fields a)) then Raise KeyError else
  if negb (forallb (fun n => memb n (ix_types ix)) (map fst key)) then Raise KeyError else
  Ok (Table (dkeys (dict_update (map (fun n => (n, 0%Z)) (s_fields a)) key))
            (map (fun i => dict_update (zip (s_fields a) i) key) (s_items a))).

(** indexing/abc.py:311-321: the rows of the partition [key]; reduce raises
    TypeError on an empty list. *)
Definition key_mask (ix : index) (t : table) (key : row) : res (list bool) :=
  match key with
  | [] => Raise TypeError
  | _ =>
      do cols <- traverse (fun kv => do c <- column t kv.1; if memb kv.1 (ix_types ix) then Ok (c, kv.2) else Raise KeyError) key;
      Ok (map (fun r => forallb (fun kv => bool_decide (cell r kv.1 = kv.2)) key) (t_rows t))
  end.

(** indexing/abc.py:251-332, [_update], when the function gave [results] for the
    partitions of the collection: the object and the file after the call. *)
Definition ix_update (ix : index) (file : option table) (results : list (row * struct)) : res (index * option table) :=
  let results := List.filter (fun r => negb (length (s_items r.2) =? 0)) results in
  do tables <- traverse (fun r => partition_table ix r.1 r.2) results;
  match tables with
  | [] => Ok (ix, file)
  | t :: ts =>
      do table <- match file with
                  | None => concat_tables t ts
                  | Some old =>
                      do masks <- traverse (fun r => key_mask ix old r.1) results;
                      let mask := match masks with [] => [] | m :: ms => fold_left (zip_with orb) ms m end in
                      do old <- table_filter old (map negb mask);
                      concat_tables old (t :: ts)
                  end;
      Ok (with_table ix table, Some table)
  end.

(** indexing/abc.py:351-356, [_read] *)
Definition ix_read (ix : index) (file : option table) : res table :=
  match ix_table ix, file with
  | Some t, _ => Ok t
  | None, Some t => Ok t
  | None, None => Raise FileNotFoundError
  end.

(** *** Slices of the rows *)

(** [numpy.roll(values, 1) != values], where it is true. *)
Definition roll {A} (l : list A) : list A := match last l with None => [] | Some x => x :: removelast l end.
Definition changes (values : list Z) : list nat :=
  map fst (List.filter (fun ip => negb (bool_decide (ip.2.1 = ip.2.2 :> Z))) (imap pair (zip (roll values) values))).
(** [numpy.where(start\[1:\] - stop\[:-1\] > 0)\[0\] + 1] *)
Definition gaps (start stop : list Z) : list nat :=
  map (fun ip => ip.1 + 1) (List.filter (fun ip => (0 <? ip.2.1 - ip.2.2)%Z) (imap pair (zip (tail start) (removelast stop)))).
(** [numpy.unique(numpy.concatenate(chunks))], of numbers up to [n]: sorted,
    once each. *)
Definition unique_up_to (n : nat) (l : list nat) : list nat := List.filter (fun i => memb i l) (seq 0 (S n)).

(** indexing/abc.py:358-402, [_table_2_indexer]; [names]: those of the columns
    of the whole table. *)
Notation scheme := (list (str * Z)).
Definition table_2_indexer (ix : index) (names : list str) (t : table) (only_keys : bool) : res (list (scheme * (Z * Z))) :=
  let column_names := if only_keys then ix_keys ix else List.filter (fun n => negb (memb n [START; STOP])) names in
  do data <- traverse (fun n => do c <- column t n; Ok (n, c)) column_names;
  do start <- column t START;
  do stop <- column t STOP;
  let n := length (t_rows t) in
  let chunks := unique_up_to n ([0] ++ gaps start stop ++ [n] ++ concat (map (fun nc => changes nc.2) data)) in
  Ok (map (fun ab => (map (fun nc => (nc.1, nth ab.1 nc.2 0%Z)) data, (nth ab.1 start 0%Z, nth (ab.2 - 1) stop 0%Z)))
          (zip (removelast chunks) (tail chunks))).

(** *** Queries *)

(** The functions of pyarrow.compute, on two masks; [invert] has one argument. *)
Inductive logical := And | AndNot | Invert | Or | Xor.
Definition logical_op (op : option str) : res logical :=
  let op := match op with None | Some [] => lit "and" | Some s => s end in
  if bool_decide (op = lit "and") then Ok And
  else if bool_decide (op = lit "and_not") then Ok AndNot
  else if bool_decide (op = lit "invert") then Ok Invert
  else if bool_decide (op = lit "or") then Ok Or
  else if bool_decide (op = lit "xor") then Ok Xor
  else Raise ValueError.
Definition combine (op : logical) (a b : list bool) : res (list bool) :=
  match op with
  | And => Ok (zip_with andb a b)
  | AndNot => Ok (zip_with (fun x y => x && negb y) a b)
  | Or => Ok (zip_with orb a b)
  | Xor => Ok (zip_with xorb a b)
  | Invert => Raise TypeError
  end.

(** indexing/abc.py:404-464, [query]; [columns]: a dictionary, the scalars are
    lists of one value. *)
Definition query (ix : index) (file : option table) (columns : list (str * list Z)) (op : option str) (mask : option (list bool))
    (only_keys : bool) : res (list (scheme * (Z * Z))) :=
  match ix_keys ix with
  | [] => Ok []
  | _ =>
      do f <- logical_op op;
      if negb (length columns =? 0) && negb (existsb (fun c => memb c.1 (ix_types ix)) columns) then Raise ValueError else
      do whole <- ix_read ix file;
      do t <- match mask with None => Ok whole | Some m => table_filter whole m end;
      do t <- match columns with
              | [] => Ok t
              | _ =>
                  do masks <- traverse (fun c => do col <- column t c.1;
                                                 if memb c.1 (ix_types ix) then Ok (map (fun x => memb x c.2) col) else Raise KeyError) columns;
                  match masks with
                  | [] => Raise TypeError
                  | m :: ms => do m <- foldM (combine f) m ms; table_filter t m
                  end
              end;
      do _ <- traverse (column t) (ix_keys ix ++ [START; STOP]);
      let t := Table (t_names t) (sorted_by (list_lt Z.ltb) (fun r => map (cell r) (ix_keys ix ++ [START; STOP])) (t_rows t)) in
      table_2_indexer ix (t_names whole) t only_keys
  end.

(** indexing/abc.py:251-332, [_update], with the call of [map] *)
Definition update_index (e : env) (c : collection) (f : callback struct) (delayed : bool) (ix : index) (file : option table)
  : program (index * option table) :=
  let! results <- map_partitions e c f delayed NoFilter None;
  Ret (ix_update ix file results).

(** ** Loading with an indexer *)

(** [sorted({...})] of partition keys *)
Definition sorted_keys (l : list scheme) : list scheme := sorted_by scheme_lt id (remove_dups l).

(** collection/abc.py:69-88, [list_partitions_from_indexer] *)
Definition list_partitions_from_indexer (c : collection) (indexer : list (scheme * (Z * Z))) : list path :=
  map (fun k => c_dir c ++ map (p_dir (c_part c)) k) (sorted_keys (map fst indexer)).

(** collection/abc.py:91-127, [build_indexer_args]; [partitions]: the partitions
    to index. *)
Definition build_indexer_args (c : collection) (indexer : list (scheme * (Z * Z))) (partitions : list path)
  : res (list (scheme * list (Z * Z))) :=
  do parsed <- traverse (fun q => p_parse (c_part c) (path_str q)) partitions;
  Ok (map (fun k => (k, map snd (List.filter (fun i => bool_decide (i.1 = k)) indexer)))
          (sorted_keys (List.filter (fun k => memb k parsed) (map fst indexer)))).

(** collection/detail.py:445-475, [_load_and_apply_indexer] *)
Definition load_and_apply_indexer (c : collection) (delayed : bool) (selected : option (list str)) (args : scheme * list (Z * Z))
  : program (list dataset) :=
  let! ds <- open_zarr_group (c_dir c ++ map (p_dir (c_part c)) args.1) delayed selected;
  Ret (traverse (fun sl => ds_isel ds [(c_dim c, ISlice (Some sl.1) (Some sl.2))]) args.2).

(** collection/abc.py:561-658, [load], with an indexer; the partitions are opened
    by dask workers, nothing is written. *)
Definition load_indexer (e : env) (c : collection) (delayed : bool) (f : filter) (indexer : list (scheme * (Z * Z)))
    (selected : option (list str)) : program (option dataset) :=
  let! parts <- Ret (partitions (e_order e) (c_part c) (c_dir c) (immutable_path c) (Some (list_partitions_from_indexer c indexer)) f (∅ : store));
  let! args <- Ret (build_indexer_args c indexer parts);
  match args with
  | [] => pret None
  | _ =>
      let! arrays <- pseq (map (load_and_apply_indexer c delayed selected) args);
      let! i <- load_immutable c delayed selected;
      let! ds <- Ret (assemble c (concat arrays) i);
      pret (Some ds)
  end.
