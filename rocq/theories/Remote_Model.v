(** * Model of the replacement of a partition on a file system that is not local
    (merging/__init__.py) *)
From Verif Require Import Py NdArray_Model Dataset_Model Meta_Model PartPath_Model Split_Model DaskUtils_Model FS_Model Pool_Model Storage_Model Listing_Model Collection_Model.

(** fsspec, [cp_file]: the content of a file is given another name. A file that
    is gone is skipped (on_error is "ignore" when recursive). *)
Definition copy_file (source dest : path) : program unit :=
  let! x <- read_file source;
  match x with Some x => write_file dest x | None => pret tt end.
(** fsspec, [mv(recursive=True)] onto a path that does not exist: every file is
    copied, then the source removed. [order]: the order of the copies, that
    depends on the file system (sorted paths, or the order in which concurrent
    requests are served). *)
Definition move_remote (order : list path -> list path) (source dest : path) : program unit :=
  let! t <- get_tree source;
  let! _ <- pfor (order (map fst (map_to_list t))) (fun q => copy_file (source ++ q) (dest ++ q));
  rm source.
(** merging/__init__.py:65-87, [_rename], l.86-87: the file system is not local. *)
Definition rename_remote (order : list path -> list path) (source dest : path) : program unit :=
  let! _ <- rm dest; move_remote order source dest.

(** merging/__init__.py:96-133, [_update_fs], with this [_rename] *)
Definition update_fs_remote (order : list path -> list path) (e : env) (inner : schedule) (d : path) (ds : dataset) : program unit :=
  let temp := temp_dir e d in
  let! x <- exists_path temp;
  let! _ <- (if x then rm temp else pret tt);
  let! _ <- init_group temp;
  let! _ <- pcatch (write_zarr_group temp ds (Some inner)) (fun ex => let! _ <- rm temp; praise ex);
  rename_remote order temp d.
(** merging/__init__.py:136-175, [perform] *)
Definition perform_remote (order : list path -> list path) (e : env) (inner : schedule) (inserted : dataset) (d : path) (axis dim : str)
    (delayed : bool) (merge : option merge_callable) : program unit :=
  let! ds <- match merge with
             | None => pret inserted
             | Some f =>
                 let! ds <- open_zarr_group d delayed None;
                 Ret (f (ds_copy_properties ds inserted) inserted axis dim)
             end;
  update_fs_remote order e inner d ds.
(** collection/detail.py:388-442, [_insert] (see Collection_Model) *)
Definition insert_partition_remote (order : list path -> list path) (e : env) (inner : path -> schedule) (c : collection) (ds : dataset)
    (merge : option merge_callable) (part : list str * (nat * nat)) : program unit :=
  let d := c_dir c ++ part.1 in
  let piece := ds_isel ds [(c_dim c, ISlice (Some (Z.of_nat part.2.1)) (Some (Z.of_nat part.2.2)))] in
  let! x <- exists_path (d ++ [ZMETADATA]);
  if x then
    let! piece <- Ret piece;
    perform_remote order e (inner d) piece d (c_axis c) (c_dim c) (d_delayed ds) merge
  else
    pcatch
      (let! _ <- init_group d;
       let! piece <- Ret piece;
       write_zarr_group d piece (Some (inner d)))
      (fun ex => let! _ <- rmtree d; praise ex).
(** collection/__init__.py:301-414, [insert] *)
Definition insert_remote (order : list path -> list path) (e : env) (scheds : nat -> schedule) (inner : path -> schedule) (c : collection)
    (ds : dataset) (merge : option merge_callable) (npartitions : option Z) (validate : bool)
  : program (list path) :=
  if c_readonly c then praise UnsupportedOperation else
  let! ds <- Ret (prepare c ds validate);
  let! ds <- insert_immutable c ds;
  let! parts <- Ret (split_dataset (c_part c) ds);
  let! batches <- Ret (batches_of parts npartitions);
  let! _ <- pfor (imap pair batches) (fun ib =>
      execute_transaction CTorn (scheds ib.1) (map (insert_partition_remote order e inner c ds merge) ib.2));
  pret (map (fun p => c_dir c ++ p.1) parts).
