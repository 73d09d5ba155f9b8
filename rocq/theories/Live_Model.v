(** * Reading a collection while its files change

    Collection_Model lists the partitions in one operation. Here each directory
    is listed by an operation of its own, as the code does, so that another
    process can change the files in between. *)
From Verif Require Import Py NdArray_Model Dataset_Model Meta_Model Order PartPath_Model FS_Model Storage_Model Listing_Model Collection_Model.

(** zcollection/partitioning/abc.py:198-203, [list_partitions] with
    [root=False]: one call of [fs.ls] for each directory *)
Fixpoint live_deep (order : list str -> list str) (depth : nat) (p : path) : program (list path) :=
  let! t <- get_tree [];
  match depth with
  | 0 => pret (ls order p t)
  | S d => let! l <- pseq (map (live_deep order d) (ls order p t)); pret (concat l)
  end.

(** zcollection/partitioning/abc.py:154-203, [list_partitions] with
    [root=True]; [n = 0] is the depth -1 of the code. The generator is used to
    its end before anything else is done ([sorted], lines 427-428). *)
Definition live_root (order : list str -> list str) (n : nat) (d : path) : program (list path) :=
  match n with
  | 0 => pret []
  | S n =>
      let! t <- get_tree [];
      let folders := map (fun n => d ++ [n])
        (List.filter (fun n => is_dir (d ++ [n]) t && negb (hidden n)) (children order d t)) in
      match n with
      | 0 => pret folders
      | S k => let! l <- pseq (map (live_deep order k) folders); pret (concat l)
      end
  end.

(** zcollection/partitioning/abc.py:414-428, [Partitioning.list_partitions] *)
Definition live_partitions (order : list str -> list str) (p : partitioning) (d : path) : program (list path) :=
  let! l <- live_root order (p_len p) d;
  Ret (do keyed <- traverse (fun q => do k <- p_parse p (path_str q); Ok (k, q)) l;
       Ok (map snd (sorted_by scheme_lt fst keyed))).

(** zcollection/collection/abc.py:309-365, [partitions] *)
Definition live_select (e : env) (c : collection) (f : filter) : program (list path) :=
  let! items <- live_partitions (e_order e) (c_part c) (c_dir c);
  Ret (filter_res (fun item => if bool_decide (Some item = immutable_path c) then Ok false
                               else is_selected (c_part c) f (str_remove (path_str (c_dir c)) (path_str item))) items).

(** zcollection/collection/abc.py:561-658, [load], without an indexer: the
    partitions are listed twice (lines 600 and 607). Simplification: the
    files of a partition are read in one operation. *)
Definition load_live (e : env) (c : collection) (delayed : bool) (f : filter) (selected : option (list str))
  : program (option dataset) :=
  let! first <- live_select e c f;
  match first with
  | [] => pret None
  | _ =>
      let! parts <- live_select e c f;
      let! arrays <- pseq (map (fun q => open_zarr_group q delayed selected) parts);
      let! i <- load_immutable c delayed selected;
      let! ds <- Ret (assemble c arrays i);
      pret (Some ds)
  end.
