(** * Model of views (view/__init__.py, view/detail.py, convenience/view.py)

    Simplifications: those of Collection_Model and Update_Model; the view and
    its reference are in the same store (as two trees if their file systems are
    different); a task reads a partition of the reference at once; the axis of a
    collection has one dimension; the attribute that holds the dimension of the
    checksum is a list of one name, where the code has the name itself (a
    substring of a name is then not looked for); the file system of the
    reference is not part of the configuration; the synchronizer is modelled in
    Sync_Model. *)
From Verif Require Import Py NdArray_Model Dataset_Model Meta_Model PartPath_Model DaskUtils_Model FS_Model Pool_Model Storage_Model
  Listing_Model Collection_Model Update_Model Index_Model.

(** What the library does not decide: [ve_digest], the SHA-256 of the bytes of
    an array; [ve_guess], the chunks that Zarr chooses for a shape;
    [ve_compressor], its default compressor; [ve_pickle] and [ve_unpickle],
    view/detail.py:671-705, [_serialize_filters] and [_deserialize_filters]
    (a filter that cannot be serialised is replaced by None). *)
Record venv := VEnv {
  ve_env : env;
  ve_digest : arr -> str;
  ve_guess : list nat -> list nat;
  ve_compressor : option str;
  ve_pickle : filter -> str;
  ve_unpickle : str -> filter;
}.

(** view/detail.py:43-47 and view/__init__.py:71 *)
Definition CHECKSUM : str := lit ".checksum".
Definition CHECKSUM_ATTR : str := lit "checksum".
Definition VIEW_CONFIG : str := lit ".view".

(** view/__init__.py:73-96: the attributes of a view; the reference is opened
    in mode 'r'. *)
Record view := View { w_dir : path; w_ref : collection; w_meta : mdataset; w_filters : filter }.
Definition with_vmeta (w : view) (m : mdataset) : view := View (w_dir w) (w_ref w) m (w_filters w).
Definition with_filters (w : view) (f : filter) : view := View (w_dir w) (w_ref w) (w_meta w) f.

(** The partitions of the reference, relative to its directory. *)
Definition ref_parts (v : venv) (w : view) (f : filter) : program (list path) :=
  let! l <- select_parts (ve_env v) (w_ref w) f;
  pret (map (drop (length (c_dir (w_ref w)))) l).
Definition pfilter {A} (f : A -> program bool) (l : list A) : program (list A) :=
  let! bs <- pseq (map f l);
  pret (map fst (List.filter snd (zip l bs))).

(** view/__init__.py:198-213, [partitions], relative to the view *)
Definition view_parts (v : venv) (w : view) (f : filter) : program (list path) :=
  let! l <- ref_parts v w f;
  pfilter (fun q => exists_path (w_dir w ++ q)) l.

(** ** Checksums *)

(** view/detail.py:64-78, [AxisReference], with the dtype of the array *)
Record axisref := AxisRef { ar_array : arr; ar_dtype : str; ar_dim : str; ar_digest : str }.

(** zarr.open_consolidated of a partition of the reference *)
Definition open_group (w : view) (q : path) : program (store * fs zmeta) :=
  let! t <- get_tree (c_dir (w_ref w) ++ q);
  let! m <- Ret (read_cons t);
  pret (t, m).

(** view/detail.py:442-465, [_calculate_axis_reference] *)
Definition axis_reference (v : venv) (w : view) (g : store * fs zmeta) : res axisref :=
  let axis := c_axis (w_ref w) in
  do z <- array_meta g.2 axis;
  do a <- read_array z (sub [axis] g.1);
  match (attrs_of g.2 [axis; ZATTRS]).2 with
  | None => Raise KeyError
  | Some [] => Raise IndexError
  | Some (dim :: _) => Ok (AxisRef a (z_dtype z) dim (ve_digest v a))
  end.

(** zarr.open_array(mode='a') of the directory [d] *)
Definition open_array (d : path) : program zarray :=
  let! f <- read_file (d ++ [ZARRAY]);
  match f with
  | None => praise TypeError
  | Some (CMeta (MArray z)) => pret z
  | Some _ => praise ValueError
  end.
(** The file .zattrs of an array *)
Definition array_attrs (d : path) : program (list attribute * option (list str)) :=
  let! f <- read_file (d ++ [ZATTRS]);
  match f with
  | None => pret ([], None)
  | Some (CMeta (MAttrs a dims)) => pret (a, dims)
  | Some _ => praise ValueError
  end.
(** [array\[...\] = values] (NumPy's broadcasting of smaller shapes is not
    modelled) *)
Definition set_array (d : path) (z : zarray) (a : arr) : program unit :=
  if bool_decide (z_shape z = a_shape a) then write_chunks d z false a else praise ValueError.

(** view/detail.py:468-492, [_write_checksum_array]; [d]: the partition of the
    view *)
Definition write_checksum_array (v : venv) (d : path) (ax : axisref) : program unit :=
  let p := d ++ [CHECKSUM] in
  let! x <- exists_path p;
  let! z <- (if x then open_array p else
             let z := ZArr (a_shape (ar_array ax)) (ve_guess v (a_shape (ar_array ax))) (ar_dtype ax) (ve_compressor v) (Some (Num 0)) [] in
             let! _ <- write_file (p ++ [ZARRAY]) (CMeta (MArray z));
             let! _ <- write_file (p ++ [ZATTRS]) (CMeta (MAttrs [] (Some [ar_dim ax])));
             pret z);
  let! _ <- set_array p z (ar_array ax);
  let! at_ <- array_attrs p;
  write_file (p ++ [ZATTRS]) (CMeta (MAttrs (dset at_.1 CHECKSUM_ATTR (ar_digest ax)) at_.2)).

(** view/detail.py:513-535, [_write_checksum] without a group; [q]: the relative
    path of the partition *)
Definition write_checksum (v : venv) (w : view) (q : path) : program unit :=
  let! g <- open_group w q;
  let! ax <- Ret (axis_reference v w g);
  write_checksum_array v (w_dir w ++ q) ax.

(** ** Creating the arrays of the view *)

(** view/detail.py:81-119, [_create_zarr_array]: the chunks are those of the
    template, within its shape *)
Definition create_zarr_array (w : view) (template : str) (var : mvar) (args : path * (store * fs zmeta)) : program unit :=
  let! z <- Ret (array_meta args.2.2 template);
  let d := w_dir w ++ args.1 in
  let cs := zip_with (fun c n => Nat.max 1 (Nat.min c n)) (z_chunks z) (z_shape z) in
  let! _ <- rmtree (d ++ [mv_name var]);
  let! _ <- write_file (d ++ [mv_name var; ZARRAY])
              (CMeta (MArray (ZArr (z_shape z) cs (mv_dtype var) (mv_compressor var) (mv_fill var) (mv_filters var))));
  write_zattrs d (mv_name var) (mv_attrs var) (mv_dims var).

(** view/detail.py:538-575, [_sync_partition] *)
Definition sync_partition (v : venv) (w : view) (q : path) : program unit :=
  let! g <- open_group w q;
  pcatch
    (let! _ <- pfor (dvals (md_vars (w_meta w))) (fun var =>
       let! template <- Ret (md_search_same_dimensions_as (c_meta (w_ref w)) var);
       create_zarr_array w (mv_name template) var (q, g));
     let! ax <- Ret (axis_reference v w g);
     write_checksum_array v (w_dir w ++ q) ax)
    (fun ex => let! _ <- rm (w_dir w ++ q); praise ex).

(** view/detail.py:578-608, [_extend_partition]; Array.resize writes the new
    shape (no chunk is outside a larger shape). *)
Definition extend_array (dim : str) (n : nat) (d : path) : program unit :=
  let! z <- open_array d;
  let! at_ <- array_attrs d;
  match at_.2 with
  | None => praise KeyError
  | Some dims =>
      match index_of dim dims with
      | None => pret tt
      | Some k =>
          if k <? length (z_shape z) then
            write_file (d ++ [ZARRAY])
              (CMeta (MArray (ZArr (<[k := n]> (z_shape z)) (z_chunks z) (z_dtype z) (z_compressor z) (z_fill z) (z_filters z))))
          else praise IndexError
      end
  end.
Definition extend_partition (v : venv) (d : path) (ax : axisref) : program unit :=
  match a_shape (ar_array ax) with
  | [] => praise IndexError
  | n :: _ =>
      pcatch
        (let! t <- get_tree d;
         let! _ <- pfor (children (e_order (ve_env v)) [] t) (fun name => extend_array (ar_dim ax) n (d ++ [name]));
         write_checksum_array v d ax)
        (fun ex => let! _ <- rm d; praise ex)
  end.

(** view/detail.py:654-655: the axis of the view is a proper beginning of the
    axis of the reference *)
Definition is_extended (old new : arr) : bool :=
  (length (a_flat old) <? length (a_flat new)) &&
  forallb (fun xy => py_eq xy.1 xy.2) (zip (a_flat old) (a_flat new)).

(** view/detail.py:611-668, [_sync] *)
Definition sync_one (v : venv) (w : view) (dry_run : bool) (q : path) : program (option path) :=
  let d := w_dir w ++ q in
  let! x <- exists_path d;
  if negb x then
    let! _ <- (if dry_run then pret tt else sync_partition v w q);
    pret (Some q)
  else
    let! z <- open_array (d ++ [CHECKSUM]);
    let! g <- open_group w q;
    let! ax <- Ret (axis_reference v w g);
    let! at_ <- array_attrs (d ++ [CHECKSUM]);
    match dget at_.1 CHECKSUM_ATTR with
    | None => praise KeyError
    | Some digest =>
        if bool_decide (ar_digest ax = digest) then pret None else
        let! t <- get_tree (d ++ [CHECKSUM]);
        let! old <- Ret (read_array z t);
        let! _ <- (if dry_run then pret tt
                   else if is_extended old (ar_array ax) then extend_partition v d ax
                   else let! _ <- rm d; sync_partition v w q);
        pret (Some q)
    end.

(** ** The configuration *)

(** view/__init__.py:139-156, [_write_config] *)
Definition vconfig_of (v : venv) (w : view) : viewconfig :=
  ViewConfig (w_dir w) (ve_pickle v (w_filters w)) (md_get_config (w_meta w)) (c_dir (w_ref w)).
Definition write_vconfig (v : venv) (w : view) : program unit :=
  write_file (w_dir w ++ [VIEW_CONFIG]) (CView (vconfig_of v w)).

(** view/__init__.py:106-127, [_init_partitions] *)
Definition init_partitions (v : venv) (sched : schedule) (w : view) (f : filter) : program unit :=
  let! l <- ref_parts v w f;
  let! missing <- pfilter (fun q => let! x <- exists_path (w_dir w ++ q); pret (negb x)) l;
  let! _ <- execute_transaction CTorn sched (map (write_checksum v w) missing);
  pret tt.

(** view/__init__.py:73-104, [View.__init__]; [ref]: the path of the reference *)
Definition make_view (v : venv) (reg : registry) (sched : schedule) (d ref : path) (m : option mdataset) (f : filter) : program view :=
  let! c <- open_collection reg ref (Some (lit "r"));
  let w := View d c (default (mk_mdataset (md_dims (c_meta c)) [] [] [] None) m) f in
  let! x <- exists_path d;
  if x then pret w else
  let! _ <- write_vconfig v w;
  let! _ <- init_partitions v sched w f;
  pret w.

(** convenience/view.py:16-53, [create_view] *)
Definition create_view (v : venv) (reg : registry) (sched : schedule) (d ref : path) (f : filter) : program view :=
  let! x <- exists_path d;
  if x then praise ValueError else make_view v reg sched d ref None f.

(** view/__init__.py:158-196, [from_config], and convenience/view.py:56-77,
    [open_view]: the directory of the view is the one of the configuration *)
Definition open_view (v : venv) (reg : registry) (sched : schedule) (d : path) : program view :=
  let! x <- exists_path (d ++ [VIEW_CONFIG]);
  if negb x then praise ValueError else
  let! f <- read_file (d ++ [VIEW_CONFIG]);
  match f with
  | Some (CView vc) =>
      let! m <- Ret (md_from_config (vc_dataset vc));
      make_view v reg sched (vc_base vc) (vc_ref vc) (Some m) (ve_unpickle v (vc_filters vc))
  | _ => praise ValueError
  end.

(** ** The variables of the view *)

(** view/detail.py:231-243, [_assert_variable_handled] *)
Definition assert_handled (w : view) (name : str) : res unit :=
  if dmem (md_vars (c_meta (w_ref w))) name then Raise ValueError
  else if negb (dmem (md_vars (w_meta w)) name) then Raise ValueError else Ok tt.

(** view/detail.py:122-143, [_drop_zarr_zarr] *)
Definition drop_array (w : view) (name : str) (ignore_errors : bool) (q : path) : program unit :=
  if ignore_errors then pcatch (rm (w_dir w ++ q ++ [name])) (fun _ => pret tt) else rm (w_dir w ++ q ++ [name]).

(** collection/abc.py:679-698, [iterate_on_records], relative *)
Definition iterate_on_records (v : venv) (w : view) : program (list (path * (store * fs zmeta))) :=
  let! l <- ref_parts v w NoFilter;
  pseq (map (fun q => let! g <- open_group w q; pret (q, g)) l).

(** view/__init__.py:231-302, [add_variable]: the view after the call, and what
    the call raised *)
Definition view_add_variable (v : venv) (sched sched' : schedule) (w : view) (var : mvar) : program (mut view) :=
  if dmem (md_vars (c_meta (w_ref w))) (mv_name var) || dmem (md_vars (w_meta w)) (mv_name var) then praise ValueError else
  let! m <- Ret (md_add_variable (w_meta w) var);
  let w1 := with_vmeta w m in
  let! r <- attempt (
    let! template <- Ret (md_search_same_dimensions_as (c_meta (w_ref w)) var);
    let! existing <- view_parts v w1 NoFilter;
    match existing with
    | [] => pret tt
    | _ =>
        let! groups <- iterate_on_records v w1;
        let args := List.filter (fun g => memb g.1 existing) groups in
        let var := mv_set_for_insertion var in
        let! r <- attempt (execute_transaction CTorn sched (map (create_zarr_array w1 (mv_name template) var) args));
        match r with
        | Ok _ => write_vconfig v w1
        | Raise ex =>
            let! parts <- view_parts v w1 NoFilter;
            let! _ <- execute_transaction CTorn sched' (map (drop_array w1 (mv_name var) true) parts);
            praise ex
        end
    end);
  pret (w1, match r with Ok _ => None | Raise ex => Some ex end).

(** view/__init__.py:305-334, [drop_variable] *)
Definition view_drop_variable (v : venv) (sched : schedule) (w : view) (name : str) : program (mut view) :=
  let! _ <- Ret (assert_handled w name);
  let w1 := with_vmeta w (md_del_variable (w_meta w) name) in
  let! r <- attempt (
    let! _ <- write_vconfig v w1;
    let! parts <- view_parts v w1 NoFilter;
    execute_transaction CTorn sched (map (drop_array w1 name false) parts));
  pret (w1, match r with Ok _ => None | Raise ex => Some ex end).

(** ** Synchronisation *)

(** view/__init__.py:733-753, [is_synced]: a transaction without task gives
    None, on which [filter] raises TypeError. *)
Definition is_synced (v : venv) (sched : schedule) (w : view) : program bool :=
  let! parts <- ref_parts v w NoFilter;
  match parts with
  | [] => praise TypeError
  | _ =>
      let! r <- execute_transaction CTorn sched (map (sync_one v w true) parts);
      pret (length (omap id r) =? 0)
  end.

(** view/__init__.py:755-806, [sync]: the view after the call, and the keys of
    the partitions that the returned predicate accepts *)
Definition sync (v : venv) (sched sched' : schedule) (w : view) (f : filter) : program (view * list (list (str * Z))) :=
  let! w <- match f with
            | NoFilter => pret w
            | _ => let w := with_filters w f in
                   let! _ <- write_vconfig v w;
                   let! _ <- init_partitions v sched w f;
                   pret w
            end;
  let! parts <- ref_parts v w NoFilter;
  match parts with
  | [] => praise TypeError
  | _ =>
      let! r <- execute_transaction CTorn sched' (map (sync_one v w false) parts);
      let! ids <- Ret (traverse (fun q => p_parse (c_part (w_ref w)) (join_with (lit "/") q)) (omap id r));
      pret (w, ids)
  end.

(** ** Loading *)

(** zarr.open(mode='r') of an array of the view, with storage.py:283-302,
    [open_zarr_array] *)
Definition open_view_array (w : view) (delayed : bool) (q : path) (name : str) : program variable :=
  let! t <- get_tree (w_dir w ++ q ++ [name]);
  Ret (match t !! [ZARRAY] with
       | Some (CMeta (MArray z)) =>
           do a <- read_array z t;
           match t !! [ZATTRS] with
           | Some (CMeta (MAttrs attrs (Some dims))) =>
               Ok (Var name delayed a (z_dtype z) dims attrs (z_compressor z) (z_fill z) (z_filters z))
           | Some (CMeta _) | None => Raise KeyError
           | Some _ => Raise ValueError
           end
       | _ => Raise ValueError
       end).

(** view/detail.py:146-228, [_load_one_dataset]; [selected]: the variables of
    the reference; [variables]: those of the view *)
Definition load_one (w : view) (delayed : bool) (selected variables : list str) (args : list (str * Z) * list (Z * Z))
  : program (dataset * path) :=
  let c := w_ref w in
  let q := map (p_dir (c_part c)) args.1 in
  let! ds <- open_zarr_group (c_dir c ++ q) delayed (Some selected);
  let! vs <- pseq (map (open_view_array w delayed q) variables);
  match d_dims ds with
  | [] => let! ds <- Ret (new_dataset vs (d_attrs ds) None [] None); pret (ds, q)
  | _ =>
      let! ds <- Ret (foldM (fun ds x => ds_add_variable ds (v_metadata x) (Some (v_array x))) ds vs);
      match args.2 with
      | [] => pret (ds, q)
      | _ =>
          let! l <- Ret (traverse (fun sl => ds_isel ds [(c_dim c, ISlice (Some sl.1) (Some sl.2))]) args.2);
          let! ds <- Ret (match l with
                          | [] => Raise IndexError
                          | [ds] => Ok ds
                          | ds :: others => ds_concat ds others (c_dim c)
                          end);
          pret (ds, q)
      end
  end.
Definition load_part (w : view) (delayed : bool) (selected : option (list str)) (args : list (str * Z) * list (Z * Z)) : program (dataset * path) :=
  load_one w delayed (md_select_variables (c_meta (w_ref w)) selected None) (md_select_variables (w_meta w) selected None) args.

(** view/detail.py:289-296, [_assert_have_variables] *)
Definition assert_have_variables (w : view) : res unit :=
  match md_vars (w_meta w) with [] => Raise ValueError | _ => Ok tt end.

(** view/__init__.py:403-404 *)
Definition view_metadata (w : view) : mdataset :=
  let m := c_meta (w_ref w) in
  MDataset (md_dims m) (fold_left (fun d nv => dset d nv.1 nv.2) (md_vars (w_meta w)) (md_vars m)) (md_attrs m) (md_chunks m) (md_block m).

(** The keys of the partitions of the view. *)
Definition view_keys (v : venv) (w : view) (f : filter) : program (list (list (str * Z))) :=
  let! parts <- view_parts v w f;
  Ret (traverse (fun q => p_parse (c_part (w_ref w)) (path_str (w_dir w ++ q))) parts).

(** view/__init__.py:336-407, [load]; the filters are not used with an indexer *)
Definition view_load (v : venv) (w : view) (delayed : bool) (f : filter) (indexer : option (list (list (str * Z) * (Z * Z))))
    (selected : option (list str)) : program (option dataset) :=
  let! _ <- Ret (assert_have_variables w);
  let! args <- match indexer with
               | Some ix => let! parts <- view_parts v w NoFilter;
                            Ret (build_indexer_args (w_ref w) ix (map (fun q => w_dir w ++ q) parts))
               | None => let! keys <- view_keys v w f; pret (map (fun k => (k, [])) keys)
               end;
  let! l <- pseq (map (load_part w delayed selected) args);
  match map fst l with
  | [] => pret None
  | ds :: others =>
      let! ds <- Ret (match others with [] => Ok ds | _ => ds_concat ds others (c_dim (w_ref w)) end);
      let! ds <- Ret (ds_fill_attrs ds (view_metadata w));
      pret (Some ds)
  end.

(** view/detail.py:246-286, [_load_datasets_list] *)
Definition load_list (v : venv) (w : view) (delayed : bool) (f : filter) (selected : option (list str))
  : program (list (list (str * Z) * (dataset * path))) :=
  let! keys <- view_keys v w f;
  let! l <- pseq (map (fun k => load_part w delayed selected (k, [])) keys);
  pret (zip keys l).

(** ** Transforming the partitions *)

(** view/detail.py:299-347, [_select_overlap]: [concat] is also called for one
    partition. *)
Definition select_overlap (w : view) (depth : Z) (l : list (dataset * path)) (q : path) : res (dataset * (nat * nat)) :=
  match where_is q (map snd l) with
  | None => Raise ValueError
  | Some i =>
      let chosen := window l i depth in
      match map fst chosen with
      | [] => Raise IndexError
      | ds :: others =>
          do ds <- ds_concat ds others (c_dim (w_ref w));
          do ix <- calculate_slice (c_dim (w_ref w)) q 0 (0, 0) (map (fun dq => (dq.2, dq.1)) chosen);
          Ok (ds, ix)
      end
  end.

(** view/__init__.py:539-621, [map], computed *)
Definition view_map {B} (v : venv) (w : view) (f : callback B) (delayed : bool) (filt : filter) (selected : option (list str))
  : program (list (list (str * Z) * B)) :=
  let! _ <- Ret (assert_have_variables w);
  let! l <- load_list v w delayed filt selected;
  Ret (traverse (fun x => do k <- p_parse (c_part (w_ref w)) (join_with (lit "/") x.2.2);
                          do b <- cb_call f x.2.1 None; Ok (k, b)) l).

(** view/__init__.py:624-731, [map_overlap], computed *)
Definition view_map_overlap {B} (v : venv) (w : view) (f : callback B) (delayed : bool) (depth : Z) (filt : filter)
    (selected : option (list str)) : program (list (list (str * Z) * B)) :=
  if (depth <? 0)%Z then praise ValueError else
  let! _ <- Ret (assert_have_variables w);
  let! l <- load_list v w delayed filt selected;
  Ret (traverse (fun x => do di <- select_overlap w depth (map snd l) x.2.2;
                          do k <- p_parse (c_part (w_ref w)) (join_with (lit "/") x.2.2);
                          do b <- call_with f di.1 (c_dim (w_ref w), di.2); Ok (k, b)) l).

(** The dataset of a partition when it is used: a lazy dataset is read then. *)
Definition current (delayed : bool) (reload : program dataset) (ds : dataset) : program dataset :=
  if delayed then reload else pret ds.

(** view/detail.py:350-382, [_wrap_update_func], for one partition *)
Definition view_update_one (w : view) (delayed : bool) (selected : option (list str)) (f : update_callback)
    (x : list (str * Z) * (dataset * path)) : program unit :=
  let reload := let! r <- load_part w delayed selected (x.1, []); pret r.1 in
  let! ds <- current delayed reload x.2.1;
  let! l <- Ret (call_dict (cb_call f ds None));
  pfor l (fun nr => update_zarr_array (w_dir w ++ x.2.2 ++ [nr.1]) (evaluate reload delayed ds nr.2)).

(** view/detail.py:385-439, [_wrap_update_func_overlap], with
    collection/detail.py:96-143, [_update_with_overlap], for one partition *)
Definition view_update_overlap (w : view) (delayed : bool) (depth : Z) (selected : option (list str)) (trim : bool) (f : update_callback)
    (all : list (list (str * Z) * (dataset * path))) (x : list (str * Z) * (dataset * path)) : program unit :=
  let dim := c_dim (w_ref w) in
  let reload := let! l <- pseq (map (fun y => load_part w delayed selected (y.1, [])) all);
                Ret (select_overlap w depth l x.2.2) in
  let! di <- (if delayed then reload else Ret (select_overlap w depth (map snd all) x.2.2));
  let '(ds, ix) := di in
  let! l <- Ret (call_dict (call_with f ds (dim, ix)));
  pfor l (fun nr =>
    let value := evaluate (let! di <- reload; pret di.1) delayed ds nr.2 in
    let d := w_dir w ++ x.2.2 ++ [nr.1] in
    if trim then
      let! a <- Ret (get_var ds nr.1);
      let! key <- Ret (get_slices a dim ix);
      update_zarr_array d (let! y <- value; Ret (vd_index key y))
    else update_zarr_array d value).

(** view/__init__.py:409-535, [update] *)
Definition view_update (v : venv) (sched : schedule) (workers : Z) (w : view) (f : update_callback) (delayed : bool) (depth : Z)
    (filt : filter) (npartitions : option Z) (selected : option (list str)) (trim : bool) : program unit :=
  let! _ <- Ret (assert_have_variables w);
  let! l <- load_list v w delayed filt selected;
  match l with
  | [] => pret tt
  | x :: _ =>
      let dim := c_dim (w_ref w) in
      let! names <- Ret (match dget (d_dims x.2.1) dim with
                         | None => Raise KeyError
                         | Some n => match call_dict (call_with f x.2.1 (dim, (0, n))) with
                                     | Raise _ => Raise RuntimeError
                                     | Ok r => Ok (dkeys r)
                                     end
                         end);
      let! _ <- Ret (traverse (assert_handled w) names);
      let! one <- Ret (if (depth =? 0)%Z then Ok (view_update_one w delayed selected f)
                       else if (match selected with None => false | Some s => negb (existsb (fun n => memb n s) names) end) then Raise ValueError
                       else if (depth <? 0)%Z then Raise ValueError
                       else Ok (view_update_overlap w delayed depth selected trim f l));
      let n := match npartitions with Some n => if (n =? 0)%Z then workers else n | None => workers end in
      let! batches <- Ret (split_sequence l (Some n));
      let! _ <- execute_transaction CTorn sched (map (fun b => pfor b one) batches);
      pret tt
  end.
