(** * Model of the storage of datasets in Zarr groups (storage.py)

    The Zarr library (version 2 of the format) is modelled by its
    documentation: a group is a directory with the files .zgroup, .zattrs and
    .zmetadata (the consolidated metadata: a copy of all the metadata files of
    the group); an array is a directory with the files .zarray, .zattrs and one
    file per chunk.

    Simplifications: JSON files are given by what they represent; compression
    and filters are the identity; the chunks at the edges are stored without
    their padding (the fill value), which [read_item] gives back; the chunks of an array are written one after the other; a chunk
    length is at least 1 (a chunk size of 0 makes dask raise
    ZeroDivisionError). *)
From Verif Require Import Py NdArray_Model Dataset_Model Meta_Model PartPath_Model FS_Model Pool_Model.

(** storage.py:31-38 *)
Definition DIMENSIONS : str := lit "_ARRAY_DIMENSIONS".
Definition ZATTRS : str := lit ".zattrs".
Definition ZGROUP : str := lit ".zgroup".
Definition ZARRAY : str := lit ".zarray".
Definition ZMETADATA : str := lit ".zmetadata".

(** The content of .zarray *)
Record zarray := ZArr {
  z_shape : list nat;
  z_chunks : list nat;
  z_dtype : str;
  z_compressor : option str;
  z_fill : option val;
  z_filters : list str;
}.
Global Instance zarray_eq_dec : EqDecision zarray.
Proof. solve_decision. Defined.

(** The metadata files: .zarray, .zattrs (attributes, and the dimensions kept
    in the attribute [DIMENSIONS]) and .zgroup. *)
Inductive zmeta := MArray (z : zarray) | MAttrs (attrs : list attribute) (dims : option (list str)) | MGroup.
Global Instance zmeta_eq_dec : EqDecision zmeta.
Proof. solve_decision. Defined.

(** collection/__init__.py:225-247: the configuration of a collection. *)
Record colconfig := ColConfig { cc_axis : str; cc_dataset : dsconfig; cc_part : pconfig }.
Global Instance colconfig_eq_dec : EqDecision colconfig.
Proof. solve_decision. Defined.

(** view/__init__.py:139-156: the configuration of a view (the file system of
    the reference is not represented). *)
Record viewconfig := ViewConfig { vc_base : list str; vc_filters : str; vc_dataset : dsconfig; vc_ref : list str }.
Global Instance viewconfig_eq_dec : EqDecision viewconfig.
Proof. solve_decision. Defined.

(** The content of a file; [CTorn]: a file found in the middle of a write. *)
Inductive content :=
  | CMeta (m : zmeta)
  | CCons (m : fs zmeta)
  | CChunk (a : arr)
  | CConf (c : colconfig)
  | CView (c : viewconfig)
  | CBytes (b : str)
  | CTorn.
Global Instance content_eq_dec : EqDecision content.
Proof. solve_decision. Defined.

Notation store := (fs content).
Notation program := (prog content).

(** ** Chunks *)

Definition grid (shape cs : list nat) : list nat := zip_with (fun n c => (n + c - 1) / c) shape cs.
Definition chunk_of (cs idx : list nat) : list nat := zip_with (fun c i => i / c) cs idx.
Definition offset_in (cs idx : list nat) : list nat := zip_with (fun c i => i mod c) cs idx.
Definition chunk_start (cs ci : list nat) : list nat := zip_with (fun c k => k * c) cs ci.
Definition chunk_shape (shape cs ci : list nat) : list nat :=
  zip_with Nat.min cs (zip_with Nat.sub shape (chunk_start cs ci)).
(** The items of [a] in the chunk [ci]. *)
Definition chunk_at (a : arr) (cs ci : list nat) : arr :=
  tabulate (chunk_shape (a_shape a) cs ci) (fun o => get a (zip_with Nat.add (chunk_start cs ci) o)).
(** The name of the file of a chunk: "0", "1.0", ... *)
Definition chunk_key (ci : list nat) : str :=
  match ci with
  | [] => lit "0"
  | _ => join_with (lit ".") (map (fun k => show_Z (Z.of_nat k)) ci)
  end.
(** zarr.util.all_equal: a chunk that only holds the fill value. *)
Definition all_fill (fill : option val) (a : arr) : bool :=
  match fill with
  | None => false
  | Some f => forallb (fun v => bool_decide (v = f)) (a_flat a)
  end.

(** Writing all the chunks of an array in the directory [d]; [skip] is
    [write_empty_chunks=False]. *)
Definition write_chunks (d : path) (z : zarray) (skip : bool) (a : arr) : program unit :=
  pfor (indices (grid (z_shape z) (z_chunks z))) (fun ci =>
    let c := chunk_at a (z_chunks z) ci in
    if skip && all_fill (z_fill z) c then pret tt
    else write_file (d ++ [chunk_key ci]) (CChunk c)).

(** [array\[...\]]: an item is read in its chunk; the items of a missing chunk are
    equal to the fill value (and unspecified when there is none), as is the
    padding of a chunk at the edge, that an array found larger since then may
    reach; an incomplete chunk cannot be decompressed. *)
Definition inside (shape idx : list nat) : bool := bool_decide (Forall2 lt idx shape).
Definition read_item (z : zarray) (t : store) (idx : list nat) : res val :=
  match t !! [chunk_key (chunk_of (z_chunks z) idx)] with
  | None => Ok (default (Num 0) (z_fill z))
  | Some (CChunk a) =>
      let o := offset_in (z_chunks z) idx in
      Ok (if inside (a_shape a) o then get a o else default (Num 0) (z_fill z))
  | Some _ => Raise RuntimeError
  end.
Definition read_array (z : zarray) (t : store) : res arr :=
  do l <- traverse (read_item z t) (indices (z_shape z)); Ok (Arr (z_shape z) l).

(** ** Metadata *)

(** The files that [zarr.consolidate_metadata] collects. *)
Definition is_zarr_key (q : path) : bool :=
  match last q with Some n => memb n [ZARRAY; ZGROUP; ZATTRS] | None => false end.
Definition meta_of (c : content) : option zmeta := match c with CMeta m => Some m | _ => None end.
(** A metadata file that cannot be parsed is a ValueError. *)
Definition collect_meta (t : store) : res (fs zmeta) :=
  let files := filter (fun qc => is_zarr_key qc.1 = true) t in
  if forallb (fun qc => bool_decide (is_Some (meta_of qc.2))) (map_to_list files)
  then Ok (omap meta_of files) else Raise ValueError.

(** zarr.consolidate_metadata: writes .zmetadata, then opens the group it
    describes (GroupNotFoundError, a ValueError, if .zgroup is missing). *)
Definition consolidate (d : path) : program unit :=
  let! t <- get_tree d;
  let! m <- Ret (collect_meta t);
  let! _ <- write_file (d ++ [ZMETADATA]) (CCons m);
  if bool_decide (is_Some (m !! [ZGROUP])) then pret tt else praise ValueError.

(** zarr.storage.init_group *)
Definition init_group (d : path) : program unit :=
  let! a <- read_file (d ++ [ZARRAY]);
  let! g <- read_file (d ++ [ZGROUP]);
  if bool_decide (is_Some a) then praise ContainsArrayError
  else if bool_decide (is_Some g) then praise ContainsGroupError
  else write_file (d ++ [ZGROUP]) (CMeta MGroup).

(** storage.py:115-132, [write_zattrs] *)
Definition zattrs_of (attrs : list attribute) (dims : list str) : zmeta :=
  MAttrs (ddel (dict_of attrs) DIMENSIONS) (Some dims).
Definition write_zattrs (d : path) (name : str) (attrs : list attribute) (dims : list str) : program unit :=
  write_file (d ++ [name; ZATTRS]) (CMeta (zattrs_of attrs dims)).

(** storage.py:380-400, [del_zarr_array] *)
Definition del_zarr_array (d : path) (name : str) : program unit :=
  let! e <- exists_path (d ++ [name]);
  if e then
    let! _ <- rm (d ++ [name]);
    consolidate d
  else pret tt.

(** ** Writing *)

(** storage.py:176-187 and 101: the chunk lengths of a variable ([rechunk] with
    the length given for each dimension, or the whole dimension). *)
Definition chunk_len (chunks : list (str * nat)) (dim : str) (n : nat) : nat :=
  Nat.max 1 (match dget chunks dim with Some c => Nat.min c n | None => n end).
Definition zarray_of (chunks : list (str * nat)) (v : variable) : zarray :=
  ZArr (v_shape v) (zip_with (chunk_len chunks) (v_dims v) (v_shape v))
       (v_dtype v) (v_compressor v) (v_fill v) (v_filters v).

(** storage.py:85-112, [_to_zarr]: zarr.create(overwrite=True) removes what is
    there and writes .zarray, then the chunks are stored. zarr.create also makes
    the parent a group when it is not: see [require_group]. *)
Definition to_zarr (d : path) (name : str) (z : zarray) (a : arr) : program unit :=
  let! _ <- rmtree (d ++ [name]);
  let! _ <- write_file (d ++ [name; ZARRAY]) (CMeta (MArray z));
  write_chunks (d ++ [name]) z true a.

(** storage.py:135-193, [write_zarr_variable] *)
Definition write_zarr_variable (d : path) (chunks : list (str * nat)) (nv : str * variable) : program unit :=
  pcatch
    (let! _ <- to_zarr d nv.1 (zarray_of chunks nv.2) (v_array nv.2);
     write_zattrs d (v_name nv.2) (v_attrs nv.2) (v_dims nv.2))
    (fun e => let! _ <- del_zarr_array d nv.1; praise e).

(** storage.py:196-219, [_write_meta] *)
Definition write_meta (d : path) (attrs : list attribute) : program unit :=
  let! _ <- write_file (d ++ [ZATTRS]) (CMeta (MAttrs (dict_of attrs) None));
  let! _ <- write_file (d ++ [ZGROUP]) (CMeta MGroup);
  consolidate d.

(** storage.py:222-280, [write_zarr_group]: the variables are written by
    concurrent tasks ([sched] is their schedule) or one after the other. The
    callers of the first form have made the group; in the second form the first
    zarr.create makes it. *)
Definition require_group (d : path) : program unit :=
  let! g <- read_file (d ++ [ZGROUP]);
  if bool_decide (is_Some g) then pret tt else write_file (d ++ [ZGROUP]) (CMeta MGroup).
Definition write_zarr_group (d : path) (ds : dataset) (sched : option schedule) : program unit :=
  let writers := map (write_zarr_variable d (d_chunks ds)) (d_vars ds) in
  let! _ <- match sched with
            | Some sched => execute_transaction CTorn sched writers
            | None => let! _ <- require_group d; pseq writers
            end;
  write_meta d (d_attrs ds).

(** ** Reading *)

(** zarr.open_consolidated(mode='r') *)
Definition read_cons (t : store) : res (fs zmeta) :=
  match t !! [ZMETADATA] with
  | None => Raise KeyError
  | Some (CCons m) => if bool_decide (is_Some (m !! [ZGROUP])) then Ok m else Raise ValueError
  | Some _ => Raise ValueError
  end.
(** The names of the arrays of a group. *)
Definition array_name (q : path) : option str :=
  match q with [n; z] => if decide (z = ZARRAY) then Some n else None | _ => None end.
Definition array_names (m : fs zmeta) : list str := omap (fun qz => array_name qz.1) (map_to_list m).
(** [store\[name\]], and the reading of its items. *)
Definition array_meta (m : fs zmeta) (name : str) : res zarray :=
  match m !! [name; ZARRAY] with
  | Some (MArray z) => Ok z
  | _ => Raise KeyError
  end.
Definition attrs_of (m : fs zmeta) (q : path) : list attribute * option (list str) :=
  match m !! q with Some (MAttrs a d) => (a, d) | _ => ([], None) end.

(** storage.py:283-302, [open_zarr_array], with variable/array.py:165-190 and
    variable/delayed_array.py:267-315, [from_zarr]. A lazy array is read when
    it is opened: the modelled code does not change a partition between the
    opening and the computation, except [update] (see Update_Model). *)
Definition open_zarr_array (m : fs zmeta) (t : store) (delayed : bool) (name : str) : res variable :=
  do z <- array_meta m name;
  do a <- read_array z (sub [name] t);
  let '(attrs, dims) := attrs_of m [name; ZATTRS] in
  match dims with
  | None => Raise KeyError
  | Some dims => Ok (Var name delayed a (z_dtype z) dims attrs (z_compressor z) (z_fill z) (z_filters z))
  end.

(** storage.py:305-342, [open_zarr_group], on the files [t] of the group. The
    code goes through a set of names: the order of the variables is not
    specified. *)
Definition read_group (t : store) (delayed : bool) (selected : option (list str)) : res dataset :=
  do m <- read_cons t;
  let names := match selected with
               | None => array_names m
               | Some l => List.filter (fun n => memb n l) (array_names m)
               end in
  do vs <- traverse (open_zarr_array m t delayed) names;
  new_dataset vs (attrs_of m [ZATTRS]).1 None [] (Some delayed).
Definition open_zarr_group (d : path) (delayed : bool) (selected : option (list str)) : program dataset :=
  let! t <- get_tree d; Ret (read_group t delayed selected).

(** storage.py:450-473, [check_zarr_group] *)
Definition check_group (t : store) : res bool :=
  match (do m <- read_cons t;
         traverse (fun n => do z <- array_meta m n; read_array z (sub [n] t)) (array_names m)) with
  | Ok _ => Ok true
  | Raise e => if memb e [ValueError; TypeError; RuntimeError] then Ok false else Raise e
  end.
Definition check_zarr_group (d : path) : program bool :=
  let! t <- get_tree d; Ret (check_group t).

(** ** Changing an array *)

(** storage.py:403-447, [add_zarr_array]: zarr.open of a missing template makes
    a group, which has no shape (AttributeError); zarr.create refuses an
    existing array. *)
Definition add_zarr_array (d : path) (v : mvar) (template : str) (chunks : list (str * nat)) : program unit :=
  let! tz <- read_file (d ++ [template; ZARRAY]);
  match tz with
  | None =>
      let! g <- read_file (d ++ [template; ZGROUP]);
      let! _ <- (if bool_decide (is_Some g) then pret tt else write_file (d ++ [template; ZGROUP]) (CMeta MGroup));
      praise AttributeError
  | Some (CMeta (MArray tz)) =>
      let shape := z_shape tz in
      let cs := zip_with (fun dim n => Nat.max 1 (default n (dget chunks dim))) (mv_dims v) shape in
      let! a <- read_file (d ++ [mv_name v; ZARRAY]);
      let! g <- read_file (d ++ [mv_name v; ZGROUP]);
      if bool_decide (is_Some a) then praise ContainsArrayError
      else if bool_decide (is_Some g) then praise ContainsGroupError else
      let! _ <- write_file (d ++ [mv_name v; ZARRAY])
                  (CMeta (MArray (ZArr shape cs (mv_dtype v) (mv_compressor v) (mv_fill v) (mv_filters v))));
      let! _ <- write_zattrs d (mv_name v) (mv_attrs v) (mv_dims v);
      consolidate d
  | Some _ => praise ValueError
  end.
