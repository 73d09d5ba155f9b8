(** * Model of meta.py: the metadata of datasets and their configuration *)
From Verif Require Import Py Order NdArray_Model Dataset_Model.

(** zarr.meta.encode_fill_value and decode_fill_value for integer, float and
    date types: NaN is written as a string, the other values as numbers. *)
Inductive jfill := JNum (z : Z) | JStr (s : str).
Global Instance jfill_eq_dec : EqDecision jfill.
Proof. solve_decision. Defined.
Definition encode_fill_value (f : option val) : option jfill :=
  match f with None => None | Some (Num z) => Some (JNum z) | Some NaN => Some (JStr (lit "NaN")) end.
Definition decode_fill_value (f : option jfill) : res (option val) :=
  match f with
  | None => Ok None
  | Some (JNum z) => Ok (Some (Num z))
  | Some (JStr s) => if decide (s = lit "NaN") then Ok (Some NaN) else Raise ValueError
  end.

(** The dictionary of a variable in the configuration. Simplification: a dtype
    is its name and a codec its configuration, both unchanged by zarr's
    encode_dtype, decode_dtype and get_codec. *)
Record vconfig := VConfig {
  vc_attrs : list attribute;
  vc_compressor : option str;
  vc_dims : list str;
  vc_dtype : str;
  vc_fill : option jfill;
  vc_filters : list str;
  vc_name : str;
}.
Global Instance vconfig_eq_dec : EqDecision vconfig.
Proof. solve_decision. Defined.

(** [sorted] of pairs (name, value): see meta.py:175 and 315. Simplification:
    the values are compared as texts (only the names count when they differ). *)
Definition attr_lt : attribute -> attribute -> bool := pair_lt str_lt str_lt.
Definition sort_attrs (l : list attribute) : list attribute := sorted_by attr_lt id l.

(** meta.py:165-187, [Variable.get_config] *)
Definition mv_get_config (v : mvar) : vconfig :=
  VConfig (sort_attrs (mv_attrs v)) (mv_compressor v) (mv_dims v) (mv_dtype v)
          (encode_fill_value (mv_fill v)) (mv_filters v) (mv_name v).

(** meta.py:190-217, [Variable.from_config] *)
Definition mv_from_config (c : vconfig) : res mvar :=
  do f <- decode_fill_value (vc_fill c);
  Ok (MVar (vc_name c) (vc_dtype c) (vc_dims c) (vc_attrs c) (vc_compressor c) f (vc_filters c)).

(** meta.py:160-163, [Variable.__eq__] *)
Definition mv_eq (a b : mvar) : bool := bool_decide (mv_get_config a = mv_get_config b).

(** meta.py:219-230, [Variable.set_for_insertion] *)
Definition mv_set_for_insertion (v : mvar) : mvar :=
  MVar (mv_name v) (mv_dtype v) (mv_dims v) [] (mv_compressor v) (mv_fill v) (mv_filters v).

(** meta.py:233-274, slots and constructor of [Dataset] *)
Record mdataset := MDataset {
  md_dims : list str;
  md_vars : list (str * mvar);
  md_attrs : list attribute;
  md_chunks : list (str * nat);
  md_block : Z;
}.
Global Instance mdataset_eq_dec : EqDecision mdataset.
Proof. solve_decision. Defined.
Definition mk_mdataset (dims : list str) (vars : list mvar) (attrs : list attribute)
    (chunks : list (str * nat)) (block : option Z) : mdataset :=
  MDataset dims (dict_of (map (fun v => (mv_name v, v)) vars)) attrs chunks (block_or_default block).

(** The dictionary of a dataset in the configuration; the keys 'chunks' and
    'block_size_limit' may be missing (older versions). *)
Record dsconfig := DSConfig {
  dc_attrs : list attribute;
  dc_dims : list str;
  dc_vars : list vconfig;
  dc_chunks : option (list (str * nat));
  dc_block : option Z;
}.
Global Instance dsconfig_eq_dec : EqDecision dsconfig.
Proof. solve_decision. Defined.

(** meta.py:307-326, [Dataset.get_config] *)
Definition md_get_config (m : mdataset) : dsconfig :=
  DSConfig (sort_attrs (md_attrs m)) (md_dims m)
    (map (fun nv => mv_get_config nv.2) (sorted_by str_lt fst (md_vars m)))
    (Some (md_chunks m)) (Some (md_block m)).

(** meta.py:354-373, [Dataset.from_config] *)
Definition md_from_config (c : dsconfig) : res mdataset :=
  do vs <- traverse mv_from_config (dc_vars c);
  Ok (mk_mdataset (dc_dims c) vs (dc_attrs c) (default [] (dc_chunks c)) (dc_block c)).

(** meta.py:299-305, [Dataset.__eq__] *)
Definition md_eq (a b : mdataset) : bool := bool_decide (md_get_config a = md_get_config b).

(** meta.py:276-297, [Dataset.select_variables]; a set is the list of its
    members without repetition. *)
Definition md_select_variables (m : mdataset) (keep drop : option (list str)) : list str :=
  let result := dkeys (md_vars m) in
  let result := match keep with None => result | Some l => List.filter (fun n => memb n l) result end in
  match drop with None => result | Some l => List.filter (fun n => negb (memb n l)) result end.

(** meta.py:328-352, [Dataset.add_variable] *)
Definition md_add_variable (m : mdataset) (v : mvar) : res mdataset :=
  if dmem (md_vars m) (mv_name v) then Raise ValueError else
  if negb (forallb (fun d => memb d (md_dims m)) (mv_dims v)) then Raise ValueError else
  Ok (MDataset (md_dims m) (dset (md_vars m) (mv_name v) v) (md_attrs m) (md_chunks m) (md_block m)).

(** [del self.metadata.variables\[variable\]] (collection/__init__.py:626) *)
Definition md_del_variable (m : mdataset) (name : str) : mdataset :=
  MDataset (md_dims m) (ddel (md_vars m) name) (md_attrs m) (md_chunks m) (md_block m).

(** meta.py:375-393, [Dataset.search_same_dimensions_as] *)
Definition md_search_same_dimensions_as (m : mdataset) (v : mvar) : res mvar :=
  match List.find (fun w => bool_decide (mv_dims w = mv_dims v)) (dvals (md_vars m)) with
  | Some w => Ok w
  | None => Raise ValueError
  end.

(** meta.py:395-418, [Dataset.missing_variables] *)
Definition md_missing_variables (m other : mdataset) : res (list str) :=
  let this := dkeys (md_vars m) in
  let others := dkeys (md_vars other) in
  if negb (forallb (fun n => memb n this) others) then Raise ValueError
  else Ok (List.filter (fun n => negb (memb n others)) this).

(** meta.py:420-448, [Dataset.select_variables_by_dims] *)
Definition md_select_variables_by_dims (m : mdataset) (dims : list str) (predicate : bool) : list str :=
  map fst (List.filter (fun nv => dims_condition dims predicate (mv_dims nv.2)) (md_vars m)).

(** dataset.py:398-411, [Dataset.metadata] *)
Definition ds_metadata (ds : dataset) : mdataset :=
  mk_mdataset (dkeys (d_dims ds)) (map v_metadata (dvals (d_vars ds))) (d_attrs ds) (d_chunks ds) (Some (d_block ds)).

(** dataset.py:521-531, [Dataset.fill_attrs], with variable/abc.py:446-452;
    [ds.variables\[name\]] of the metadata may raise KeyError. *)
Definition ds_fill_attrs (ds : dataset) (m : mdataset) : res dataset :=
  do vars <- traverse (fun nv =>
    match dget (md_vars m) nv.1 with
    | Some mv => Ok (nv.1, with_attrs nv.2 (mv_attrs mv))
    | None => Raise KeyError
    end) (d_vars ds);
  Ok (Dataset (d_dims ds) vars (md_attrs m) (d_chunks ds) (d_block ds) (d_delayed ds)).
