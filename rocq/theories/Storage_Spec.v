(** * What it means for files to hold a dataset *)
From Verif Require Import Py NdArray_Model NdArray_Spec Dataset_Model Dataset_Spec Meta_Model PartPath_Model FS_Model Pool_Model Storage_Model.

(** A dataset that can be written in a Zarr group: its arrays have as many axes
    as the variable has dimensions, and no variable is named as one of the
    files of the format. *)
Definition plain_name (n : str) : Prop := n ∉ [ZARRAY; ZATTRS; ZGROUP; ZMETADATA].
Record storable (ds : dataset) : Prop := {
  storable_proper : proper ds;
  storable_rank : forall v, v ∈ dvals (d_vars ds) -> length (v_dims v) = length (v_shape v);
  storable_plain : forall n, n ∈ dkeys (d_vars ds) -> plain_name n;
}.

(** A variable as it is read: lazily or not, its attributes being a dictionary
    without the entry that Zarr users keep for the dimensions. *)
Definition with_delayed (v : variable) (b : bool) : variable :=
  Var (v_name v) b (v_array v) (v_dtype v) (v_dims v) (v_attrs v) (v_compressor v) (v_fill v) (v_filters v).
Definition stored (v : variable) : variable := with_attrs v (ddel (dict_of (v_attrs v)) DIMENSIONS).

(** The dataset [ds'] read back is the dataset [ds], or the selected variables
    of it: the same variables, with the same values and metadata, in an
    unspecified order. *)
Definition wanted (selected : option (list str)) (n : str) : Prop :=
  match selected with None => True | Some l => n ∈ l end.
Record reads_as (delayed : bool) (selected : option (list str)) (ds ds' : dataset) : Prop := {
  reads_vars : forall n v, dget (d_vars ds') n = Some v <->
    wanted selected n /\ exists v0, dget (d_vars ds) n = Some v0 /\ v = with_delayed (stored v0) delayed;
  reads_attrs : d_attrs ds' = dict_of (d_attrs ds);
  reads_delayed : d_delayed ds' = delayed;
  reads_proper : proper ds';
}.
