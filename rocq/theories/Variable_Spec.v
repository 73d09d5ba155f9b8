(** * Specification vocabulary for the addition and removal of variables *)
From Verif Require Import Py NdArray_Model NdArray_Spec Dataset_Model Dataset_Spec Meta_Model PartPath_Model FS_Model Pool_Model
  Storage_Model Storage_Spec Listing_Model Listing_Spec Collection_Model Collection_Spec Update_Model.

(** Each declared variable that has the dimension of the axis is in each
    partition, with the dimensions that are declared. *)
Definition complete (c : collection) (M : list Z -> option dataset) : Prop :=
  forall values ds n mv, M values = Some ds -> dget (md_vars (c_meta c)) n = Some mv -> c_dim c ∈ mv_dims mv ->
    exists v, dget (d_vars ds) n = Some v /\ v_dims v = mv_dims mv.

(** [c'] is the collection [c], for which other variables may be declared. *)
Definition same_otherwise (c c' : collection) : Prop :=
  c_axis c' = c_axis c /\ c_part c' = c_part c /\ c_dir c' = c_dir c /\ c_dim c' = c_dim c /\ c_immutable c' = c_immutable c /\
  c_readonly c' = c_readonly c /\ md_dims (c_meta c') = md_dims (c_meta c) /\ md_attrs (c_meta c') = md_attrs (c_meta c) /\
  md_chunks (c_meta c') = md_chunks (c_meta c) /\ md_block (c_meta c') = md_block (c_meta c).

(** [w] is a variable as [mv] declares it; its values are all equal to the fill
    value, if there is one, and it has the sizes of the other variables. *)
Record blank (mv : mvar) (old : dataset) (w : variable) : Prop := {
  bl_name : v_name w = mv_name mv;
  bl_dims : v_dims w = mv_dims mv;
  bl_dtype : v_dtype w = mv_dtype mv;
  bl_attrs : v_attrs w = [];
  bl_storage : v_compressor w = mv_compressor mv /\ v_fill w = mv_fill mv /\ v_filters w = mv_filters mv;
  bl_array : arr_wf (v_array w) /\ length (v_shape w) = length (v_dims w);
  bl_values : forall f x, mv_fill mv = Some f -> x ∈ a_flat (v_array w) -> x = f;
  bl_shape : forall n v k j d, dget (d_vars old) n = Some v -> v_dims v !! k = Some d -> v_dims w !! j = Some d -> v_shape w !! j = v_shape v !! k;
}.
(** [new] is [old] and the variable that [mv] declares. *)
Definition with_variable (mv : mvar) (old new : dataset) : Prop :=
  (exists w, dget (d_vars new) (mv_name mv) = Some w /\ blank mv old w) /\
  (forall n, n <> mv_name mv -> dget (d_vars new) n = dget (d_vars old) n) /\ d_attrs new = d_attrs old.
(** [new] is [old] without the variable [name]. *)
Definition without_variable (name : str) (old new : dataset) : Prop :=
  dget (d_vars new) name = None /\ (forall n, n <> name -> dget (d_vars new) n = dget (d_vars old) n) /\ d_attrs new = d_attrs old.

(** The partitions are the same; the contents of each one are related. *)
Definition pointwise (R : dataset -> dataset -> Prop) (M M' : list Z -> option dataset) : Prop :=
  forall values, match M values, M' values with Some old, Some new => R old new | None, None => True | _, _ => False end.

(** No file is different, except the configuration of the collection and the
    files of the partitions. *)
Definition elsewhere_same (c : collection) (M : list Z -> option dataset) (s s' : store) : Prop :=
  forall q, q <> c_dir c ++ [CONFIG] -> (forall v, is_Some (M v) -> ~ under (part_dir c v) q) -> s' !! q = s !! q.

(** The files [s] are the files [s0], and any others in the directories of the
    variable [name] of the partitions. *)
Definition with_leftovers (c : collection) (M : list Z -> option dataset) (name : str) (s0 s : store) : Prop :=
  (forall v q, is_Some (M v) -> under (part_dir c v ++ [name]) q -> s0 !! q = None) /\
  (forall q, (forall v, is_Some (M v) -> ~ under (part_dir c v ++ [name]) q) -> s !! q = s0 !! q).
