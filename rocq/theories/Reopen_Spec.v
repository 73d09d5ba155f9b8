(** * What opening a collection gives back *)
From Verif Require Import Py Dict Dataset_Model Dataset_Spec Meta_Model Meta_Spec PartPath_Model Storage_Model FS_Model Listing_Model Listing_Spec Collection_Model Collection_Spec.

(** A partitioning that the constructors can give. *)
Definition constructed (p : partitioning) : Prop :=
  (exists v resolution, mk_date v resolution = Ok p) \/ (exists v dtype, mk_sequence v dtype = Ok p).

(** The same collection, opened with another mode: the order of the attributes
    and the types of the keys may differ. *)
Record reopened (mode : str) (c c' : collection) : Prop := {
  ro_axis : c_axis c' = c_axis c;
  ro_dir : c_dir c' = c_dir c;
  ro_dim : c_dim c' = c_dim c;
  ro_fixed : c_immutable c' = c_immutable c;
  ro_mode : c_readonly c' = true <-> mode = lit "r";
  ro_meta : same_metadata (c_meta c) (c_meta c');
  ro_keys : p_keys (c_part c') = p_keys (c_part c) /\ p_variables (c_part c') = p_variables (c_part c);
  ro_path : forall values, part_dir c' values = part_dir c values;
  ro_parse : forall s, p_parse (c_part c') s = p_parse (c_part c) s;
}.
