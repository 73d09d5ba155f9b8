(** * Specification vocabulary for the copy of a collection *)
From Verif Require Import Py NdArray_Model Dataset_Model PartPath_Model FS_Model Storage_Model Collection_Model Collection_Spec.

(** The same collection in the directory [d]. *)
Definition moved_to (d : path) (c : collection) : collection :=
  Coll (c_axis c) (c_meta c) (c_part c) d (c_dim c) (c_immutable c) (c_readonly c).

(** The partitions of [M] that the filter keeps. *)
Definition only (P : list Z -> bool) (M : list Z -> option dataset) : list Z -> option dataset :=
  fun v => if P v then M v else None.
