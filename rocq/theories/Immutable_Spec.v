(** * Histories of insertions of datasets of the same layout *)
From Verif Require Import Py Dict Dataset_Model Dataset_Spec Assemble_Spec Meta_Model PartPath_Model Split_Spec FS_Model Collection_Model Collection_Spec.

(** The merge strategy does not change the layout: what it returns has the
    variables of one of the datasets it is given, with the same dimensions and
    the same sizes along all of them but that of the partitioning. *)
Definition keeps_layout (c : collection) (merge : option merge_callable) : Prop :=
  forall f a b out, merge = Some f -> sound a -> sound b -> f a b (c_axis c) (c_dim c) = Ok out ->
    alike (c_dim c) a out \/ alike (c_dim c) b out.
(** The insertions replace the partitions or merge them with such a strategy, and
    the datasets have the size [sz d] along each dimension [d] but that of the
    partitioning. *)
Definition of_sizes (c : collection) (sz : str -> nat) (x : call) : Prop :=
  match x with
  | Insert ds _ merge _ _ _ _ => keeps_layout c merge /\ forall d m, d <> c_dim c -> dget (d_dims ds) d = Some m -> m = sz d
  | Drop _ _ _ => True
  end.
(** [ds] was given to the call number [j], which is an insertion, and no insertion
    succeeded before. *)
Definition first_given (h : list call) (rs : list (res (list path))) (j : nat) (ds : dataset) : Prop :=
  (exists rows merge np validate scheds inner, h !! j = Some (Insert ds rows merge np validate scheds inner)) /\
  forall k ds' rows merge np validate scheds inner r, k < j -> h !! k = Some (Insert ds' rows merge np validate scheds inner) -> rs !! k = Some r -> exists ex, r = Raise ex.
