(** * Specification vocabulary for the validation of the partitions, the read-only mode and the copy *)
From Verif Require Import Py NdArray_Model Dataset_Model PartPath_Model FS_Model Storage_Model Listing_Model Listing_Spec Collection_Model Collection_Spec.

(** The directory of the partition [v] is there. *)
Definition stands (c : collection) (s : store) (v : list Z) : Prop :=
  length v = length (p_keys (c_part c)) /\ directory s (part_dir c v).

(** The files [t] of a partition can be read: the consolidated metadata are
    complete and describe a group, and no chunk of its arrays is damaged (a
    missing chunk is equal to the fill value). *)
Definition readable (t : store) : Prop :=
  exists m, t !! [ZMETADATA] = Some (CCons m) /\ is_Some (m !! [ZGROUP]) /\
    forall n x, m !! [n; ZARRAY] = Some x -> exists z, x = MArray z /\
      forall idx, idx ∈ NdArray_Model.indices (z_shape z) ->
        let chunk := t !! [n; chunk_key (chunk_of (z_chunks z) idx)] in chunk = None \/ exists a, chunk = Some (CChunk a).

(** The consolidated metadata are there; they may be damaged. *)
Definition indexed (t : store) : Prop :=
  is_Some (t !! [ZMETADATA]) /\ forall m n x, t !! [ZMETADATA] = Some (CCons m) -> m !! [n; ZARRAY] = Some x -> exists z, x = MArray z.
