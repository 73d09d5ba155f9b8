(** * Vocabulary about interrupted calls *)
From Verif Require Import Py Dataset_Model FS_Model Storage_Model Storage_Spec Collection_Model Collection_Spec.

(** The call [p], started in the state [s], may be stopped when the files are
    [u]: between two operations on files, while a file is written, or while a
    directory is removed. *)
Definition stopped_at {A} (p : program A) (s u : store) : Prop := exists p', rtc (step CTorn) (p, s) (p', u).

(** No file lies at or below [d]. *)
Definition absent (u : store) (d : path) : Prop := forall q, under d q -> u !! q = None.
(** The directory [d] has the same files in the two states. *)
Definition untouched (s u : store) (d : path) : Prop := forall q, under d q -> u !! q = s !! q.
(** Opening the group [d] gives the dataset [ds], or raises. *)
Definition readable_as (u : store) (d : path) (ds : dataset) : Prop :=
  forall delayed sel, exists ds', exec (open_zarr_group d delayed sel) u = (Ok ds', u) /\ reads_as delayed sel ds ds'.
Definition unreadable (u : store) (d : path) : Prop :=
  forall delayed sel, exists ex, exec (open_zarr_group d delayed sel) u = (Raise ex, u).
