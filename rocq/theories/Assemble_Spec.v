(** * Datasets put together from the records of other datasets *)
From Verif Require Import Py NdArray_Model NdArray_Spec Dataset_Model Dataset_Spec.

(** The two datasets are of the same kind, and have the same variables with the
    same dimensions and the same sizes, except along [dim]. *)
Definition alike (dim : str) (a b : dataset) : Prop :=
  d_delayed b = d_delayed a /\
  (forall name, is_Some (dget (d_vars a) name) <-> is_Some (dget (d_vars b) name)) /\
  (forall name v w, dget (d_vars a) name = Some v -> dget (d_vars b) name = Some w ->
     v_dims w = v_dims v /\ length (v_shape w) = length (v_shape v) /\
     forall k, v_dims v !! k <> Some dim -> v_shape w !! k = v_shape v !! k).

(** Record [i] of source [k]. *)
Definition origin : Type := nat * nat.

(** [r] is the record of the variable [name] designated by the origin. *)
Definition record_at (dim : str) (sources : list dataset) (name : str) (o : origin) (r : arr) : Prop :=
  exists s v rs, sources !! o.1 = Some s /\ dget (d_vars s) name = Some v /\
    records v dim = Some rs /\ rs !! o.2 = Some r.

(** [ds] is made of the records of the sources that [plan] lists, in this
    order and the same for all variables that have the dimension; each variable
    has the properties of that variable in one of the sources, and is that
    variable if it does not have the dimension. *)
Record assembled (dim : str) (sources : list dataset) (plan : list origin) (ds : dataset) : Prop := {
  as_proper : proper ds;
  as_no_repeat : no_repeat ds;
  as_alike : forall s, s ∈ sources -> alike dim s ds;
  as_origin : forall name v, dget (d_vars ds) name = Some v ->
    exists s w, s ∈ sources /\ dget (d_vars s) name = Some w /\ same_but_records dim w v;
  as_records : forall name v rs, dget (d_vars ds) name = Some v -> records v dim = Some rs ->
    Forall2 (record_at dim sources name) plan rs;
}.

(** All the records of source [k], which has [n] of them. *)
Definition all_of (k n : nat) : list origin := map (pair k) (seq 0 n).
