(** * What datasets and their operations mean *)
From Verif Require Import Py NdArray_Model NdArray_Spec Dataset_Model.

(** The variable has, along each of its dimensions, the size given by [dims]. *)
Definition sized (dims : list (str * nat)) (v : variable) : Prop :=
  forall k d, v_dims v !! k = Some d ->
    exists n, v_shape v !! k = Some n /\ dget dims d = Some n.

(** All variables of the dataset are registered under their own name, are all
    lazy or all in memory, and agree with the dimensions of the dataset. *)
Definition consistent (ds : dataset) : Prop :=
  forall name v, dget (d_vars ds) name = Some v ->
    v_name v = name /\ v_delayed v = d_delayed ds /\ sized (d_dims ds) v.

(** What a dataset built by the constructor, from arrays that are arrays,
    satisfies in addition. *)
Record proper (ds : dataset) : Prop := {
  proper_names : NoDup (dkeys (d_vars ds));
  proper_chunks : NoDup (dkeys (d_chunks ds));
  proper_block : d_block ds <> 0%Z;
  proper_arrays : forall v, v ∈ dvals (d_vars ds) -> arr_wf (v_array v);
  proper_consistent : consistent ds;
}.

(** No variable has twice the same dimension. *)
Definition no_repeat (ds : dataset) : Prop :=
  forall v, v ∈ dvals (d_vars ds) -> NoDup (v_dims v).

(** The records of a variable along a dimension, if it has the dimension. *)
Definition records (v : variable) (dim : str) : option (list arr) :=
  match list_find (fun d => d = dim) (v_dims v) with
  | Some (ax, _) => Some (rows ax (v_array v))
  | None => None
  end.

(** The items of a list at the given positions. *)
Definition pick {A} (ps : list nat) (l : list A) : list A := omap (fun i => l !! i) ps.

(** Two variables differ at most by their records along [dim]. *)
Definition same_but_records (dim : str) (v v' : variable) : Prop :=
  v' = with_array v (v_array v') /\ length (v_shape v') = length (v_shape v) /\
  (forall k, v_dims v !! k <> Some dim -> v_shape v' !! k = v_shape v !! k) /\
  (dim ∉ v_dims v -> v' = v).

(** Two datasets have the same variable names, in the same order, and related
    variables; the other properties are equal. *)
Definition related (R : str -> variable -> variable -> Prop) (ds ds' : dataset) : Prop :=
  Forall2 (fun nv nv' => nv'.1 = nv.1 /\ R nv.1 nv.2 nv'.2) (d_vars ds) (d_vars ds') /\
  d_attrs ds' = d_attrs ds /\ d_chunks ds' = d_chunks ds /\
  d_block ds' = d_block ds /\ d_delayed ds' = d_delayed ds.

(** The records along [dim] of the variable [name] of each dataset. *)
Definition records_in (dim name : str) (dss : list dataset) (rss : list (list arr)) : Prop :=
  Forall2 (fun ds rs => exists v, dget (d_vars ds) name = Some v /\ records v dim = Some rs) dss rss.

(** [o] can be concatenated to [ds] along [dim]: it is of the same kind, has the
    same variables with the same dimensions, and its sizes agree except along
    [dim]. *)
Definition compatible (dim : str) (ds o : dataset) : Prop :=
  d_delayed o = d_delayed ds /\
  forall name v, dget (d_vars ds) name = Some v ->
    exists v', dget (d_vars o) name = Some v' /\ v_delayed v' = v_delayed v /\
      v_dims v' = v_dims v /\
      length (v_shape v') = length (v_shape v) /\
      forall k, v_dims v !! k <> Some dim -> v_shape v' !! k = v_shape v !! k.
