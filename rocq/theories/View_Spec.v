(** * Specification vocabulary for views *)
From Verif Require Import Py NdArray_Model NdArray_Spec Dataset_Model Dataset_Spec Meta_Model PartPath_Model FS_Model Pool_Model
  Storage_Model Storage_Spec Listing_Model Collection_Model Collection_Spec Update_Model View_Model.

(** What a view has for a partition of its reference: the axis that it knows,
    and its variables. *)
Record vpart := VPart { vp_axis : arr; vp_vars : list (str * variable) }.

(** The variable is as declared, except the attributes (those are given when it
    is loaded). *)
Definition fits (mv : mvar) (v : variable) : Prop :=
  v_name v = mv_name mv /\ v_dtype v = mv_dtype mv /\ v_dims v = mv_dims mv /\ v_compressor v = mv_compressor mv /\
  v_fill v = mv_fill mv /\ v_filters v = mv_filters mv.
(** The value of the positions that were never written: the fill value, or 0 if
    there is none. *)
Definition blank (v : variable) : val := default (Num 0) (v_fill v).

(** The axis of a partition of the reference. *)
Definition axis_is (c : collection) (ds : dataset) (a : arr) : Prop :=
  exists v, dget (d_vars ds) (c_axis c) = Some v /\ v_array v = a.

(** The partitions of the reference are made of the declared variables that
    have the dimension of the axis, and the axis has this dimension only. *)
Record made_of (c : collection) (ds : dataset) : Prop := {
  mo_axis : exists v, dget (d_vars ds) (c_axis c) = Some v /\ v_dims v = [c_dim c];
  mo_all : forall n mv, dget (md_vars (c_meta c)) n = Some mv -> c_dim c ∈ mv_dims mv ->
    exists v, dget (d_vars ds) n = Some v /\ v_dims v = mv_dims mv;
  mo_only : forall n v, dget (d_vars ds) n = Some v -> c_dim c ∈ v_dims v /\ is_Some (dget (md_vars (c_meta c)) n);
}.

(** A new partition: the axis of the reference, and the variables of the view,
    with the sizes of the reference, never written. *)
Record renewed (w : view) (ds : dataset) (p : vpart) : Prop := {
  rn_axis : axis_is (w_ref w) ds (vp_axis p);
  rn_names : forall n, n ∈ dkeys (vp_vars p) <-> n ∈ dkeys (md_vars (w_meta w));
  rn_vars : forall n mv v, dget (md_vars (w_meta w)) n = Some mv -> dget (vp_vars p) n = Some v ->
    fits mv v /\ Forall2 (fun d k => dget (d_dims ds) d = Some k) (mv_dims mv) (v_shape v) /\
    forall x, x ∈ a_flat (v_array v) -> x = blank v;
}.

Global Instance valid_dec s idx : Decision (valid s idx) := ltac:(unfold valid; apply _).

(** [new] is [v] with the size [n] along the dimension [dim]: the items keep
    their positions, the other positions were never written. *)
Definition prolonged (dim : str) (n : nat) (v new : variable) : Prop :=
  new = with_array v (v_array new) /\ arr_wf (v_array new) /\ length (v_shape new) = length (v_shape v) /\
  (forall k d, v_dims v !! k = Some d -> v_shape new !! k = if decide (d = dim) then Some n else v_shape v !! k) /\
  forall idx, valid (v_shape new) idx -> get (v_array new) idx = if decide (valid (v_shape v) idx) then get (v_array v) idx else blank v.
(** The axis got longer: so do the variables. *)
Record stretched (w : view) (ds : dataset) (old new : vpart) : Prop := {
  sc_axis : axis_is (w_ref w) ds (vp_axis new);
  sc_vars : Forall2 (fun nv nv' => nv'.1 = nv.1 /\ prolonged (c_dim (w_ref w)) (length (a_flat (vp_axis new))) nv.2 nv'.2) (vp_vars old) (vp_vars new);
}.
(** [new] starts with [old], and is longer. *)
Definition begins (old new : arr) : Prop :=
  length (a_flat old) < length (a_flat new) /\
  forall i x, a_flat old !! i = Some x -> exists z, x = Num z /\ a_flat new !! i = Some (Num z).

(** The synchronisation of a partition with [ds], from [old] (None: there is no
    such partition in the view) to [new]; it has something to do, or not. *)
Definition synchronised (w : view) (ds : dataset) (old : option vpart) (new : vpart) (done : bool) : Prop :=
  match old with
  | None => done = true /\ renewed w ds new
  | Some p =>
      (axis_is (w_ref w) ds (vp_axis p) /\ done = false /\ new = p) \/
      (~ axis_is (w_ref w) ds (vp_axis p) /\ done = true /\
        exists a, axis_is (w_ref w) ds a /\
          ((begins (vp_axis p) a /\ stretched w ds p new) \/ (~ begins (vp_axis p) a /\ renewed w ds new)))
  end.

(** The view has all the partitions of the reference, with their axis. *)
Definition in_step (w : view) (M : list Z -> option dataset) (V : list Z -> option vpart) : Prop :=
  forall values ds, M values = Some ds -> exists p, V values = Some p /\ axis_is (w_ref w) ds (vp_axis p).

(** The operations on a view, with all their arguments. *)
Inductive used (v : venv) (w : view) : forall A : Type, program A -> Prop :=
  | used_partitions f : used v w _ (view_parts v w f)
  | used_add sched sched' var : used v w _ (view_add_variable v sched sched' w var)
  | used_drop sched name : used v w _ (view_drop_variable v sched w name)
  | used_load delayed f ix sel : used v w _ (view_load v w delayed f ix sel)
  | used_update sched workers f delayed depth filt np sel trim : used v w _ (view_update v sched workers w f delayed depth filt np sel trim)
  | used_map (B : Type) (f : callback B) delayed filt sel : used v w _ (view_map v w f delayed filt sel)
  | used_overlap (B : Type) (f : callback B) delayed depth filt sel : used v w _ (view_map_overlap v w f delayed depth filt sel)
  | used_is_synced sched : used v w _ (is_synced v sched w)
  | used_sync sched sched' f : used v w _ (sync v sched sched' w f).

(** A variable that can be added to a view. *)
Record addable (w : view) (mv : mvar) : Prop := {
  ad_new : mv_name mv ∉ dkeys (md_vars (w_meta w)) /\ mv_name mv ∉ dkeys (md_vars (c_meta (w_ref w)));
  ad_name : mv_name mv <> CHECKSUM /\ plain_name (mv_name mv);
  ad_dims : NoDup (mv_dims mv) /\ c_dim (w_ref w) ∈ mv_dims mv /\ forall d, d ∈ mv_dims mv -> d ∈ md_dims (w_meta w);
  ad_like : exists n' mv', dget (md_vars (c_meta (w_ref w))) n' = Some mv' /\ mv_dims mv' = mv_dims mv;
}.
(** The partitions of the view are partitions of the reference, with the same
    axis. *)
Definition follows (w : view) (M : list Z -> option dataset) (V : list Z -> option vpart) : Prop :=
  forall x p, V x = Some p -> exists ds, M x = Some ds /\ axis_is (w_ref w) ds (vp_axis p).
(** The partition with one more variable, never written. *)
Definition gains (mv : mvar) (ds : dataset) (p p' : vpart) : Prop :=
  exists a, p' = VPart (vp_axis p) (vp_vars p ++ [(mv_name mv, a)]) /\ fits mv a /\
    Forall2 (fun d k => dget (d_dims ds) d = Some k) (mv_dims mv) (v_shape a) /\ forall y, y ∈ a_flat (v_array a) -> y = blank a.
Definition loses (name : str) (p : vpart) : vpart := VPart (vp_axis p) (ddel (vp_vars p) name).

(** ** Loading *)

(** The partition [ds] of the reference, with the variables that the view has
    for it. *)
Definition combined (ds : dataset) (p : vpart) : dataset :=
  Dataset (d_dims ds) (d_vars ds ++ map (fun nv => (nv.1, with_delayed nv.2 (d_delayed ds))) (vp_vars p)) (d_attrs ds) (d_chunks ds) (d_block ds) (d_delayed ds).
(** The data of the partition [x]: the reference and the view have it. *)
Definition data_at (M : list Z -> option dataset) (V : list Z -> option vpart) (x : list Z) : option dataset :=
  match M x, V x with Some ds, Some p => Some (combined ds p) | _, _ => None end.
(** The reference, as if it had declared the variables of the view. *)
Definition joint (w : view) : collection :=
  let c := w_ref w in
  let m := c_meta c in
  Coll (c_axis c) (MDataset (md_dims m) (md_vars m ++ md_vars (w_meta w)) (md_attrs m) (md_chunks m) (md_block m)) (c_part c) (c_dir c) (c_dim c) false (c_readonly c).
(** The variables of the view have the sizes of the reference, and attributes
    that Zarr can store. *)
Definition agrees (ds : dataset) (p : vpart) : Prop :=
  forall n a, dget (vp_vars p) n = Some a -> sized (d_dims ds) a /\ NoDup (dkeys (v_attrs a)) /\ DIMENSIONS ∉ dkeys (v_attrs a).
(** The selected variables can be put in one dataset: either all are variables
    of the view, or the dimensions of those of the view are dimensions of
    selected variables of the partitions of the reference. *)
Definition covers (w : view) (sel : option (list str)) : Prop :=
  let ref n mv := dget (md_vars (c_meta (w_ref w))) n = Some mv /\ c_dim (w_ref w) ∈ mv_dims mv in
  match sel with
  | None => True
  | Some l =>
      ((forall n, n ∈ l -> n ∉ dkeys (md_vars (c_meta (w_ref w)))) /\ exists n, n ∈ l /\ n ∈ dkeys (md_vars (w_meta w))) \/
      ((exists n mv, n ∈ l /\ ref n mv) /\
       forall n mv d, n ∈ l -> dget (md_vars (w_meta w)) n = Some mv -> d ∈ mv_dims mv -> exists n' mv', n' ∈ l /\ ref n' mv' /\ d ∈ mv_dims mv')
  end.
