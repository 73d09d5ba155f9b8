(** * What a history of insertions of time series leaves in a partition *)
From Verif Require Import Py NdArray_Model NdArray_Spec Dataset_Model Dataset_Spec Assemble_Spec Meta_Model Period_Model TimeSeries_Model TimeSeries_Spec
  FS_Model Pool_Model Storage_Model Storage_Spec Collection_Model Collection_Spec.

(** The strategy given to the insertions: merge_time_series without tolerance. *)
Definition by_time (r : resolution) : merge_callable := fun existing inserted axis dim => merge_time_series r existing inserted axis dim None.

(** Call [k] of the history inserts [ds], whose records have the keys [rows]. *)
Definition insertion (h : list call) (k : nat) (ds : dataset) (rows : list (list Z)) : Prop :=
  exists merge np va scheds inner, h !! k = Some (Insert ds rows merge np va scheds inner).
(** The origin [(k, i)] is record [i] of the dataset inserted by call [k]; it is
    filed in the partition [v]. *)
Definition filed (h : list call) (v : list Z) (o : origin) : Prop :=
  exists ds rows, insertion h o.1 ds rows /\ rows !! o.2 = Some v.
(** The date [x] is between those of two records that call [k] files in [v]. *)
Definition covers (h : list call) (tss : list (list Z)) (v : list Z) (k : nat) (x : Z) : Prop :=
  exists i j, filed h v (k, i) /\ filed h v (k, j) /\ (date_of tss (k, i) <= x <= date_of tss (k, j))%Z.
(** [a] is the record of the variable [n] in the origin: as given, or filled. *)
Definition record_of (c : collection) (h : list call) (n : str) (o : origin) (a : arr) : Prop :=
  exists ds rows w rs, insertion h o.1 ds rows /\ supplied c ds n w /\ records w (c_dim c) = Some rs /\ rs !! o.2 = Some a.

(** The insertions of the history are insertions of time series: the dates
    [tss] of their records are the values of the axis, in order inside each
    partition; they agree on the size of the other dimensions. *)
Definition timed (c : collection) (r : resolution) (sizes : str -> nat) (h : list call) (tss : list (list Z)) : Prop :=
  forall k ds rows merge np va scheds inner, h !! k = Some (Insert ds rows merge np va scheds inner) ->
    merge = Some (by_time r) /\
    (exists ts, tss !! k = Some ts /\ series (c_dim c) (c_axis c) ds ts) /\
    (forall i j v, rows !! i = Some v -> rows !! j = Some v -> i <= j -> (date_of tss (k, i) <= date_of tss (k, j))%Z) /\
    (forall d m, dget (d_dims ds) d = Some m -> d <> c_dim c -> m = sizes d).

(** [calls] are the insertions that count for the partition [v]: they come after
    the last removal of the partition. All those that succeeded are there. *)
Record counted (c : collection) (h : list call) (rs : list (res (list path))) (v : list Z) (calls : list nat) : Prop := {
  ct_filed : forall k, k ∈ calls -> exists i, filed h v (k, i);
  ct_kept : forall k k' f older sched res, k ∈ calls -> k < k' -> h !! k' = Some (Drop f older sched) -> rs !! k' = Some res ->
    ~ touches c (Drop f older sched) res v;
  ct_all : forall k i dirs, filed h v (k, i) -> rs !! k = Some (Ok dirs) ->
    (forall k' f older sched res, k < k' -> h !! k' = Some (Drop f older sched) -> rs !! k' = Some res -> ~ touches c (Drop f older sched) res v) ->
    k ∈ calls;
}.

(** The dataset [p] is what the insertions [calls] leave in the partition [v]:
    its records are, in the order of their dates, those whose date is not
    covered by a later insertion. Those dated one unit after the dates that a
    later insertion covers may be missing. *)
Record timeline (c : collection) (h : list call) (tss : list (list Z)) (v : list Z) (calls : list nat) (plan : list origin) (p : dataset) : Prop := {
  tl_order : in_order (map (date_of tss) plan);
  tl_once : NoDup plan;
  tl_from : forall k i, (k, i) ∈ plan -> k ∈ calls /\ filed h v (k, i) /\
    forall k', k' ∈ calls -> k < k' -> ~ covers h tss v k' (date_of tss (k, i));
  tl_all : forall k i, k ∈ calls -> filed h v (k, i) ->
    (forall k', k' ∈ calls -> k < k' -> ~ covers h tss v k' (date_of tss (k, i)) /\ ~ covers h tss v k' (date_of tss (k, i) - 1)) ->
    (k, i) ∈ plan;
  tl_names : forall n, n ∈ dkeys (d_vars p) <-> exists mv, dget (md_vars (c_meta c)) n = Some mv /\ moving c mv;
  tl_records : forall n w, dget (d_vars p) n = Some w -> exists rs, records w (c_dim c) = Some rs /\ Forall2 (record_of c h n) plan rs;
  tl_like : forall n w, dget (d_vars p) n = Some w -> exists k ds rows u, k ∈ calls /\ insertion h k ds rows /\ supplied c ds n u /\
    same_but_records (c_dim c) (with_delayed (with_attrs u []) (v_delayed w)) w;
}.

(** The partitions [M] are what the history leaves: each is the timeline of the
    insertions that count for it; there is one when some insertion counts. *)
Definition leaves (c : collection) (h : list call) (rs : list (res (list path))) (tss : list (list Z)) (M : list Z -> option dataset) : Prop :=
  forall v, exists calls, counted c h rs v calls /\ (M v = None <-> calls = []) /\
    forall p, M v = Some p -> exists plan, timeline c h tss v calls plan p.

(** No record the history gave to the partition [v] is dated one unit after the
    last one that the call [k] inserts in it. *)
Definition not_next (h : list call) (tss : list (list Z)) (k : nat) (v : list Z) : Prop :=
  forall k' i j, k' < k -> filed h v (k', i) -> filed h v (k, j) -> (forall j', filed h v (k, j') -> (date_of tss (k, j') <= date_of tss (k, j))%Z) ->
    date_of tss (k', i) <> (date_of tss (k, j) + 1)%Z.
