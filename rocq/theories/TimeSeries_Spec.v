(** * What merging two time series means *)
From Verif Require Import Py NdArray_Model NdArray_Spec Dataset_Model Dataset_Spec Assemble_Spec.

(** [axis] is a variable of the dataset along the single dimension [dim], and
    its values are the dates [ts]. *)
Definition series (dim axis : str) (ds : dataset) (ts : list Z) : Prop :=
  exists v, dget (d_vars ds) axis = Some v /\ v_dims v = [dim] /\ length (v_shape v) = 1 /\
    a_flat (v_array v) = map Num ts.

(** The date of a record, from the dates of the sources. *)
Definition date_of (tss : list (list Z)) (o : origin) : Z := nth o.2 (nth o.1 tss []) 0%Z.

(** The dates are in order. *)
Definition in_order (ts : list Z) : Prop := StronglySorted Z.le ts.

(** First and last dates of a series. *)
Definition first_date (ts : list Z) (t : Z) : Prop := t ∈ ts /\ forall x, x ∈ ts -> (t <= x)%Z.
Definition last_date (ts : list Z) (t : Z) : Prop := t ∈ ts /\ forall x, x ∈ ts -> (x <= t)%Z.

(** Records of the dataset already stored, and of the dataset to insert. *)
Definition Existing (i : nat) : origin := (0, i).
Definition Inserted (i : nat) : origin := (1, i).

(** The records dated strictly before (after) a date. *)
Definition before (tss : list (list Z)) (t : Z) (plan : list origin) : list origin :=
  List.filter (fun o => (date_of tss o <? t)%Z) plan.
Definition after (tss : list (list Z)) (t : Z) (plan : list origin) : list origin :=
  List.filter (fun o => (t <? date_of tss o)%Z) plan.

(** [runs t ts rs]: the dates [ts] are cut into the runs [rs]:
    consecutive, not empty, with steps of at most [t] inside and a step larger
    than [t] between them. A run is given by its bounds [\[a, b)]. *)
Definition step_after (ts : list Z) (i : nat) : Z := (nth (S i) ts 0 - nth i ts 0)%Z.
Definition runs (t : Z) (ts : list Z) (rs : list (nat * nat)) : Prop :=
  mjoin (map (fun ab => seq ab.1 (ab.2 - ab.1)) rs) = seq 0 (length ts) /\
  Forall (fun ab => ab.1 < ab.2) rs /\
  (forall a b i, (a, b) ∈ rs -> a <= i -> S i < b -> (step_after ts i <= t)%Z) /\
  (forall a b, (a, b) ∈ rs -> b < length ts -> (t < step_after ts (b - 1))%Z).

(** A date lies in the interval of one of the runs. *)
Definition in_runs (ts : list Z) (rs : list (nat * nat)) (x : Z) : Prop :=
  exists a b, (a, b) ∈ rs /\ (nth a ts 0 <= x <= nth (b - 1) ts 0)%Z.

(** Two series that can be merged. *)
Definition mergeable (dim axis : str) (ex ins : dataset) (te ti : list Z) : Prop :=
  proper ex /\ no_repeat ex /\ proper ins /\ no_repeat ins /\ alike dim ex ins /\
  series dim axis ex te /\ series dim axis ins ti.

(** The records of a plan that come from source [k], in the order of the plan. *)
Definition from_source (k : nat) (plan : list origin) : list origin :=
  List.filter (fun o => o.1 =? k) plan.

(** [out] holds, in the order of their dates, all the records of [ins], each
    once and in their order, and the records of [ex] whose date satisfies
    [keep], each once and in their order. *)
Definition merged (dim axis : str) (ex ins : dataset) (te ti : list Z) (keep : Z -> bool) (out : dataset) : Prop :=
  exists plan, assembled dim [ex; ins] plan out /\
    series dim axis out (map (date_of [te; ti]) plan) /\ in_order (map (date_of [te; ti]) plan) /\
    from_source 0 plan = List.filter (fun o => keep (date_of [te; ti] o)) (all_of 0 (length te)) /\
    from_source 1 plan = all_of 1 (length ti).
