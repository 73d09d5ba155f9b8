(** * Specification vocabulary for the calls that transform partitions *)
From Verif Require Import Py NdArray_Model NdArray_Spec Dataset_Model Dataset_Spec Meta_Model PartPath_Model FS_Model Pool_Model
  Storage_Model Storage_Spec Listing_Model Listing_Spec Collection_Model Collection_Spec Update_Model.

(** ** Values *)

(** The shape of a plain or masked array, and what makes it an array. *)
Definition vd_shape (d : vdata) : list nat := match d with Plain a => a_shape a | Masked m => a_shape (m_data m) end.
Definition vd_wf (d : vdata) : Prop :=
  match d with Plain a => arr_wf a | Masked m => arr_wf (m_data m) /\ length (m_mask m) = length (a_flat (m_data m)) end.

(** The array [a] stored for the values [d]: the items that are masked are
    equal to the fill value, if there is one. *)
Definition stored_as (fill : option val) (d : vdata) (a : arr) : Prop :=
  match d with
  | Plain x => a = x
  | Masked m =>
      a_shape a = a_shape (m_data m) /\ length (a_flat a) = length (a_flat (m_data m)) /\
      forall (i : nat) (x : val) (b : bool), a_flat (m_data m) !! i = Some x -> m_mask m !! i = Some b ->
        a_flat a !! i = Some (if b then default x fill else x)
  end.

(** [new] is [old] with the values [l] of some variables; nothing else differs. *)
Definition assigned (l : list (str * vdata)) (old new : dataset) : Prop :=
  d_dims new = d_dims old /\
  related (fun n v v' => match dget l n with
                         | None => v' = v
                         | Some d => exists a, stored_as (v_fill v) d a /\ v' = with_array v a
                         end) old new.

(** ** What a callback receives and returns *)

(** The dataset [ds] given to the callback for the partition that holds [old]:
    its variables that are selected, and those of the collection that do not
    have the dimension of the axis. *)
Record seen (delayed : bool) (selected : option (list str)) (imm : option dataset) (old ds : dataset) : Prop := {
  se_vars : forall n v, dget (d_vars ds) n = Some v <-> wanted selected n /\
    exists v0, (dget (d_vars old) n = Some v0 \/ exists i, imm = Some i /\ dget (d_vars i) n = Some v0) /\ v = with_delayed (stored v0) delayed;
  se_delayed : d_delayed ds = delayed;
  se_proper : proper ds;
}.
(** The immutable variables that are read. *)
Definition fixed_part (c : collection) (I : option dataset) : option dataset := if c_immutable c then I else None.

(** The value of a returned array, when it is computed from [ds]. *)
Definition value (ds : dataset) (r : result) : res vdata := match r with Known d => Ok d | Lazy g => g ds end.
(** The callback returned the dictionary [l], whose values are [xs]. *)
Definition valued (ds : dataset) (l : list (str * result)) (xs : list (str * vdata)) : Prop :=
  Forall2 (fun nr nx => nx.1 = nr.1 /\ value ds nr.2 = Ok nx.2) l xs.

(** The callback returns arrays. *)
Definition sane (f : update_callback) : Prop :=
  forall ds i l n r, proper ds -> cb_call f ds i = Ok l -> (n, r) ∈ l -> forall ds' d, proper ds' -> value ds' r = Ok d -> vd_wf d.
(** The lazy arrays that the callback returns do not use the variables for which
    it returns values. *)
Definition settled (f : update_callback) : Prop :=
  forall ds i l n g, cb_call f ds i = Ok l -> (n, Lazy g) ∈ l ->
    forall ds', (forall m, m ∉ dkeys l -> dget (d_vars ds') m = dget (d_vars ds) m) -> g ds' = g ds.

(** The update of the partition that holds [old]: the variables that the
    callback returns get the values it returns. *)
Definition updated (delayed : bool) (selected : option (list str)) (imm : option dataset) (f : update_callback) (old new : dataset) : Prop :=
  exists ds l xs, seen delayed selected imm old ds /\ cb_call f ds None = Ok l /\ valued ds (dict_of l) xs /\ assigned xs old new.
(** Only the values of variables that the callback may return differ. *)
Definition at_most (names : str -> Prop) (old new : dataset) : Prop :=
  d_dims new = d_dims old /\
  related (fun n v v' => exists a, v' = with_array v a /\ a_shape a = v_shape v /\ (a <> v_array v -> names n)) old new.
(** The names that the callback may return. *)
Definition returned (f : update_callback) (n : str) : Prop := exists ds i l, cb_call f ds i = Ok l /\ n ∈ dkeys l.
(** The callback does not raise on the partition that holds [old], and what it
    returns are arrays, of the expected shapes, for variables of the partition. *)
Definition works (delayed : bool) (selected : option (list str)) (imm : option dataset) (f : update_callback) (old : dataset) : Prop :=
  forall ds, seen delayed selected imm old ds -> exists l, cb_call f ds None = Ok l /\
    forall n r, (n, r) ∈ l -> exists v d, dget (d_vars old) n = Some v /\ value ds r = Ok d /\ vd_shape d = v_shape v /\ v_shape v <> [].

(** ** Neighbours *)

(** The data given for the partition that holds [old], between the partitions
    that hold [before] and [after]: the records of all of them, in this order;
    [range] designates the records of the partition itself. What is not a record
    comes from the first partition. *)
Record seen_around (dim : str) (delayed : bool) (selected : option (list str)) (before : list dataset) (old : dataset) (after : list dataset)
    (ds : dataset) (range : nat * nat) : Prop := {
  sa_names : forall n, n ∈ dkeys (d_vars ds) <-> wanted selected n /\ n ∈ dkeys (d_vars old);
  sa_vars : forall n v', dget (d_vars ds) n = Some v' -> exists v, dget (d_vars (hd old before)) n = Some v /\
    same_but_records dim (with_delayed (stored v) delayed) v';
  sa_records : forall n v v', dget (d_vars ds) n = Some v' -> dget (d_vars old) n = Some v -> dim ∈ v_dims v ->
    exists before_rs rs after_rs, records_in dim n before before_rs /\ records v dim = Some rs /\ records_in dim n after after_rs /\
      records v' dim = Some (mjoin before_rs ++ rs ++ mjoin after_rs) /\
      range = (length (mjoin before_rs), length (mjoin before_rs) + length rs);
  sa_delayed : d_delayed ds = delayed;
  sa_proper : proper ds;
}.
(** Some variable that is read has the dimension [dim]. *)
Definition measured (dim : str) (selected : option (list str)) (ds : dataset) : Prop :=
  exists n v, wanted selected n /\ dget (d_vars ds) n = Some v /\ dim ∈ v_dims v.
