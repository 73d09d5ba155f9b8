(** * Specification vocabulary for update with neighbours *)
From Verif Require Import Py NdArray_Model NdArray_Spec Dataset_Model Dataset_Spec Meta_Model PartPath_Model FS_Model Pool_Model
  Storage_Model Storage_Spec Listing_Model Listing_Spec Collection_Model Collection_Spec Update_Model Update_Spec.

(** The datasets differ at most by the values of the variables in [W]. *)
Definition alike (W : str -> Prop) (ds ds' : dataset) : Prop :=
  forall n, match dget (d_vars ds) n, dget (d_vars ds') n with
            | None, None => True
            | Some v, Some v' => v' = with_array v (v_array v') /\ v_shape v' = v_shape v /\ (~ W n -> v' = v)
            | _, _ => False
            end.
(** The callback does not look at the values of the variables that it returns. *)
Definition blind (f : update_callback) : Prop :=
  forall ds ds' i, proper ds -> proper ds' -> alike (returned f) ds ds' ->
    cb_call f ds' i = cb_call f ds i /\ forall l n r, cb_call f ds i = Ok l -> (n, r) ∈ l -> value ds' r = value ds r.

(** [y] is made of the items of [x] whose index along [ax] is in [range]. *)
Definition portion (ax : nat) (range : nat * nat) (x y : arr) : Prop :=
  (forall k, k <> ax -> a_shape y !! k = a_shape x !! k) /\ rows ax y = take (range.2 - range.1) (drop range.1 (rows ax x)).
(** The mask of an array, as an array. *)
Definition flags (m : marr) : arr := Arr (a_shape (m_data m)) (map (fun b : bool => Num (if b then 1 else 0)) (m_mask m)).
Definition trimmed (ax : nat) (range : nat * nat) (x y : vdata) : Prop :=
  match x, y with
  | Plain x, Plain y => portion ax range x y
  | Masked x, Masked y => portion ax range (m_data x) (m_data y) /\ portion ax range (flags x) (flags y)
  | _, _ => False
  end.
(** The values [xs] as they are written: as they are, or reduced to the records
    in [range]. *)
Definition kept_values (dim : str) (trim : bool) (range : nat * nat) (old : dataset) (xs ys : list (str * vdata)) : Prop :=
  if trim then
    Forall2 (fun nx ny => ny.1 = nx.1 /\ exists v ax, dget (d_vars old) nx.1 = Some v /\ v_dims v !! ax = Some dim /\ trimmed ax range nx.2 ny.2) xs ys
  else ys = xs.

(** The update of the partition that holds [old], between partitions that hold
    [before] and [after]: the variables that the callback returns get the values
    it returns for the data of all of them. *)
Definition updated_around (dim : str) (delayed : bool) (selected : option (list str)) (trim : bool) (f : update_callback)
    (before : list dataset) (old : dataset) (after : list dataset) (new : dataset) : Prop :=
  exists ds range l xs ys, seen_around dim delayed selected before old after ds range /\
    cb_call f ds (if cb_info f then Some (dim, range) else None) = Ok l /\ valued ds (dict_of l) xs /\
    kept_values dim trim range old xs ys /\ assigned ys old new.

(** The callback does not raise on the data of the partitions that hold [before],
    [old] and [after], and what it returns are arrays, of the expected shapes, for
    variables of the partition: the shape of the variable in the partition or,
    with [trim], of the variable that the callback receives. *)
Definition works_around (dim : str) (delayed : bool) (selected : option (list str)) (trim : bool) (f : update_callback)
    (before : list dataset) (old : dataset) (after : list dataset) : Prop :=
  forall ds range, seen_around dim delayed selected before old after ds range ->
    exists l, cb_call f ds (if cb_info f then Some (dim, range) else None) = Ok l /\
      forall n r, (n, r) ∈ l -> exists v x, dget (d_vars old) n = Some v /\ v_shape v <> [] /\ value ds r = Ok x /\
        if trim then dim ∈ v_dims v /\ exists w, dget (d_vars ds) n = Some w /\ vd_shape x = v_shape w else vd_shape x = v_shape v.
