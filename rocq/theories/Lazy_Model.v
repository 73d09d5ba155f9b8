(** * Model of the operations that move the data of a dataset between lazy
    and computed forms (dataset.py:468-493, 579-661; variable/array.py,
    variable/delayed_array.py) *)
From Verif Require Import Py Dict NdArray_Model Dataset_Model.

(** A dataset whose variables may hold masked arrays, as they do once
    persisted: [ld_mask n] is the mask and the fill value of the array held by
    the variable [n] when this array is masked, whose data is [v_array].
    Simplification: the way dask cuts an array into blocks, and the moment
    when a lazy array is evaluated, are not modelled. *)
Record ldataset := LDs { ld_ds : dataset; ld_mask : str -> option (list bool * val) }.
(** One variable with the array it holds. *)
Record lvar := LVar { l_var : variable; l_mask : option (list bool * val) }.

(** variable/abc.py:305-345, the slot [array] *)
Definition l_held (v : lvar) : vdata :=
  match l_mask v with
  | None => Plain (v_array (l_var v))
  | Some mf => Masked (MArr (v_array (l_var v)) mf.1 mf.2)
  end.

(** dataset.py:224-258: the variables of the dataset, in order *)
Definition l_vars (ds : ldataset) : list lvar :=
  map (fun nv => LVar nv.2 (ld_mask ds nv.1)) (d_vars (ld_ds ds)).
(** dataset.py:262-275, [variables[name]] *)
Definition l_get (ds : ldataset) (name : str) : option lvar :=
  option_map (fun v => LVar v (ld_mask ds name)) (dget (d_vars (ld_ds ds)) name).

(** A dataset as its constructor builds it: no array is masked
    (array.py:24-47 and delayed_array.py:95-119 fill them). *)
Definition fresh (ds : dataset) : ldataset := LDs ds (fun _ => None).

(** numpy.ma.masked_equal(d, f): the mask of a masked array is kept, and its
    fill value becomes [f]. *)
Definition ma_masked_equal (d : vdata) (f : val) : marr :=
  match d with
  | Plain a => masked_equal a f
  | Masked m => MArr (m_data m)
      (zip_with orb (m_mask m) (map (fun v => py_eq v f) (a_flat (m_data m)))) f
  end.

(** delayed_array.py:174-195, [data]: an array that is already masked is
    returned as it is. *)
Definition l_data (v : lvar) : vdata :=
  match v_fill (l_var v) with
  | None => l_held v
  | Some f => match l_held v with
              | Masked m => Masked m
              | Plain a => Masked (ma_masked_equal (Plain a) f)
              end
  end.

(** delayed_array.py:197-209 and 244-265, [values] and [compute];
    array.py:101-113 *)
Definition l_values (v : lvar) : vdata :=
  match v_fill (l_var v) with
  | None => l_held v
  | Some f => Masked (ma_masked_equal (l_held v) f)
  end.

(** dataset.py:593-603: one variable of [compute]; the constructor of [Array]
    (array.py:50-84) fills a masked array. *)
Definition computed (v : lvar) : res variable :=
  let w := l_var v in
  do af <- as_numpy_array (l_held v) (v_fill w);
  Ok (Var (v_name w) false af.1 (v_dtype w) (v_dims w) (v_attrs w) (v_compressor w) af.2 (v_filters w)).

(** dataset.py:579-609, [compute] *)
Definition ds_compute (ds : ldataset) : res ldataset :=
  if negb (d_delayed (ld_ds ds)) then Ok ds else
  do vs <- traverse computed (l_vars ds);
  do ds' <- new_dataset vs (d_attrs (ld_ds ds)) (Some (d_block (ld_ds ds))) (d_chunks (ld_ds ds)) (Some false);
  Ok (fresh ds').

(** dataset.py:611-631, [rechunk]; delayed_array.py:345-366, array.py:221-228:
    a new variable with the same slots and the array cut another way.
    new_variable (variable/abc.py:32-47) does not go through the constructor:
    a masked array stays masked. *)
Definition ds_rechunk (ds : ldataset) : res ldataset :=
  if negb (d_delayed (ld_ds ds)) then Ok ds else
  do ds' <- new_dataset (map l_var (l_vars ds)) (d_attrs (ld_ds ds)) (Some (d_block (ld_ds ds)))
              (d_chunks (ld_ds ds)) None;
  Ok (LDs ds' (ld_mask ds)).

(** dataset.py:633-661, [persist] without compression: each variable now holds
    what [data] returned. *)
Definition ds_persist (ds : ldataset) : ldataset :=
  if negb (d_delayed (ld_ds ds)) then ds else
  LDs (Dataset (d_dims (ld_ds ds))
         (map (fun nv => (nv.1, match l_data (LVar nv.2 (ld_mask ds nv.1)) with
                                | Plain a => with_array nv.2 a
                                | Masked m => with_array nv.2 (m_data m)
                                end)) (d_vars (ld_ds ds)))
         (d_attrs (ld_ds ds)) (d_chunks (ld_ds ds)) (d_block (ld_ds ds)) (d_delayed (ld_ds ds)))
      (fun n => match l_get ds n with
                | None => None
                | Some v => match l_data v with
                            | Plain _ => None
                            | Masked m => Some (m_mask m, m_fill m)
                            end
                end).

(** dataset.py:468-493, [to_dict]; an empty sequence of names counts as none
    given (l.485). *)
Definition ds_to_dict (ds : ldataset) (variables : option (list str)) : list (str * vdata) :=
  let all := dkeys (d_vars (ld_ds ds)) in
  let names := match variables with None => all | Some [] => all | Some l => l end in
  map (fun nv => (nv.1, let v := LVar nv.2 (ld_mask ds nv.1) in
                        if d_delayed (ld_ds ds) then l_data v else l_values v))
    (List.filter (fun nv => memb nv.1 names) (d_vars (ld_ds ds))).

(** ** Persisting one variable *)

(** What the slot [array] of a variable may hold: an array, or the tuple that
    dask.base.persist returns ("persist(args)" returns as many collections as
    it is given, in a tuple, even for one). *)
Inductive slot := SArray (d : vdata) | STuple (o : slot).

(** delayed_array.py:230-242, [DelayedArray.persist]; array.py:136-142,
    [Array.persist] *)
Definition var_persist (delayed : bool) (o : slot) : slot := if delayed then STuple o else o.
(** variable/abc.py:349-352, [shape]: a tuple has no attribute "shape". *)
Definition slot_shape (o : slot) : res (list nat) :=
  match o with
  | SArray (Plain a) => Ok (a_shape a)
  | SArray (Masked m) => Ok (a_shape (m_data m))
  | STuple _ => Raise AttributeError
  end.
(** delayed_array.py:174-195, [data] of a lazy variable: l.189-191 read
    [array._meta] only when there is a fill value. *)
Definition slot_data (o : slot) (fill : option val) : res slot :=
  match fill, o with
  | None, _ => Ok o
  | Some f, SArray (Plain a) => Ok (SArray (Masked (masked_equal a f)))
  | Some _, SArray (Masked m) => Ok (SArray (Masked m))
  | Some _, STuple _ => Raise AttributeError
  end.
