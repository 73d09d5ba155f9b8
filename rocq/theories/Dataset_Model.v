(** * Model of variables and datasets
    (variable/abc.py, variable/array.py, variable/delayed_array.py,
    dataset.py) *)
From Verif Require Import Py NdArray_Model.

(** meta.py:70-106, [Attribute]: a name and a value (given by its JSON text). *)
Definition attribute : Type := str * str.

(** variable/abc.py:305-345, slots of [Variable]; [v_delayed] tells a
    DelayedArray from an Array, [v_dtype] is the dtype of the array. Codecs
    are given by their configuration. *)
Record variable := Var {
  v_name : str;
  v_delayed : bool;
  v_array : arr;
  v_dtype : str;
  v_dims : list str;
  v_attrs : list attribute;
  v_compressor : option str;
  v_fill : option val;
  v_filters : list str;
}.
Global Instance variable_eq_dec : EqDecision variable.
Proof. solve_decision. Defined.

Definition v_shape (v : variable) : list nat := a_shape (v_array v).

(** new_variable (variable/abc.py:32-47) with every slot of [v] but the array. *)
Definition with_array (v : variable) (a : arr) : variable :=
  Var (v_name v) (v_delayed v) a (v_dtype v) (v_dims v) (v_attrs v)
      (v_compressor v) (v_fill v) (v_filters v).
(** variable/abc.py:438-454, [rename] *)
Definition with_name (v : variable) (n : str) : variable :=
  Var n (v_delayed v) (v_array v) (v_dtype v) (v_dims v) (v_attrs v)
      (v_compressor v) (v_fill v) (v_filters v).
(** variable/abc.py:423-436, [set_for_insertion], and 456-462, [fill_attrs] *)
Definition with_attrs (v : variable) (l : list attribute) : variable :=
  Var (v_name v) (v_delayed v) (v_array v) (v_dtype v) (v_dims v) l
      (v_compressor v) (v_fill v) (v_filters v).

(** [seq.index(x)] *)
Fixpoint index_of (x : str) (l : list str) : option nat :=
  match l with
  | [] => None
  | y :: l => if decide (x = y) then Some 0 else option_map S (index_of x l)
  end.

(** variable/abc.py:50-104, [concat]. A ValueError of [dimensions.index] or of
    the concatenation of the arrays is caught by the same handler, which
    returns the variable. Simplification: NumPy's promotion of dtypes is not
    modelled. *)
Definition var_concat (self : variable) (other : list variable) (dim : str) : res variable :=
  (* l.74-75 *)
  if length other =? 0 then Raise ValueError else
  (* l.78-79 *)
  if negb (forallb (fun o => Bool.eqb (v_delayed o) (v_delayed self)) other) then Raise ValueError else
  (* l.81-104 *)
  match index_of dim (v_dims self) with
  | None => Ok (with_array self (v_array self))
  | Some axis =>
      match cat axis (v_array self) (map v_array other) with
      | Ok a => Ok (with_array self a)
      | Raise ValueError => Ok (with_array self (v_array self))
      | Raise e => Raise e
      end
  end.

(** dataset.py:189-258, slots of [Dataset]. *)
Record dataset := Dataset {
  d_dims : list (str * nat);
  d_vars : list (str * variable);
  d_attrs : list attribute;
  d_chunks : list (str * nat);
  d_block : Z;
  d_delayed : bool;
}.

(** dataset.py, BLOCK_SIZE_LIMIT (meta.py:22) *)
Definition BLOCK_SIZE_LIMIT : Z := 134217728%Z.
(** [limit or BLOCK_SIZE_LIMIT] *)
Definition block_or_default (limit : option Z) : Z :=
  match limit with None => BLOCK_SIZE_LIMIT | Some z => if (z =? 0)%Z then BLOCK_SIZE_LIMIT else z end.

(** dataset.py:178-183, one variable: each dimension is defined by the first
    variable that has it; [shape\[idx\]] out of range is turned into
    ValueError (l.184-186). *)
Fixpoint update_dims_var (dims : list (str * nat)) (vdims : list str) (shape : list nat)
  : res (list (str * nat)) :=
  match vdims with
  | [] => Ok dims
  | dim :: vdims =>
      match shape with
      | [] => Raise ValueError
      | n :: shape =>
          match dget dims dim with
          | None => update_dims_var (dset dims dim n) vdims shape
          | Some m => if m =? n then update_dims_var dims vdims shape else Raise ValueError
          end
      end
  end.

(** dataset.py:167-187, [_update_dimensions] *)
Fixpoint update_dimensions (dims : list (str * nat)) (delayed : option bool) (vars : list variable)
  : res (list (str * nat) * option bool) :=
  match vars with
  | [] => Ok (dims, delayed)
  | v :: vars =>
      match delayed with
      | Some d => if Bool.eqb d (v_delayed v)
                  then do dims' <- update_dims_var dims (v_dims v) (v_shape v);
                       update_dimensions dims' (Some d) vars
                  else Raise ValueError
      | None => do dims' <- update_dims_var dims (v_dims v) (v_shape v);
                update_dimensions dims' (Some (v_delayed v)) vars
      end
  end.

(** dataset.py:224-258, [Dataset.__init__] *)
Definition new_dataset (variables : list variable) (attrs : list attribute)
    (block_size_limit : option Z) (chunks : list (str * nat)) (delayed : option bool) : res dataset :=
  let vars := dict_of (map (fun v => (v_name v, v)) variables) in
  do dd <- update_dimensions [] delayed (dvals vars);
  Ok (Dataset dd.1 vars attrs (dict_of chunks) (block_or_default block_size_limit)
              (match dd.2 with Some d => d | None => true end)).

(** A metadata variable as given to [add_variable] (meta.py:109-163). *)
Record mvar := MVar {
  mv_name : str;
  mv_dtype : str;
  mv_dims : list str;
  mv_attrs : list attribute;
  mv_compressor : option str;
  mv_fill : option val;
  mv_filters : list str;
}.
Global Instance mvar_eq_dec : EqDecision mvar.
Proof. solve_decision. Defined.

(** variable/abc.py:464-476, [metadata] *)
Definition v_metadata (v : variable) : mvar :=
  MVar (v_name v) (v_dtype v) (v_dims v) (v_attrs v) (v_compressor v) (v_fill v) (v_filters v).

(** [numpy.full(shape, None)] of a numeric dtype raises TypeError (for a float
    dtype it is NaN: not modelled). *)
Definition fill_or_raise (f : option val) : res val :=
  match f with Some v => Ok v | None => Raise TypeError end.

(** dataset.py:315-356, [add_variable]. [data] is an array without mask; the
    check of the sizes stops at the shorter of the dimensions and the shape
    (zip). *)
Definition ds_add_variable (ds : dataset) (var : mvar) (data : option arr) : res dataset :=
  (* l.331-333 *)
  if negb (forallb (fun d => dmem (d_dims ds) d) (mv_dims var)) then Raise ValueError else
  do data <- match data with
    | None => (* l.335-340 *)
        do v <- fill_or_raise (mv_fill var);
        Ok (full (map (fun d => default 0 (dget (d_dims ds) d)) (mv_dims var)) v)
    | Some a => (* l.341-347 *)
        if forallb (fun ds' => ds'.2 =? default 0 (dget (d_dims ds) ds'.1)) (zip (mv_dims var) (a_shape a))
        then Ok a else Raise ValueError
    end;
  (* l.348-356 *)
  Ok (Dataset (d_dims ds)
        (dset (d_vars ds) (mv_name var)
           (Var (mv_name var) (d_delayed ds) data (mv_dtype var) (mv_dims var) (mv_attrs var)
                (mv_compressor var) (mv_fill var) (mv_filters var)))
        (d_attrs ds) (d_chunks ds) (d_block ds) (d_delayed ds)).

Definition with_vars (ds : dataset) (vars : list (str * variable)) : dataset :=
  Dataset (d_dims ds) vars (d_attrs ds) (d_chunks ds) (d_block ds) (d_delayed ds).

(** A method that mutates its object: the object after the call, and what the
    call raised. *)
Definition mut (A : Type) : Type := A * option exn.

(** dataset.py:358-370, [rename]: the names already changed stay changed when
    a later one raises; [pop] of an unknown name is a KeyError. *)
Fixpoint ds_rename (ds : dataset) (names : list (str * str)) : mut dataset :=
  match names with
  | [] => (ds, None)
  | (old, new) :: names =>
      if dmem (d_vars ds) new then (ds, Some ValueError) else
      match dget (d_vars ds) old with
      | None => (ds, Some KeyError)
      | Some v => ds_rename (with_vars ds (dset (ddel (d_vars ds) old) new (with_name v new))) names
      end
  end.

(** dataset.py:372-380, [drops_vars] *)
Fixpoint ds_drops_vars (ds : dataset) (names : list str) : mut dataset :=
  match names with
  | [] => (ds, None)
  | n :: names => if dmem (d_vars ds) n then ds_drops_vars (with_vars ds (ddel (d_vars ds) n)) names
                  else (ds, Some KeyError)
  end.

(** dataset.py:382-396, [select_vars] *)
Definition ds_select_vars (ds : dataset) (names : list str) : res dataset :=
  do vs <- traverse (fun n => match dget (d_vars ds) n with Some v => Ok v | None => Raise KeyError end) names;
  new_dataset vs (d_attrs ds) (Some (d_block ds)) (d_chunks ds) None.

(** dataset.py:533-556, [isel], with variable/abc.py:406-421, [isel]. *)
Definition ds_isel (ds : dataset) (slices : list (str * indexer)) : res dataset :=
  if negb (forallb (fun k => dmem (d_dims ds) k) (dkeys slices)) then Raise ValueError else
  do vs <- traverse (fun v =>
      do a <- index_axes 0 (map (fun d => default (ISlice None None) (dget slices d)) (v_dims v)) (v_array v);
      Ok (with_array v a)) (dvals (d_vars ds));
  new_dataset vs (d_attrs ds) (Some (d_block ds)) (d_chunks ds) (Some (d_delayed ds)).

(** dataset.py:558-577, [delete], with 133-164, [_duplicate_array],
    [_delete_delayed_vars] and [_delete_vars]: a variable without the axis
    raises ValueError. *)
Definition ds_delete (ds : dataset) (ix : indexer) (axis : str) : res dataset :=
  do vs <- traverse (fun v =>
      match index_of axis (v_dims v) with
      | None => Raise ValueError
      | Some ax => do a <- delete_axis ax ix (v_array v); Ok (with_array v a)
      end) (dvals (d_vars ds));
  new_dataset vs (d_attrs ds) (Some (d_block ds)) (d_chunks ds) (Some (d_delayed ds)).

(** dataset.py:663-691, [concat]; [item.variables\[name\]] may raise KeyError. *)
Definition ds_concat (ds : dataset) (other : list dataset) (dim : str) : res dataset :=
  if length other =? 0 then Raise ValueError else
  if negb (forallb (fun o => Bool.eqb (d_delayed o) (d_delayed ds)) other) then Raise ValueError else
  do vs <- traverse (fun nv =>
      do os <- traverse (fun o => match dget (d_vars o) nv.1 with Some v => Ok v | None => Raise KeyError end) other;
      var_concat nv.2 os dim) (d_vars ds);
  new_dataset vs (d_attrs ds) (Some (d_block ds)) (d_chunks ds) (Some (d_delayed ds)).

(** dataset.py:693-725, [merge]: the variables are added one by one before the
    dimensions are compared. *)
Fixpoint merge_vars (vars : list (str * variable)) (others : list (str * variable))
  : list (str * variable) * bool :=
  match others with
  | [] => (vars, true)
  | (n, v) :: others => if dmem vars n then (vars, false) else merge_vars (dset vars n v) others
  end.
Definition dupdate {V} (d o : list (str * V)) : list (str * V) :=
  fold_left (fun d kv => dset d kv.1 kv.2) o d.
Definition ds_merge (ds other : dataset) : mut dataset :=
  if negb (Bool.eqb (d_delayed ds) (d_delayed other)) then (ds, Some ValueError) else
  let '(vars, ok) := merge_vars (d_vars ds) (d_vars other) in
  let ds := with_vars ds vars in
  if negb ok then (ds, Some ValueError) else
  if negb (forallb (fun dn => match dget (d_dims ds) dn.1 with None => true | Some m => m =? dn.2 end)
                   (d_dims other)) then (ds, Some ValueError) else
  (Dataset (dupdate (d_dims ds) (d_dims other)) (d_vars ds)
           (dupdate (dict_of (d_attrs ds)) (d_attrs other))
           (d_chunks ds) (d_block ds) (d_delayed ds), None).

(** dataset.py:727-762 (and meta.py:420-448), the condition of
    [select_variables_by_dims] *)
Definition dims_condition (dims : list str) (predicate : bool) (vdims : list str) : bool :=
  match dims with
  | [] => Bool.eqb (length vdims =? 0) predicate
  | _ => Bool.eqb (existsb (fun d => memb d dims) vdims) predicate
  end.
Definition ds_select_variables_by_dims (ds : dataset) (dims : list str) (predicate : bool) : res dataset :=
  new_dataset (List.filter (fun v => dims_condition dims predicate (v_dims v)) (dvals (d_vars ds)))
    (d_attrs ds) (Some (d_block ds)) (d_chunks ds) None.

(** dataset.py:495-510, [set_for_insertion] *)
Definition ds_set_for_insertion (ds : dataset) (chunks : list (str * nat)) (block : Z) : res dataset :=
  new_dataset (map (fun v => with_attrs v []) (dvals (d_vars ds))) [] (Some block) chunks None.

(** dataset.py:512-519, [copy_properties] *)
Definition ds_copy_properties (self ds : dataset) : dataset :=
  Dataset (d_dims self) (d_vars self) (d_attrs self) (d_chunks ds) (d_block ds) (d_delayed self).

(** ** Masked values (variable/array.py) *)

(** Data given to a variable: a plain or a masked array. *)
Inductive vdata := Plain (a : arr) | Masked (m : marr).

(** variable/abc.py:107-134, [not_equal], for two values of the same type. *)
Definition not_equal (a b : val) : bool :=
  match a, b with NaN, NaN => false | _, _ => negb (py_eq a b) end.

(** variable/array.py:24-47, [_as_numpy_array] (and delayed_array.py:95-119,
    [_as_dask_array]) *)
Definition as_numpy_array (d : vdata) (fill_value : option val) : res (arr * option val) :=
  match d with
  | Plain a => Ok (a, fill_value)
  | Masked m =>
      match fill_value with
      | Some f => if not_equal f (m_fill m) then Raise ValueError
                  else Ok (filled m (m_fill m), Some (m_fill m))
      | None => Ok (filled m (m_fill m), Some (m_fill m))
      end
  end.

(** variable/array.py:101-113, [values]; delayed_array.py:174-195, [data] *)
Definition var_values (v : variable) : vdata :=
  match v_fill v with None => Plain (v_array v) | Some f => Masked (masked_equal (v_array v) f) end.

(** variable/array.py:115-134, the setter of [values] *)
Definition var_set_values (v : variable) (d : vdata) : res variable :=
  let shape := match d with Plain a => a_shape a | Masked m => a_shape (m_data m) end in
  if negb (length shape =? length (v_dims v)) then Raise ValueError else
  do af <- as_numpy_array d (v_fill v);
  Ok (Var (v_name v) (v_delayed v) af.1 (v_dtype v) (v_dims v) (v_attrs v) (v_compressor v) af.2 (v_filters v)).

(** variable/array.py:154-163, [fill] *)
Definition var_fill (v : variable) : variable :=
  match v_fill v with
  | None => v
  | Some f => with_array v (full (v_shape v) f)
  end.
