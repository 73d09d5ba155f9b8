(** * Compressed arrays (compressed_array.py) *)
From Verif Require Import Py NdArray_Model Dataset_Model FS_Model Storage_Model Update_Model.

(** A zarr array in memory: its items, what decompressing its chunks gives, and
    the sizes of its chunks.  Simplification: the codecs give back what they
    were given. *)
Record zarray := ZArr { za_data : arr; za_chunks : list nat }.

(** compressed_array.py:44-62: the array and the attribute [_fill_value] *)
Record compressed := Compressed { ca_array : zarray; ca_fill : option val }.

(** What [CompressedArray] can be given. *)
Inductive given := GNumpy (d : vdata) | GZarr (z : zarray) | GCompressed (c : compressed) | GOther.

(** zarr.array(data): of a masked array, the items below the mask are stored
    too, as they are. *)
Definition zarr_array (d : vdata) (chunks : list nat) : zarray :=
  ZArr (match d with Plain a => a | Masked m => m_data m end) chunks.

(** compressed_array.py:44-62, [__init__]; [extra]: there are arguments beside
    the array; [fill_value] and [chunks]: those of them that matter here. *)
Definition compress (g : given) (extra : bool) (fill_value : option val) (chunks : list nat) : res compressed :=
  match g with
  | GNumpy d => Ok (Compressed (zarr_array d chunks) fill_value)
  | GZarr z => if extra then Raise ValueError else Ok (Compressed z fill_value)
  | GCompressed c => Ok (Compressed (ca_array c) (ca_fill c))
  | GOther => Raise TypeError
  end.

(** The end of [__getitem__] and [__array__]: masked where there is a fill
    value. *)
Definition with_mask (fill : option val) (a : arr) : vdata :=
  match fill with None => Plain a | Some f => Masked (masked_equal a f) end.
(** compressed_array.py:77-92, [__getitem__] *)
Definition getitem (c : compressed) (key : list indexer) : res vdata :=
  do a <- index_axes 0 key (za_data (ca_array c)); Ok (with_mask (ca_fill c) a).
(** compressed_array.py:185-200, [__array__], without a data type *)
Definition to_array (c : compressed) : vdata := with_mask (ca_fill c) (za_data (ca_array c)).
(** compressed_array.py:169-183, [rechunk] *)
Definition rechunk (c : compressed) (chunks : list nat) : res compressed :=
  compress (GZarr (ZArr (za_data (ca_array c)) chunks)) false None [].

(** compressed_array.py:202-216, [_cast]: an operand of an operation *)
Inductive operand := OCompressed (c : compressed) | OArray (d : vdata) | OScalar (v : val) | OOther.
Definition cast (self : compressed) (o : operand) : res (vdata + val) :=
  match o with
  | OCompressed c => Ok (inl (with_mask (ca_fill self) (za_data (ca_array c))))
  | OArray d => Ok (inl d)
  | OScalar v => Ok (inr v)
  | OOther => Raise TypeError
  end.
(** compressed_array.py:244-271, [__array_ufunc__]: what the function is called
    with *)
Definition ufunc_inputs (self : compressed) (args : list operand) : res (list (vdata + val)) := traverse (cast self) args.

(** compressed_array.py:308-314, [_concatenate_compressed_array], along the axis
    [ax]: numpy.ma.concatenate if one of the arrays has a fill value. The mask
    of a masked array without mask is false; numpy gives the result its default
    fill value, for which NaN stands. *)
Definition mask_of (d : vdata) : arr :=
  match d with Plain a => Arr (a_shape a) (map (fun _ => Num 0) (a_flat a)) | Masked m => mask_arr m end.
Definition data_of (d : vdata) : arr := match d with Plain a => a | Masked m => m_data m end.
Definition concatenate (ax : nat) (c : compressed) (cs : list compressed) : res vdata :=
  do a <- cat ax (data_of (to_array c)) (map (fun c => data_of (to_array c)) cs);
  if existsb (fun c => match ca_fill c with Some _ => true | None => false end) (c :: cs) then
    do b <- cat ax (mask_of (to_array c)) (map (fun c => mask_of (to_array c)) cs);
    Ok (Masked (MArr a (map (fun v => bool_decide (v = Num 1)) (a_flat b)) NaN))
  else Ok (Plain a).

(** compressed_array.py:218-242, [__array_function__]: what the function is
    called with *)
Definition function_inputs (args : list operand) : list operand :=
  map (fun o => match o with OCompressed c => OArray (to_array c) | o => o end) args.
