(** * What the theorems on compressed arrays talk about *)
From Verif Require Import Py NdArray_Model NdArray_Spec Dataset_Model.

(** The items of an array, also those below a mask. *)
Definition items (d : vdata) : arr := match d with Plain a => a | Masked m => m_data m end.
(** An array of the same shape with 1 where the item is masked and 0 elsewhere. *)
Definition hidden (d : vdata) : arr :=
  match d with
  | Plain a => Arr (a_shape a) (map (fun _ => Num 0) (a_flat a))
  | Masked m => Arr (a_shape (m_data m)) (map (fun b : bool => Num (if b then 1 else 0)) (m_mask m))
  end.
Definition is_masked (d : vdata) : Prop := exists m, d = Masked m.
(** [d] is [d1], [d2], ... joined along the axis [ax]. *)
Definition joined (ax : nat) (ds : list vdata) (d : vdata) : Prop :=
  rows ax (items d) = concat (map (fun d => rows ax (items d)) ds) /\
  rows ax (hidden d) = concat (map (fun d => rows ax (hidden d)) ds).
