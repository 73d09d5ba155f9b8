(** * Records of an array along an axis *)
From Verif Require Import Py NdArray_Model.

(** An index is within a shape. *)
Definition valid (s idx : list nat) : Prop := Forall2 lt idx s.

(** Record [i] along axis [ax]: the sub-array obtained by fixing the index of
    that axis. *)
Definition row (ax : nat) (a : arr) (i : nat) : arr :=
  tabulate (delete ax (a_shape a)) (fun idx => get a (take ax idx ++ i :: drop ax idx)).

(** The records of an array along axis [ax], in order. *)
Definition rows (ax : nat) (a : arr) : list arr :=
  map (row ax a) (seq 0 (nth ax (a_shape a) 0)).
