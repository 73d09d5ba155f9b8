(** * Vocabulary about calls that are repeated *)
From Verif Require Import Py FS_Model Storage_Model Crash_Spec.

(** The calls are made one after the other, numbered from 0, the first one in
    the state [u]: the state in which the call [k] starts, what it returns and
    the state it leaves. *)
Fixpoint state_before {A} (call : nat -> program A) (u : store) (k : nat) : store :=
  match k with O => u | S k => snd (exec (call k) (state_before call u k)) end.
Definition call_of {A} (call : nat -> program A) (u : store) (k : nat) : res A * store := exec (call k) (state_before call u k).

(** The state [u] is left by any number of the calls [p] with [call p], made one
    after the other from the state [s], each of them stopped anywhere or run
    to its end. *)
Inductive left_by {A} (call : program A -> Prop) (s : store) : store -> Prop :=
  | left_none : left_by call s s
  | left_more p w u : left_by call s w -> call p -> stopped_at p w u -> left_by call s u.
