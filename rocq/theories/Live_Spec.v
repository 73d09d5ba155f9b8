(** * Vocabulary about two processes that use the same files *)
From Verif Require Import Py FS_Model Storage_Model.

(** Two calls, each in its own process: at each step one of them makes an
    operation on the files, or is found in the middle of it. *)
Inductive beside {A B} : (program A * program B) * store -> (program A * program B) * store -> Prop :=
  | beside_left p p' q s s' : step CTorn (p, s) (p', s') -> beside ((p, q), s) ((p', q), s')
  | beside_right p q q' s s' : step CTorn (q, s) (q', s') -> beside ((p, q), s) ((p, q'), s').

(** The call [p] may return [r] when the files are [u], if the call [q] runs in
    another process and both start in the state [s]. The call [q] may be over,
    or not. *)
Definition may_return {A B} (p : program A) (q : program B) (s : store) (r : res A) (u : store) : Prop :=
  exists q', rtc beside ((p, q), s) ((Ret r, q'), u).
