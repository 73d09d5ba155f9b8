(** * Tasks run by dask workers

    The tasks of a transaction run concurrently: a schedule tells which of them
    makes the next operation, or is found in the middle of a write. *)
From Verif Require Import Py FS_Model.

Section pool.
  Context {C : Type} (torn : C).

  (** The end of a program as a value. *)
  Fixpoint attempt {A} (p : prog C A) : prog C (res A) :=
    match p with
    | Ret r => pret r
    | Op o k => Op o (fun r => attempt (k r))
    end.
  Fixpoint run_all {A} (ps : list (prog C A)) : prog C (list (res A)) :=
    match ps with
    | [] => pret []
    | p :: ps => pbind (attempt p) (fun r => pbind (run_all ps) (fun rs => pret (r :: rs)))
    end.

  (** What happens next: a task makes its next operation, or the file it is
      writing is incomplete. *)
  Definition schedule : Type := list (nat * bool).

  (** The tasks [ps] interleaved as the schedule says; when the schedule is
      over, the tasks that are not finished run one after the other. All the
      interleavings of all the operations are given by some schedule. *)
  Fixpoint interleave {A} (sched : schedule) (ps : list (prog C A)) : prog C (list (res A)) :=
    match sched with
    | [] => run_all ps
    | (i, tear) :: sched =>
        match ps !! i with
        | Some (Op o k) =>
            match tear, o with
            | true, Write p _ => Op (Write p torn) (fun _ => interleave sched ps)
            | _, _ => Op o (fun r => interleave sched (<[i := k r]> ps))
            end
        | _ => interleave sched ps
        end
    end.

  (** The first error of a list of results. *)
  Fixpoint first_error {A} (rs : list (res A)) : res (list A) :=
    match rs with
    | [] => Ok []
    | Raise e :: _ => Raise e
    | Ok a :: rs => do l <- first_error rs; Ok (a :: l)
    end.

  (** storage.py:47-82, [execute_transaction]: every task runs to its end, then
      the error of one of them is raised. The lock is modelled in Sync_Model. *)
  Definition execute_transaction {A} (sched : schedule) (ps : list (prog C A)) : prog C (list A) :=
    pbind (interleave sched ps) (fun rs => Ret (first_error rs)).
End pool.
