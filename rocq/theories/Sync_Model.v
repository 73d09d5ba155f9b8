(** * Processes that share a synchronizer

    Several processes modify one store. Each of them runs calls one after the
    other; a call submits tasks to the workers of its process and uses the
    synchronizer. *)
From Verif Require Import Py FS_Model FS_Proofs Pool_Model.

(** sync.py:35-73: no synchronization, or a lock shared by the processes (the
    files locked by fasteners.InterProcessLock). *)
Inductive sync := NoSync | ProcessSync.

Section sync.
  Context {C : Type} (torn : C).
  Local Notation task := (prog C unit).

  (** What a process still has to do. *)
  Inductive script :=
    | Stop                                (* the calls are over *)
    | Enter (k : script)                  (* [__enter__] *)
    | Exit (k : script)                   (* [__exit__] *)
    | Submit (ts : list task) (k : script) (* the tasks start on the workers *)
    | Gather (k fail : script)            (* [client.gather]: the results of all the tasks, or an error of one of them *)
    | Await (k : script).                 (* [dask.distributed.wait]: until every task is over *)

  (** storage.py:73-82, [execute_transaction], when the tasks are submitted by
      [client.compute]: the tasks are lazy.  After a failure, nothing follows. *)
  Definition transaction (ts : list task) (k : script) : script :=
    match ts with
    | [] => k
    | _ => Enter (Submit ts (Gather (Exit k) (Exit (Await Stop))))
    end.
  (** storage.py:73-82, [execute_transaction], when the tasks were submitted by
      [client.map] or [persist] before the call. *)
  Definition transaction_submitted (ts : list task) (k : script) : script :=
    match ts with
    | [] => k
    | _ => Submit ts (Enter (Gather (Exit k) (Exit (Await Stop))))
    end.

  Inductive call :=
    (** collection/__init__.py:301-414, [insert]: the write of the immutable
        variables, if they are not stored yet, and the batches of partitions *)
    | Insert (immutable : option task) (batches : list (list task))
    (** collection/__init__.py:417-475 [drop_partitions], 478-585 [update],
        587-627 [drop_variable], 629-689 [add_variable] *)
    | Modify (tasks : list task).

  (** storage.py:250-280, [write_zarr_group] under the synchronizer: the process
      writes by itself. *)
  Definition script_call (c : call) (k : script) : script :=
    match c with
    | Insert im bs => transaction (option_list im) (foldr transaction k bs)
    | Modify ts => Enter (Exit (transaction_submitted ts k)) (* collection/abc.py:354-357: the list of the partitions *)
    end.
  Definition script_calls (cs : list call) : script := foldr script_call Stop cs.

  (** A process: what it still has to do, and the tasks it submitted, as far as
      they have gone. *)
  Record process := Process { pr_script : script; pr_tasks : list task }.
  (** The store, the process that holds the lock, whether the file of the lock
      exists, and the processes. *)
  Record system := System { sy_store : fs C; sy_owner : option nat; sy_file : bool; sy_procs : list process }.

  Definition over (p : task) : Prop := exists r, p = Ret r.
  Definition failed (p : task) : Prop := exists e, p = Ret (Raise e).

  (** sync.py:38-39 and 59-60, [__enter__]: blocks while the lock is held *)
  Definition enter (k : sync) (i : nat) (o : option nat) : option (option nat) :=
    match k with
    | NoSync => Some o
    | ProcessSync => match o with None => Some (Some i) | Some _ => None end
    end.
  (** sync.py:41-43 and 62-66, [__exit__]: the error of a lock that is not held
      is ignored *)
  Definition exit (k : sync) (i : nat) (o : option nat) : option nat :=
    match k with
    | NoSync => o
    | ProcessSync => if decide (o = Some i) then None else o
    end.
  (** sync.py:45-48 and 71-73, [is_locked]: the file of the lock exists. It is
      made when the lock is taken and never removed. *)
  Definition is_locked (k : sync) (y : system) : bool :=
    match k with NoSync => false | ProcessSync => sy_file y end.

  (** One process makes one step, or one of its tasks does. *)
  Inductive system_step (k : sync) : system -> system -> Prop :=
    | step_task y i p ts s :
        sy_procs y !! i = Some p -> pool_step torn (pr_tasks p, sy_store y) (ts, s) ->
        system_step k y (System s (sy_owner y) (sy_file y) (<[i := Process (pr_script p) ts]> (sy_procs y)))
    | step_enter y i p q o :
        sy_procs y !! i = Some p -> pr_script p = Enter q -> enter k i (sy_owner y) = Some o ->
        system_step k y (System (sy_store y) o (match k with NoSync => sy_file y | ProcessSync => true end) (<[i := Process q (pr_tasks p)]> (sy_procs y)))
    | step_exit y i p q :
        sy_procs y !! i = Some p -> pr_script p = Exit q ->
        system_step k y (System (sy_store y) (exit k i (sy_owner y)) (sy_file y) (<[i := Process q (pr_tasks p)]> (sy_procs y)))
    | step_submit y i p q ts :
        sy_procs y !! i = Some p -> pr_script p = Submit ts q ->
        system_step k y (System (sy_store y) (sy_owner y) (sy_file y) (<[i := Process q (pr_tasks p ++ ts)]> (sy_procs y)))
    | step_gather y i p q f :
        sy_procs y !! i = Some p -> pr_script p = Gather q f -> Forall over (pr_tasks p) -> Forall (fun t => ~ failed t) (pr_tasks p) ->
        system_step k y (System (sy_store y) (sy_owner y) (sy_file y) (<[i := Process q []]> (sy_procs y)))
    | step_error y i p q f :
        sy_procs y !! i = Some p -> pr_script p = Gather q f -> Exists failed (pr_tasks p) ->
        system_step k y (System (sy_store y) (sy_owner y) (sy_file y) (<[i := Process f (pr_tasks p)]> (sy_procs y)))
    | step_await y i p q :
        sy_procs y !! i = Some p -> pr_script p = Await q -> Forall over (pr_tasks p) ->
        system_step k y (System (sy_store y) (sy_owner y) (sy_file y) (<[i := Process q (pr_tasks p)]> (sy_procs y))).

  (** The processes at the beginning of their calls. *)
  Definition start (calls : list (list call)) (s : fs C) : system :=
    System s None false (map (fun cs => Process (script_calls cs) []) calls).
End sync.
Arguments script : clear implicits.
Arguments call : clear implicits.
Arguments process : clear implicits.
Arguments system : clear implicits.
