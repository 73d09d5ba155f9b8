(** * What is expected of processes that share a synchronizer *)
From Verif Require Import Py FS_Model FS_Proofs Pool_Model Sync_Model.

Section sync.
  Context {C : Type} (torn : C).
  Implicit Types (y : system C) (s : fs C).

  (** The states the processes can be in. *)
  Definition reachable (k : sync) (calls : list (list (call C))) s y : Prop :=
    rtc (system_step torn k) (start calls s) y.

  (** A task of the process [i] is running. *)
  Definition busy y (i : nat) : Prop :=
    exists p t, sy_procs y !! i = Some p /\ t ∈ pr_tasks p /\ ~ over t.
  (** No task has failed so far. *)
  Definition no_failure y : Prop := forall i p t, sy_procs y !! i = Some p -> t ∈ pr_tasks p -> ~ failed t.
  Definition all_stopped y : Prop := forall i p, sy_procs y !! i = Some p -> pr_script p = Stop.
  Definition inserts (c : call C) : Prop := exists im bs, c = Insert im bs.

  (** The groups of tasks a call runs: the write of the immutable variables and
      the batches. *)
  Definition groups (c : call C) : list (list (prog C unit)) :=
    match c with
    | Insert im bs => match im with Some t => [t] :: bs | None => bs end
    | Modify ts => [ts]
    end.

  (** The groups of tasks of several processes, run one after the other, each
      process in its own order, the tasks of a group together and without any
      other: [s'] is a possible outcome. *)
  Inductive one_by_one : list (list (list (prog C unit))) -> fs C -> fs C -> Prop :=
    | one_end gs s : Forall (eq []) gs -> one_by_one gs s s
    | one_next gs i g r l s s1 s' :
        gs !! i = Some (g :: r) -> rtc (pool_step torn) (g, s) (map Ret (map Ok l), s1) ->
        one_by_one (<[i := r]> gs) s1 s' -> one_by_one gs s s'.
End sync.
