(** * Specification vocabulary for the copies of trees *)
From Verif Require Import Py FS_Model Tree_Model.

Section tree.
  Context {C : Type}.
  Implicit Types t : disk C.

  (** What is at a path: the root is a directory. *)
  Definition at_path t (p : path) : option (node C) := match p with [] => Some Dir | _ => t !! p end.
  (** The entries of a tree are in directories. *)
  Definition well_formed t : Prop := t !! [] = None /\ forall p n, is_Some (t !! (p ++ [n])) -> at_path t p = Some Dir.
  (** Strictly below. *)
  Definition below (p q : path) : Prop := exists n r, q = p ++ n :: r.
End tree.
