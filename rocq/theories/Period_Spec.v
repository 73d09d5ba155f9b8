(** * Specification vocabulary for periods

    At resolution [r], the instants are the multiples of the unit; a period at
    that resolution is the set of instants from its first to its last one.
    Nothing here refers to the code of the operations. *)
From Verif Require Import Py Period_Model.
Local Open Scope Z_scope.

(** The [k]-th instant at resolution [r]. *)
Definition instant (r : resolution) (k : Z) : dt64 := DT (unit_ticks r * k) r.

(** [p] is the period whose first instant is [b] and last instant is [l], at
    resolution [r] (empty when [l < b]). *)
Definition spans (r : resolution) (p : period) (b l : Z) : Prop :=
  p_begin p = instant r b /\ p_last p = instant r l /\
  p_unit p = DT (unit_ticks r) r.

(** [p] is a period at resolution [r]. *)
Definition at_resolution (r : resolution) (p : period) : Prop :=
  exists b l, spans r p b l.

(** Instant [k] belongs to the period. *)
Definition occurs (r : resolution) (p : period) (k : Z) : Prop :=
  tick (p_begin p) <= tick (instant r k) <= tick (p_last p).

Definition empty (r : resolution) (p : period) : Prop := forall k, ~ occurs r p k.

(** The pictures that document the relations (period.py:46-153), in terms of
    the first and last instants [b1], [l1] of the first period and [b2], [l2]
    of the second.  A period reduced to a shared boundary instant counts as
    touching. *)
Definition picture (rel : PeriodRelation) (b1 l1 b2 l2 : Z) : Prop :=
  match rel with
  | AFTER => l2 < b1
  | BEFORE => l1 < b2
  | EXACT_MATCH => b1 = b2 /\ l1 = l2
  | START_TOUCHING => l2 = b1 /\ ~ (b1 = b2 /\ l1 = l2)
  | END_TOUCHING => l1 = b2 /\ ~ (b1 = b2 /\ l1 = l2)
  | START_INSIDE => b2 < b1 /\ b1 < l2 /\ l2 < l1
  | END_INSIDE => b1 < b2 /\ b2 < l1 /\ l1 < l2
  | ENCLOSING_START_TOUCHING => b1 = b2 /\ b2 < l2 /\ l2 < l1
  | ENCLOSING => b1 < b2 /\ l2 < l1
  | ENCLOSING_END_TOUCHING => b1 < b2 /\ b2 < l2 /\ l2 = l1
  | INSIDE_START_TOUCHING => b1 = b2 /\ b1 < l1 /\ l1 < l2
  | INSIDE => b2 < b1 /\ l1 < l2
  | INSIDE_END_TOUCHING => b2 < b1 /\ b1 < l1 /\ l1 = l2
  end.

(** The relation seen from the other period. *)
Definition mirror (rel : PeriodRelation) : PeriodRelation :=
  match rel with
  | AFTER => BEFORE | BEFORE => AFTER
  | EXACT_MATCH => EXACT_MATCH
  | START_TOUCHING => END_TOUCHING | END_TOUCHING => START_TOUCHING
  | START_INSIDE => END_INSIDE | END_INSIDE => START_INSIDE
  | ENCLOSING_START_TOUCHING => INSIDE_START_TOUCHING
  | INSIDE_START_TOUCHING => ENCLOSING_START_TOUCHING
  | ENCLOSING => INSIDE | INSIDE => ENCLOSING
  | ENCLOSING_END_TOUCHING => INSIDE_END_TOUCHING
  | INSIDE_END_TOUCHING => ENCLOSING_END_TOUCHING
  end.
