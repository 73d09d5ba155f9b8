(** * Model of merging/period.py *)
From Verif Require Import Py.
Local Open Scope Z_scope.

(** zcollection/merging/period.py:24-25, [RESOLUTION]: a resolution is an index
    in the tuple ('as', 'fs', 'ps', 'ns', 'us', 'ms', 's', 'm', 'h', 'D', 'W').
    Simplification: 'M' and 'Y' (months and years, of irregular length) are
    left out, so that an instant is an integer number of attoseconds. *)
Definition resolution := nat.
Definition unit_ticks (r : resolution) : Z :=
  match r with
  | 0%nat => 1 | 1%nat => 10^3 | 2%nat => 10^6 | 3%nat => 10^9 | 4%nat => 10^12
  | 5%nat => 10^15 | 6%nat => 10^18 | 7%nat => 60 * 10^18
  | 8%nat => 3600 * 10^18 | 9%nat => 86400 * 10^18
  | _ => 604800 * 10^18
  end.

(** A numpy.datetime64 or timedelta64: a number of attoseconds (since 1970 for
    a date) and the resolution of its dtype. Simplification: no NaT, no 64-bit
    overflow. *)
Record dt64 := DT { tick : Z; reso : resolution }.

(** NumPy arithmetic: the result has the finer of the two resolutions. *)
Definition dt_add (a b : dt64) : dt64 := DT (tick a + tick b) (Nat.min (reso a) (reso b)).
Definition dt_sub (a b : dt64) : dt64 := DT (tick a - tick b) (Nat.min (reso a) (reso b)).

(** zcollection/merging/period.py:36-39, [_min_time64_unit]. *)
Definition min_time64_unit (a b : dt64) : resolution := Nat.min (reso a) (reso b).

(** zcollection/merging/period.py:42-153, [PeriodRelation]; the integer values
    of the enumeration only serve as identities. *)
Inductive PeriodRelation :=
  | AFTER | START_TOUCHING | START_INSIDE | INSIDE_START_TOUCHING
  | ENCLOSING_START_TOUCHING | ENCLOSING | ENCLOSING_END_TOUCHING
  | EXACT_MATCH | INSIDE | INSIDE_END_TOUCHING | END_INSIDE | END_TOUCHING
  | BEFORE.

(** zcollection/merging/period.py:155-193: predicates on relations. *)
Definition rel_is_after (r : PeriodRelation) : bool :=
  match r with AFTER => true | _ => false end.
Definition rel_is_before (r : PeriodRelation) : bool :=
  match r with BEFORE => true | _ => false end.
Definition rel_contains (r : PeriodRelation) : bool :=
  match r with
  | ENCLOSING_END_TOUCHING | ENCLOSING_START_TOUCHING | ENCLOSING | EXACT_MATCH => true
  | _ => false end.
Definition rel_is_before_overlapping (r : PeriodRelation) : bool :=
  match r with END_INSIDE | END_TOUCHING | INSIDE_START_TOUCHING => true | _ => false end.
Definition rel_is_after_overlapping (r : PeriodRelation) : bool :=
  match r with START_INSIDE | START_TOUCHING | INSIDE_END_TOUCHING => true | _ => false end.
Definition rel_is_inside (r : PeriodRelation) : bool :=
  match r with INSIDE => true | _ => false end.

(** zcollection/merging/period.py:206, slots of [Period]. *)
Record period := MkPeriod { p_begin : dt64; p_unit : dt64; p_last : dt64 }.

(** zcollection/merging/period.py:208-222, [Period.__init__]. *)
Definition Period (begin end_ : dt64) (within : bool) : period :=
  let duration_unit := min_time64_unit begin end_ in
  let u := DT (unit_ticks duration_unit) duration_unit in
  MkPeriod begin u (if within then end_ else dt_sub end_ u).

(** zcollection/merging/period.py:233-245, [Period.from_duration]. *)
Definition from_duration (begin duration : dt64) : period :=
  Period begin (dt_add begin duration) false.

(** zcollection/merging/period.py:257-259, [Period.end]. *)
Definition p_end (p : period) : dt64 := dt_add (p_last p) (p_unit p).

(** zcollection/merging/period.py:261-263, [Period.is_null]. *)
Definition is_null (p : period) : bool := tick (p_end p) <=? tick (p_begin p).

(** zcollection/merging/period.py:265-270, [Period.length]. *)
Definition p_length (p : period) : dt64 :=
  if tick (p_last p) <? tick (p_begin p)
  then dt_sub (dt_add (p_last p) (p_unit p)) (p_begin p)
  else dt_sub (p_end p) (p_begin p).

(** zcollection/merging/period.py:272-285, comparison operators. *)
Definition p_eq (p q : period) : bool :=
  (tick (p_begin p) =? tick (p_begin q)) && (tick (p_last p) =? tick (p_last q)).
Definition p_ne (p q : period) : bool :=
  negb (tick (p_begin p) =? tick (p_begin q)) || negb (tick (p_last p) =? tick (p_last q)).
Definition p_lt (p q : period) : bool := tick (p_last p) <? tick (p_begin q).

(** zcollection/merging/period.py:287-294, [Period.shift] (returns the mutated
    object). *)
Definition p_shift (p : period) (d : dt64) : period :=
  MkPeriod (dt_add (p_begin p) d) (p_unit p) (dt_add (p_last p) d).

(** zcollection/merging/period.py:296-319, [Period.expand]. *)
Definition p_expand (p : period) (d : dt64) : period :=
  MkPeriod (dt_sub (p_begin p) d) (p_unit p) (dt_add (p_last p) d).

(** zcollection/merging/period.py:321-339, [Period.contains], with a date and
    with a period. *)
Definition contains_date (p : period) (d : dt64) : bool :=
  (tick (p_begin p) <=? tick d) && (tick d <=? tick (p_last p)).
Definition contains (p q : period) : bool :=
  (tick (p_begin p) <=? tick (p_begin q)) && (tick (p_last q) <=? tick (p_last p)).

(** zcollection/merging/period.py:341-360, [Period.is_adjacent]. *)
Definition is_adjacent (p q : period) : bool :=
  (tick (p_begin q) =? tick (p_end p)) || (tick (p_begin p) =? tick (p_end q)).

(** zcollection/merging/period.py:362-382, [Period.is_after]. *)
Definition is_after (p : period) (point : dt64) : bool :=
  if is_null p then false else tick point <? tick (p_begin p).

(** zcollection/merging/period.py:384-405, [Period.is_before]. *)
Definition is_before (p : period) (point : dt64) : bool :=
  if is_null p then false else tick (p_last p) <? tick point.

(** zcollection/merging/period.py:407-429, [Period.intersects]. *)
Definition intersects (p q : period) : bool :=
  contains_date p (p_begin q) || contains_date q (p_begin p)
  || ((tick (p_begin q) <? tick (p_begin p)) && (tick (p_begin p) <=? tick (p_last q))).

(** zcollection/merging/period.py:431-447, [Period.intersection]. *)
Definition intersection (p q : period) : period :=
  if tick (p_begin q) <? tick (p_begin p) then
    if tick (p_last p) <=? tick (p_last q) then p
    else Period (p_begin p) (p_end q) false
  else if tick (p_last p) <=? tick (p_last q) then Period (p_begin q) (p_end p) false
  else q.

(** zcollection/merging/period.py:449-467, [Period.merge]. *)
Definition merge (p q : period) : period :=
  if intersects p q then
    let e := if tick (p_last q) <? tick (p_last p) then p_end p else p_end q in
    if tick (p_begin p) <? tick (p_begin q) then Period (p_begin p) e false
    else Period (p_begin q) e false
  else Period (p_begin p) (p_begin p) false.

(** zcollection/merging/period.py:469-497, [Period.span]. *)
Definition span (p q : period) : period :=
  let start := if tick (p_begin p) <? tick (p_begin q) then p_begin p else p_begin q in
  let e := if tick (p_last p) <? tick (p_last q) then p_end q else p_end p in
  Period start e false.

(** zcollection/merging/period.py:502-525, [Period._get_direct_relation]. *)
Definition get_direct_relation (p q : period) : option PeriodRelation :=
  if tick (p_last q) <? tick (p_begin p) then Some AFTER
  else if tick (p_last p) <? tick (p_begin q) then Some BEFORE
  else if (tick (p_begin q) =? tick (p_begin p)) && (tick (p_last q) =? tick (p_last p))
  then Some EXACT_MATCH
  else if tick (p_last q) =? tick (p_begin p) then Some START_TOUCHING
  else if tick (p_begin q) =? tick (p_last p) then Some END_TOUCHING
  else if contains p q then
    if tick (p_begin q) =? tick (p_begin p) then Some ENCLOSING_START_TOUCHING
    else if tick (p_last q) =? tick (p_last p) then Some ENCLOSING_END_TOUCHING
    else Some ENCLOSING
  else None.

(** zcollection/merging/period.py:528-554, [Period.get_relation]. *)
Definition get_relation (p q : period) : res PeriodRelation :=
  match get_direct_relation p q with
  | Some r => Ok r
  | None =>
      let period_contains_start := contains_date q (p_begin p) in
      let period_contains_end := contains_date q (p_last p) in
      if period_contains_start && period_contains_end then
        if tick (p_begin q) =? tick (p_begin p) then Ok INSIDE_START_TOUCHING
        else if tick (p_last q) =? tick (p_last p) then Ok INSIDE_END_TOUCHING
        else Ok INSIDE
      else if period_contains_start then Ok START_INSIDE
      else if negb period_contains_end then Raise AssertionError
      else Ok END_INSIDE
  end.
