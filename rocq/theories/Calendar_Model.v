(** * Calendar arithmetic used by the Date partitioning

    numpy.datetime64 and datetime.datetime follow the proleptic Gregorian
    calendar; these library functions are modelled here by the standard
    days-to-date algorithm, and checked in Calendar_Proofs against an
    independent definition of the calendar (Calendar_Spec). *)
From Verif Require Import Py.
Local Open Scope Z_scope.

(** Years are counted from the first of March, so that a leap day is the last
    day of its year. Month and day of the day number [doy] (0 to 365) of such
    a year. *)
Definition month_day (doy : Z) : Z * Z :=
  let mp := (5 * doy + 2) / 153 in
  (if mp <? 10 then mp + 3 else mp - 9, doy - (153 * mp + 2) / 5 + 1).
Definition day_of_year (m d : Z) : Z :=
  let mp := if 2 <? m then m - 3 else m + 9 in (153 * mp + 2) / 5 + d - 1.

(** Civil date of the day number [z] (day 0 is 1970-01-01). *)
Definition civil_from_days (z : Z) : Z * Z * Z :=
  let w := z + 719468 in
  let era := w / 146097 in
  let n := w mod 146097 in
  let c := Z.min (n / 36524) 3 in
  let n := n - c * 36524 in
  let q := n / 1461 in
  let n := n mod 1461 in
  let a := Z.min (n / 365) 3 in
  let doy := n - a * 365 in
  let y := 400 * era + 100 * c + 4 * q + a in
  let '(m, d) := month_day doy in
  (if m <=? 2 then y + 1 else y, m, d).

(** Day number of a civil date, the inverse of the above. *)
Definition days_from_civil (y m d : Z) : Z :=
  let y := if m <=? 2 then y - 1 else y in
  365 * y + y / 4 - y / 100 + y / 400 + day_of_year m d - 719468.

(** The resolutions of zcollection/partitioning/date.py:21, [RESOLUTION]:
    'Y', 'M', 'D', 'h', 'm', 's'. *)
Inductive dres := RY | RM | RD | Rh | Rm | Rs.
Global Instance dres_eq_dec : EqDecision dres.
Proof. solve_decision. Defined.
Definition dres_index (r : dres) : nat :=
  match r with RY => 0 | RM => 1 | RD => 2 | Rh => 3 | Rm => 4 | Rs => 5 end.

(** [values.astype('datetime64\[r\]')] (date.py:142) for a date of [t] ticks,
    [tps] ticks per second (10^9 for nanoseconds): number of units of [r] since
    1970, rounded towards the past. *)
Definition trunc_seconds (r : dres) (secs : Z) : Z :=
  let days := secs / 86400 in
  match r with
  | RY => let '(y, _, _) := civil_from_days days in y - 1970
  | RM => let '(y, m, _) := civil_from_days days in (y - 1970) * 12 + (m - 1)
  | RD => days
  | Rh => secs / 3600
  | Rm => secs / 60
  | Rs => secs
  end.
Definition trunc (tps : Z) (r : dres) (t : Z) : Z := trunc_seconds r (t / tps).

(** [datetime64.astype('M8\[s\]')] for a date at resolution [r]: the first
    second of the unit. *)
Definition unit_start (r : dres) (c : Z) : Z :=
  match r with
  | RY => days_from_civil (1970 + c) 1 1 * 86400
  | RM => days_from_civil (1970 + c / 12) (c mod 12 + 1) 1 * 86400
  | RD => c * 86400
  | Rh => c * 3600
  | Rm => c * 60
  | Rs => c
  end.

(** [datetime64.item()] for a date in seconds, seen through its attributes
    year, month, day, hour, minute, second.  Outside the years 1 to 9999,
    [item()] returns an integer, which has none of these attributes. *)
Definition datetime_fields (secs : Z) : res (list Z) :=
  let '(y, m, d) := civil_from_days (secs / 86400) in
  if (1 <=? y) && (y <=? 9999)
  then Ok [y; m; d; secs mod 86400 / 3600; secs mod 3600 / 60; secs mod 60]
  else Raise AttributeError.
