(** * The proleptic Gregorian calendar, by counting days *)
From Verif Require Import Py Calendar_Model.
Local Open Scope Z_scope.

Definition leap (y : Z) : bool :=
  (y mod 4 =? 0) && (negb (y mod 100 =? 0) || (y mod 400 =? 0)).

Definition days_in_month (y m : Z) : Z :=
  match m with
  | 2 => if leap y then 29 else 28
  | 4 | 6 | 9 | 11 => 30
  | _ => 31
  end.

Definition valid_date (y m d : Z) : Prop := 1 <= m <= 12 /\ 1 <= d <= days_in_month y m.

(** The day after. *)
Definition next_day (ymd : Z * Z * Z) : Z * Z * Z :=
  let '(y, m, d) := ymd in
  if d <? days_in_month y m then (y, m, d + 1)
  else if m <? 12 then (y, m + 1, 1)
  else (y + 1, 1, 1).

(** Chronological order of dates. *)
Definition date_lt (a b : Z * Z * Z) : Prop :=
  let '(y, m, d) := a in let '(y', m', d') := b in
  y < y' \/ (y = y' /\ (m < m' \/ (m = m' /\ d < d'))).

(** The fields of an instant given in seconds since 1970-01-01T00:00:00,
    relative to the date of its day. *)
Definition has_fields (secs : Z) (f : list Z) : Prop :=
  exists y m d h mi s, f = [y; m; d; h; mi; s] /\
    civil_from_days (secs / 86400) = (y, m, d) /\
    0 <= h < 24 /\ 0 <= mi < 60 /\ 0 <= s < 60 /\
    secs = (secs / 86400) * 86400 + h * 3600 + mi * 60 + s.
