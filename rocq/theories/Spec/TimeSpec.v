(** * What dates and durations mean, independent of the calendar algorithms *)
From Verif Require Import Model.Base Model.Time.
Local Open Scope Z_scope.

(** Gregorian calendar: month lengths and the day after a day. *)
Definition leap_year (y : Z) : Prop := (4 | y) /\ (~ (100 | y) \/ (400 | y)).
Inductive month_length : Z -> Z -> Z -> Prop :=
| ml31 y m : In m [1; 3; 5; 7; 8; 10; 12] -> month_length y m 31
| ml30 y m : In m [4; 6; 9; 11] -> month_length y m 30
| ml29 y : leap_year y -> month_length y 2 29
| ml28 y : ~ leap_year y -> month_length y 2 28.
Inductive next_day : Z * Z * Z -> Z * Z * Z -> Prop :=
| nd_day y m d l : month_length y m l -> d < l -> next_day (y, m, d) (y, m, d + 1)
| nd_month y m d : month_length y m d -> m < 12 -> next_day (y, m, d) (y, m + 1, 1)
| nd_year y : next_day (y, 12, 31) (y + 1, 1, 1).
(** 1 January 1 is day 1. *)
Inductive day_number : Z * Z * Z -> Z -> Prop :=
| dn_first : day_number (1, 1, 1) 1
| dn_next a b n : day_number a n -> next_day a b -> day_number b (n + 1).

(** [t] is [n] microseconds after midnight before 1 January 1 (day 0). *)
Definition instant (t : datetime) (n : Z) : Prop :=
  exists day, day_number (dt_year t, dt_month t, dt_day t) day /\
    n = (((day * 24 + dt_hour t) * 60 + dt_minute t) * 60 + dt_second t) * 1000000 + dt_micro t.

(** The datetimes and timedeltas contracts can hold *)
Inductive is_datetime : datetime -> Prop :=
| isdt y mo d h mi s us t : mk_datetime y mo d h mi s us = Ok t -> is_datetime t.
Inductive is_timedelta : timedelta -> Prop :=
| istd w d h m s t : mk_timedelta w d h m s = Ok t -> is_timedelta t.
(** total seconds of a timedelta, from its constructor arguments *)
Definition total (w d h m s : Z) : Z := s + 60 * (m + 60 * (h + 24 * (d + 7 * w))).
Definition has_total (t : timedelta) (n : Z) : Prop :=
  exists w d h m s, mk_timedelta w d h m s = Ok t /\ n = total w d h m s.
(** a timedelta result for [n] seconds: OverflowError beyond 999999999 days *)
Definition td_result (r : result timedelta) (n : Z) : Prop :=
  if ((- 999999999 * 86400 <=? n) && (n <? 1000000000 * 86400))%bool
  then exists t, r = Ok t /\ has_total t n
  else r = Err EOverflowError.
