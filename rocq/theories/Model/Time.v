(** * stdlib/bridge/time.py and the parts of Python's datetime it uses *)
From Verif Require Import Model.Base.
Local Open Scope Z_scope.

(** CPython Lib/datetime.py:53-57 _is_leap *)
Definition is_leap (y : Z) : bool :=
  ((y mod 4 =? 0) && (negb (y mod 100 =? 0) || (y mod 400 =? 0)))%bool.
(** Lib/datetime.py:59-62 _days_before_year *)
Definition days_before_year (y : Z) : Z :=
  let p := y - 1 in p * 365 + p / 4 - p / 100 + p / 400.
(** Lib/datetime.py _DAYS_IN_MONTH *)
Definition DAYS_IN_MONTH (m : Z) : Z :=
  nth (Z.to_nat m) [-1; 31; 28; 31; 30; 31; 30; 31; 31; 30; 31; 30; 31] 0.
(** Lib/datetime.py _DAYS_BEFORE_MONTH *)
Definition DAYS_BEFORE_MONTH (m : Z) : Z :=
  nth (Z.to_nat m) [-1; 0; 31; 59; 90; 120; 151; 181; 212; 243; 273; 304; 334] 0.
(** Python: int(b) of a bool *)
Definition b2z (b : bool) : Z := if b then 1 else 0.
(** _days_in_month, _days_before_month, _ymd2ord *)
Definition days_in_month (y m : Z) : Z :=
  if ((m =? 2) && is_leap y)%bool then 29 else DAYS_IN_MONTH m.
(** Lib/datetime.py _days_before_month *)
Definition days_before_month (y m : Z) : Z :=
  DAYS_BEFORE_MONTH m + b2z ((2 <? m) && is_leap y).
(** Lib/datetime.py _ymd2ord *)
Definition ymd2ord (y m d : Z) : Z := days_before_year y + days_before_month y m + d.
(** _ord2ymd *)
Definition ord2ymd (ordinal : Z) : Z * Z * Z :=
  let n := ordinal - 1 in
  let n400 := n / 146097 in let n := n mod 146097 in
  let n100 := n / 36524 in let n := n mod 36524 in
  let n4 := n / 1461 in let n := n mod 1461 in
  let n1 := n / 365 in let n := n mod 365 in
  let year := n400 * 400 + 1 + n100 * 100 + n4 * 4 + n1 in
  if ((n1 =? 4) || (n100 =? 4))%bool then (year - 1, 12, 31)
  else
    let leap := ((n1 =? 3) && (negb (n4 =? 24) || (n100 =? 3)))%bool in
    let month := (n + 50) / 32 in
    let preceding := DAYS_BEFORE_MONTH month + b2z ((2 <? month) && leap) in
    let '(month, preceding) :=
      if n <? preceding
      then (month - 1, preceding - (DAYS_IN_MONTH (month - 1) + b2z ((month - 1 =? 2) && leap)))
      else (month, preceding) in
    (year, month, n - preceding + 1).

(** ** Datetime: the wrapped datetime, no time zone *)
Record datetime : Type := mkdt {
  dt_year : Z; dt_month : Z; dt_day : Z; dt_hour : Z; dt_minute : Z; dt_second : Z; dt_micro : Z }.

(** Lib/datetime.py _MAXORDINAL *)
Definition MAXORDINAL : Z := 3652059.
(** the range of a C int: OverflowError outside (Modules/_datetimemodule.c) *)
Definition c_int (z : Z) : bool := ((- 2 ^ 31 <=? z) && (z <? 2 ^ 31))%bool.

(** time.py:27-44 Datetime.__init__ with datetime.datetime's own checks: arguments are C ints
    (OverflowError), then field ranges (ValueError). *)
Definition datetime_valid (t : datetime) : bool :=
  ((1 <=? dt_year t) && (dt_year t <=? 9999) && (1 <=? dt_month t) && (dt_month t <=? 12)
   && (1 <=? dt_day t) && (dt_day t <=? days_in_month (dt_year t) (dt_month t))
   && (0 <=? dt_hour t) && (dt_hour t <? 24) && (0 <=? dt_minute t) && (dt_minute t <? 60)
   && (0 <=? dt_second t) && (dt_second t <? 60) && (0 <=? dt_micro t) && (dt_micro t <? 1000000))%bool.
(** time.py 27-44 Datetime.__init__ *)
Definition mk_datetime (y mo d h mi s us : Z) : result datetime :=
  if negb (forallb c_int [y; mo; d; h; mi; s; us]) then Err EOverflowError
  else let t := mkdt y mo d h mi s us in if datetime_valid t then Ok t else Err EValue.

(** time.py:46-74 comparisons: datetime compares its fields in order *)
Definition dt_fields (t : datetime) : list Z :=
  [dt_year t; dt_month t; dt_day t; dt_hour t; dt_minute t; dt_second t; dt_micro t].
(** Python: comparison of tuples of ints *)
Fixpoint lex_compare (a b : list Z) : comparison :=
  match a, b with
  | x :: a', y :: b' => match Z.compare x y with Eq => lex_compare a' b' | c => c end
  | [], [] => Eq | [], _ => Lt | _, [] => Gt
  end.
(** Lib/datetime.py datetime._cmp *)
Definition dt_compare (a b : datetime) : comparison := lex_compare (dt_fields a) (dt_fields b).
(** time.py 46-49 __lt__ *)
Definition dt_lt a b : bool := match dt_compare a b with Lt => true | _ => false end.
(** time.py 51-54 __le__ *)
Definition dt_le a b : bool := match dt_compare a b with Gt => false | _ => true end.
(** time.py 56-59 __eq__ *)
Definition dt_eq a b : bool := match dt_compare a b with Eq => true | _ => false end.
(** time.py 71-74 __ne__ *)
Definition dt_ne a b : bool := negb (dt_eq a b).
(** time.py 61-64 __ge__ *)
Definition dt_ge a b : bool := match dt_compare a b with Lt => false | _ => true end.
(** time.py 66-69 __gt__ *)
Definition dt_gt a b : bool := match dt_compare a b with Gt => true | _ => false end.

(** ** Timedelta: the wrapped timedelta (days, seconds; the microseconds are always 0 because
    every component is passed through int) and the cached raw seconds *)
Record timedelta : Type := mktd { td_days : Z; td_secs : Z; td_raw : Z }.

(** time.py:15-23 *)
Definition get_raw_seconds (weeks days hours minutes seconds : Z) : Z :=
  let m_sec := minutes * 60 in
  let h_sec := hours * 3600 in
  let d_sec := days * 86400 in
  let w_sec := weeks * 604800 in
  seconds + m_sec + h_sec + d_sec + w_sec.

(** time.py:108-122 Timedelta.__init__; datetime.timedelta normalises to days and
    0 <= seconds < 86400 and raises OverflowError when |days| > 999999999. *)
Definition mk_timedelta (weeks days hours minutes seconds : Z) : result timedelta :=
  let total := ((weeks * 7 + days) * 24 + hours) * 3600 + minutes * 60 + seconds in
  let d := total / 86400 in
  if ((-999999999 <=? d) && (d <=? 999999999))%bool
  then Ok (mktd d (total mod 86400) (get_raw_seconds weeks days hours minutes seconds))
  else Err EOverflowError.

(** time.py:124-152 *)
Definition td_compare (a b : timedelta) : comparison := lex_compare [td_days a; td_secs a] [td_days b; td_secs b].
(** time.py 124-127 __lt__ *)
Definition td_lt a b : bool := match td_compare a b with Lt => true | _ => false end.
(** time.py 129-132 __le__ *)
Definition td_le a b : bool := match td_compare a b with Gt => false | _ => true end.
(** time.py 134-137 __eq__ *)
Definition td_eq a b : bool := match td_compare a b with Eq => true | _ => false end.
(** time.py 149-152 __ne__ *)
Definition td_ne a b : bool := negb (td_eq a b).
(** time.py 139-142 __ge__ *)
Definition td_ge a b : bool := match td_compare a b with Lt => false | _ => true end.
(** time.py 144-147 __gt__ *)
Definition td_gt a b : bool := match td_compare a b with Gt => true | _ => false end.

(** time.py:155-158 Timedelta + Timedelta *)
Definition td_add (a b : timedelta) : result timedelta :=
  mk_timedelta 0 (td_days a + td_days b) 0 0 (td_secs a + td_secs b).
(** time.py:166-169 Timedelta - Timedelta *)
Definition td_sub (a b : timedelta) : result timedelta :=
  mk_timedelta 0 (td_days a - td_days b) 0 0 (td_secs a - td_secs b).
(** time.py:177-180 Timedelta * Timedelta *)
Definition td_mul (a b : timedelta) : result timedelta :=
  mk_timedelta 0 (td_days a * td_days b) 0 0 (td_secs a * td_secs b).
(** time.py:181-183 Timedelta * int *)
Definition td_mul_int (a : timedelta) (k : Z) : result timedelta :=
  mk_timedelta 0 (td_days a * k) 0 0 (td_secs a * k).
(** time.py:194-212 *)
Definition td_seconds (a : timedelta) : Z := td_raw a.
(** time.py 199-200 minutes *)
Definition td_minutes (a : timedelta) : Z := td_raw a / 60.
(** time.py 203-204 hours *)
Definition td_hours (a : timedelta) : Z := td_raw a / 3600.
(** time.py 207-208 days *)
Definition td_days_prop (a : timedelta) : Z := td_raw a / 86400.
(** time.py 211-212 weeks *)
Definition td_weeks (a : timedelta) : Z := td_raw a / 604800.

(** datetime.datetime + timedelta: OverflowError when the day leaves 1..MAXORDINAL;
    [sign] = -1 gives datetime - timedelta.  timedelta negation is exact, days may reach
    -1000000000 there, which is out of the date range anyway. *)
Definition secs_of_day (t : datetime) : Z := dt_hour t * 3600 + dt_minute t * 60 + dt_second t.
(** Lib/datetime.py datetime.__add__ / __sub__ of a timedelta (time.py 76-85) *)
Definition dt_shift (sign : Z) (t : datetime) (d : timedelta) : result datetime :=
  let secs := secs_of_day t + sign * td_secs d in
  let day := ymd2ord (dt_year t) (dt_month t) (dt_day t) + sign * td_days d + secs / 86400 in
  let s := secs mod 86400 in
  if ((0 <? day) && (day <=? MAXORDINAL))%bool then
    let '(y, m, dd) := ord2ymd day in
    (* time.py:94-101 _from_datetime: constructed again from the fields *)
    mk_datetime y m dd (s / 3600) (s mod 3600 / 60) (s mod 60) (dt_micro t)
  else Err EOverflowError.
(** time.py:82-85 Datetime + Timedelta, time.py:160-162 Timedelta + Datetime *)
Definition dt_add (t : datetime) (d : timedelta) : result datetime := dt_shift 1 t d.
(** time.py:171-173 Timedelta - Datetime is (sic) the datetime minus the timedelta *)
Definition td_sub_dt (d : timedelta) (t : datetime) : result datetime := dt_shift (-1) t d.
(** time.py:76-80 Datetime - Datetime: the difference's days and seconds; its microseconds are dropped.
    datetime.__sub__ normalises microseconds into seconds (floor) first. *)
Definition dt_sub (a b : datetime) : result timedelta :=
  let days := ymd2ord (dt_year a) (dt_month a) (dt_day a) - ymd2ord (dt_year b) (dt_month b) (dt_day b) in
  let us := dt_micro a - dt_micro b in
  let secs := secs_of_day a - secs_of_day b + us / 1000000 in
  mk_timedelta 0 (days + secs / 86400) 0 0 (secs mod 86400).
