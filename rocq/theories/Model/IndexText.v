(** * The text of dates and durations (time.py 87-88, 187-188), as a hash sees it *)
From Verif Require Import Model.Base Model.State Model.Dec Model.Time Model.Value Model.Encoder Model.TimeText Model.Orm.
Local Open Scope Z_scope.

(** time.py 187-188 __str__: Lib/datetime.py timedelta.__str__, "%d day%s, " if there are days and "%d:%02d:%02d" (there are never microseconds) *)
Definition td_str (d : timedelta) : pystr :=
  let s := td_secs d in
  (if td_days d =? 0 then [] else str_of_Z (td_days d) ++ (if Z.abs (td_days d) =? 1 then u " day, " else u " days, "))
  ++ str_of_Z (s / 3600) ++ u ":" ++ padded 2 (s / 60 mod 60) ++ u ":" ++ padded 2 (s mod 60).
(** orm.py 72, 83: str(key) with dates and durations; [ostr] remains the text of bytes and containers *)
Definition index_text (ostr : pyval -> pystr) (v : pyval) : pystr :=
  match v with VTime t => dt_str t | VDelta d => td_str d | _ => ostr v end.
