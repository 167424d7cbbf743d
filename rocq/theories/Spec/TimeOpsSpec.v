(** * What operators on dates and durations should give, in instants (microseconds) and totals (seconds) *)
From Verif Require Import Model.Base Model.Time Model.Value Model.TimeOps Spec.TimeSpec.
Local Open Scope Z_scope.

(** [r] is the date at instant [n], or OverflowError if there is no such date *)
Definition date_result (r : result pyval) (n : Z) : Prop :=
  (exists b, r = Ok (VTime b) /\ is_datetime b /\ instant b n) \/
  (r = Err EOverflowError /\ forall b nb, is_datetime b -> instant b nb -> nb <> n).
(** [r] is the duration of [n] seconds, or OverflowError beyond 999999999 days *)
Definition duration_result (r : result pyval) (n : Z) : Prop :=
  if ((- 999999999 * 86400 <=? n) && (n <? 1000000000 * 86400))%bool
  then exists t, r = Ok (VDelta t) /\ has_total t n
  else r = Err EOverflowError.
Definition is_time (v : pyval) : Prop := exists d, v = VTime d.
Definition is_delta (v : pyval) : Prop := exists t, v = VDelta t.
(** the whole numbers: True is 1 and False is 0 *)
Definition whole (v : pyval) (k : Z) : Prop :=
  v = VInt k \/ (v = VBool true /\ k = 1) \/ (v = VBool false /\ k = 0).
(** the order of two integers *)
Definition z_cmp (o : cmpop) (a b : Z) : bool :=
  match o with OLt => a <? b | OLe => a <=? b | OEq => a =? b | ONe => negb (a =? b) | OGe => b <=? a | OGt => b <? a end.
